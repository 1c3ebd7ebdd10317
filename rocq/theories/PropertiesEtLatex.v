(** Property theorems C47 and C63 - C68: the LaTeX of the e^T ansatz. *)
From Coq Require Import ZArith Lia Factorial.
From Verif Require Import PyBase ModelTrunc SpecTrunc ModelFullCC ModelFullCCPy ModelFullCCLatex ModelZhz ModelEt ModelEtPy ModelEtLatex
  ProofsW ProofsFullCCFile SpecFullCCLatex SpecZhz SpecEt SpecEtPy ProofsEt ProofsEtPy SpecEtLatex ProofsEtLatex ProofsEtLatexTerm ProofsEtLatexFile ProofsEtLatexIndices.
Open Scope string_scope.

(** As at the end of render_eT_equation: empty braces are removed from the text of an equation. *)
Definition tidied_text_of (s : string) : string := replace_empty "_{}" (replace_empty "^{}" s).

(** What is printed for a contraction: the text of its term as
    third_eTz_term gives it, or this text with its empty braces removed. *)
Definition printed_for (s : side) (remove_f : bool) (P q m n k : nat) (c : contraction) (text : string) : Prop :=
  exists x, third_eTz_term remove_f true (written P q m n k c) = Ok (Some x) /\
    (text = render_elterm s x \/ text = tidied_text_of (render_elterm s x)).

Local Ltac printed H :=
  let x := fresh in let H1 := fresh in let H2 := fresh in let x' := fresh in let E' := fresh in let T1 := fresh in let T2 := fresh in
  match goal with
  | C : complete ?P ?q ?m ?n ?k ?c |- _ =>
    match type of H with printed_for ?s ?rf _ _ _ _ _ _ _ =>
      destruct H as (x & H1 & H2); destruct (term_printed s P rf q m n k c C) as (x' & E' & T1 & T2);
      rewrite H1 in E'; injection E' as <-; destruct H2 as [-> | ->]; [generalize T1|generalize T2]
    end
  end.

(** C47: for every list of terms and every width of the lines, the printed sum
    has the texts of the terms in their order, with the duplicates left out
    the first occurrence of each; terms that are dropped (remove_f_terms) have
    no text, and nothing is printed if a term cannot be.  *)
Theorem C47_sum_printed :
  forall s w remove_f prefactors distinct ts,
    1 <= w ->
    (forall os, mapM (third_eTz_term remove_f prefactors) ts = Ok os ->
       exists x, prepare_third_eTz_latex s w remove_f prefactors distinct ts = Ok x /\
         let ss := map (render_elterm s) (flat_map option_list os) in
         eT_sum_text w (if distinct then first_occurrences ss else ss) (render_esum_latex s x)) /\
    (forall e, mapM (third_eTz_term remove_f prefactors) ts = Err e ->
       prepare_third_eTz_latex s w remove_f prefactors distinct ts = Err e).
Proof. exact sum_printed. Qed.
Print Assumptions C47_sum_printed.

(** The first occurrences are all elements, each once, in the order in which
    they come first. *)
Theorem C47_first_occurrences :
  forall l, NoDup (first_occurrences l) /\ (forall x, In x (first_occurrences l) <-> In x l) /\
    (forall x, ~ In x l -> first_occurrences (l ++ [x]) = (first_occurrences l ++ [x])%list) /\
    (forall x, In x l -> first_occurrences (l ++ [x]) = first_occurrences l).
Proof. exact first_occurrences_facts. Qed.
Print Assumptions C47_first_occurrences.

(** Three terms with a duplicate in lines of one term. *)
Example C47_example :
  let a := written 1 0 0 0 1 (mkcontraction 1 0 [] 0 []) in
  let b := written 1 1 0 0 2 (mkcontraction 1 0 [1] 0 [0]) in
  (exists os, mapM (third_eTz_term false true) [a; b; a] = Ok os) /\
  (do x <- prepare_third_eTz_latex RHS 1 false true true [a; b; a]; Ok (render_esum_latex RHS x))
  = Ok "(\mathds{1}\bh_0\bz^{\red{y}}_{} + \bar{f}\frac{(2)}{2!}\bt^{}_{\magenta{}\blue{}\magenta{k}\red{}}\bh_0\bz^{\magenta{k}\red{y}}_{})".
Proof. cbv zeta. split; [eexists; vm_compute; reflexivity|vm_compute; reflexivity]. Qed.

(** C63: the file has a section for every projection, whose equation has one
    term for every kind of contraction and no other, all of them different. *)
Theorem C63_file_text :
  forall s H cc P e remove_f,
    1 <= e -> Nat.min cc P <= 8 ->
    exists text, generate_eT_z_t_symmetric_latex s true remove_f H cc 1 e P = Ok text /\ eT_latex_text s H cc P e remove_f text.
Proof. exact eT_latex_file_ok. Qed.
Print Assumptions C63_file_text.

(** The text of a term (its braces tidied, as the file is) tells the kinds of
    contractions of a projection apart, on either side, also when the letters
    have run out.  The operators of H have at most two creation operators. *)
Theorem C63_kinds_differ :
  forall s P remove_f q m n k c q' m' n' k' c' x x',
    complete P q m n k c -> complete P q' m' n' k' c' -> m <= 2 -> m' <= 2 -> allowed_on s n -> allowed_on s n' ->
    third_eTz_term remove_f true (written P q m n k c) = Ok (Some x) ->
    third_eTz_term remove_f true (written P q' m' n' k' c') = Ok (Some x') ->
    tidied_text_of (render_elterm s x) = tidied_text_of (render_elterm s x') -> pairs_of c = pairs_of c'.
Proof. exact kinds_differ. Qed.
Print Assumptions C63_kinds_differ.

(** h^2_0 with one annihilation operator of the projection, one amplitude paired
    with it and two with z; two contractions of this kind have the same text. *)
Example C63_example :
  let c := mkcontraction 1 0 [1; 1; 0] 1 [0; 0; 1] in
  let c' := mkcontraction 1 0 [0; 1; 1] 1 [1; 0; 0] in
  complete 2 3 2 0 3 c /\ complete 2 3 2 0 3 c' /\ eT_pairs RHS 2 2 3 3 (pairs_of c) /\ eT_pairs LHS 2 2 3 3 (pairs_of c') /\
  exists x, third_eTz_term false true (written 2 3 2 0 3 c) = Ok (Some x) /\ third_eTz_term false true (written 2 3 2 0 3 c') = Ok (Some x) /\
    tidied_text_of (render_elterm RHS x) = "\bar{f}^{3}\frac{(2)(3)2!}{2!3!3!}\bt_{\magenta{}\blue{}\magenta{k}\red{}}\bt_{\magenta{}\blue{}\magenta{l}\red{}}\bt_{\magenta{}\blue{m}\magenta{}\red{}}\bh^{\blue{}\blue{}\blue{m}\blue{}\red{y}}\bz^{\magenta{k}\magenta{l}\magenta{}\red{x}}".
Proof.
  cbv zeta. split; [|split].
  - repeat split; cbn; try lia. intros [|[|[|i]]] Hi; cbn; lia.
  - repeat split; cbn; try lia. intros [|[|[|i]]] Hi; cbn; lia.
  - split; [unfold eT_pairs, h_allowed, allowed_on, k_up, k_down, k_z, k_t; cbn; repeat split; lia|].
    split; [unfold eT_pairs, h_allowed, allowed_on, k_up, k_down, k_z, k_t; cbn; repeat split; lia|].
    eexists. split; [vm_compute; reflexivity|]. split; [vm_compute; reflexivity|]. vm_compute. reflexivity.
Qed.

(** A whole file: one amplitude at most, ranks 1. *)
Example C63_file_example :
  exists text, generate_eT_z_t_symmetric_latex LHS true false 1 1 1 1 1 = Ok text /\ 1000 < String.length text.
Proof. eexists. split; [vm_compute; reflexivity|]. apply Nat.ltb_lt. vm_compute. reflexivity. Qed.

(** C64: every contraction is printed with a fraction of value 1 / d, d the
    product of the factorials of the pairs of z, of H and of z with H, and of
    the number of amplitudes ([latex_divisor] in [eT_term_text]) ... *)
Theorem C64_printed_prefactor :
  forall s P remove_f q m n k c,
    complete P q m n k c ->
    exists x, third_eTz_term remove_f true (written P q m n k c) = Ok (Some x) /\
      eT_term_text false s (pairs_of c) (render_elterm s x) /\ eT_term_text true s (pairs_of c) (tidied_text_of (render_elterm s x)).
Proof. exact (fun s P rf q m n k c => term_printed s P rf q m n k c). Qed.
Print Assumptions C64_printed_prefactor.

(** ... while the python code for the same contraction has one over the
    factorials of all numbers of pairs.  The two agree exactly when not both z
    and H are paired with amplitudes: the contractions that differ in which of
    the amplitudes these are have the same text and are printed once. *)
Theorem C64_same_as_python :
  forall P q m n k c,
    complete P q m n k c ->
    (exists num den, build_eT_zhz_python_prefactor (tt_ts (written P q m n k c)) (tt_h (written P q m n k c)) (tt_z (written P q m n k c)) = Ok (num, den) /\
       (num * all_factorials (pairs_of c) = den)%nat /\ den <> 0) /\
    (latex_divisor (pairs_of c) * (fact (k_zt (pairs_of c)) * fact (k_ht (pairs_of c))) = all_factorials (pairs_of c) * fact q)%nat /\
    (latex_divisor (pairs_of c) = all_factorials (pairs_of c) <-> k_zt (pairs_of c) = 0 \/ k_ht (pairs_of c) = 0).
Proof. exact same_as_python. Qed.
Print Assumptions C64_same_as_python.

(** An accepted truncation with a term whose prefactors differ: one of two
    amplitudes is paired with z and one with h^1_0.  Python multiplies with 1,
    LaTeX prints 1/2. *)
Theorem C64_refuted :
  exists d c, is_dict d /\ acceptable ETz d /\ has_value d KH 1%Z /\ has_value d KCC 1%Z /\ has_value d KeT 2%Z /\ has_value d KP 1%Z /\
    complete 0 2 1 0 1 c /\ eT_pairs RHS 0 1 1 2 (pairs_of c) /\
    (do nd <- build_eT_zhz_python_prefactor (tt_ts (written 0 2 1 0 1 c)) (tt_h (written 0 2 1 0 1 c)) (tt_z (written 0 2 1 0 1 c)); Ok (fraction nd)) = Ok (1, 1) /\
    (do x <- third_eTz_term false true (written 0 2 1 0 1 c); Ok (option_map (fun x => tidied_text_of (render_elterm RHS x)) x))
    = Ok (Some "\bar{f}^{2}\frac{1}{2!}\bt_{\magenta{}\blue{}\magenta{k}\red{}}\bt_{\magenta{}\blue{l}\magenta{}\red{}}\bh^{\blue{}\blue{l}\blue{}\red{}}\bz^{\magenta{k}\magenta{}\red{}}").
Proof.
  exists [(DEnum KH, 1%Z); (DEnum KCC, 1%Z); (DEnum KT, 1%Z); (DEnum KeT, 2%Z); (DEnum KP, 1%Z)], (mkcontraction 0 0 [1; 0] 0 [0; 1]).
  split; [repeat constructor; cbn; intuition discriminate|]. split.
  { split.
    - intros k v [[= <- _]|[[= <- _]|[[= <- _]|[[= <- _]|[[= <- _]|[]]]]]]; eexists; reflexivity.
    - intros k top [[= <- <-]|[[= <- <-]|[[= <- <-]|[[= <- <-]|[[= <- <-]|[]]]]]]; eexists; (split; [unfold has_value; cbn; auto 10|]); lia. }
  do 4 (split; [unfold has_value; cbn [In]; auto 10|]).
  split; [repeat split; cbn; try lia; intros [|[|i]] Hi; cbn; lia|].
  split; [unfold eT_pairs, h_allowed, allowed_on, k_up, k_down, k_z, k_t; cbn; repeat split; lia|]. split; vm_compute; reflexivity.
Qed.
Print Assumptions C64_refuted.

(** C65: read off the printed text, the letters of the pairs of amplitudes with
    z (magenta) and of all other summed pairs (blue) are the same above and
    below, in the same order, and no letter is used for two pairs; the pairs
    with the projection carry the first free letters, all above. *)
Theorem C65_letters :
  forall s remove_f P q m n r c text, complete P q m n r c -> printed_for s remove_f P q m n r c text ->
    let k := pairs_of c in
    (summed_upper text = letters_from inner_letters (k_zt k) (k_ht k + k_zh k) /\ summed_lower text = letters_from inner_letters (k_zt k) (k_ht k + k_zh k)) /\
    (z_upper text = letters_from inner_letters 0 (k_zt k) /\ z_lower text = letters_from inner_letters 0 (k_zt k)) /\
    free_upper text = letters_from outer_letters 0 (k_zp k + k_hp k) /\ free_lower text = [].
Proof. intros s rf P q m n r c text C T. printed T; apply printed_letters. Qed.
Print Assumptions C65_letters.

(** Every pair has a letter exactly when there are at most five summed and
    seven free ones. *)
Theorem C65_enough_letters :
  forall s remove_f P q m n r c text, complete P q m n r c -> printed_for s remove_f P q m n r c text ->
    let k := pairs_of c in
    (enough_letters k <->
     (List.length (summed_upper text) + List.length (z_upper text) = k_t k + k_zh k /\ List.length (free_upper text) = k_zp k + k_hp k)%nat).
Proof. intros s rf P q m n r c text C T. printed T; apply letters_last. Qed.
Print Assumptions C65_enough_letters.

Example C65_example :
  let c := mkcontraction 1 1 [1; 0] 1 [0; 1] in
  let text := "\bar{f}^{3}\frac{(2)(3)(2)}{2!3!2!}\bt_{\magenta{}\blue{}\magenta{k}\red{}}\bt_{\magenta{}\blue{l}\magenta{}\red{}}\bh^{\blue{}\blue{l}\blue{}\red{y}}_{\blue{m}\red{}}\bz^{\magenta{k}\magenta{}\blue{m}\red{x}}" in
  complete 2 2 2 1 3 c /\ printed_for RHS false 2 2 2 1 3 c text /\ enough_letters (pairs_of c) /\
  summed_upper text = ["l"; "m"]%char /\ summed_lower text = ["l"; "m"]%char /\ z_upper text = ["k"%char] /\ z_lower text = ["k"%char] /\
  free_upper text = ["y"; "x"]%char.
Proof.
  cbv zeta. split; [repeat split; cbn; try lia; intros [|[|i]] Hi; cbn; lia|].
  split; [eexists; split; [vm_compute; reflexivity|right; vm_compute; reflexivity]|]. split; [unfold enough_letters, pairs_of, k_t; cbn; lia|]. vm_compute. auto.
Qed.

(** An accepted truncation whose file has a term with pairs without letters:
    six amplitudes paired with z. *)
Theorem C65_refuted :
  exists d k, is_dict d /\ acceptable ETz d /\ has_value d KH 1%Z /\ has_value d KCC 6%Z /\ has_value d KeT 6%Z /\ has_value d KP 1%Z /\
    eT_pairs RHS 0 1 6 6 k /\ ~ enough_letters k /\
    exists c, complete 0 6 0 0 6 c /\ pairs_of c = k /\ printed_for RHS false 0 6 0 0 6 c "\bar{f}^{6}\frac{6!}{6!6!}\bt_{\magenta{}\blue{}\magenta{k}\red{}}\bt_{\magenta{}\blue{}\magenta{l}\red{}}\bt_{\magenta{}\blue{}\magenta{m}\red{}}\bt_{\magenta{}\blue{}\magenta{n}\red{}}\bt_{\magenta{}\blue{}\magenta{o}\red{}}\bt_{\magenta{}\blue{}\magenta{}\red{}}\bh_0\bz^{\magenta{k}\magenta{l}\magenta{m}\magenta{n}\magenta{o}\magenta{}\red{}}".
Proof.
  exists [(DEnum KH, 1%Z); (DEnum KCC, 6%Z); (DEnum KT, 1%Z); (DEnum KeT, 6%Z); (DEnum KP, 1%Z)], (mkpairs 0 0 6 0 0).
  split; [repeat constructor; cbn; intuition discriminate|]. split.
  { split.
    - intros k v [[= <- _]|[[= <- _]|[[= <- _]|[[= <- _]|[[= <- _]|[]]]]]]; eexists; reflexivity.
    - intros k top [[= <- <-]|[[= <- <-]|[[= <- <-]|[[= <- <-]|[[= <- <-]|[]]]]]]; eexists; (split; [unfold has_value; cbn; auto 10|]); lia. }
  do 4 (split; [unfold has_value; cbn [In]; auto 10|]).
  split; [unfold eT_pairs, h_allowed, allowed_on, k_up, k_down, k_z, k_t; cbn; repeat split; lia|].
  split; [unfold enough_letters, k_t; cbn; lia|].
  exists (mkcontraction 0 0 [1; 1; 1; 1; 1; 1] 0 [0; 0; 0; 0; 0; 0]).
  split; [repeat split; cbn; try lia; intros [|[|[|[|[|[|i]]]]]] Hi; cbn; lia|]. split; [reflexivity|].
  eexists. split; [vm_compute; reflexivity|right; vm_compute; reflexivity].
Qed.
Print Assumptions C65_refuted.

(** C66: which files are written, and how the others end. *)
Theorem C66_written :
  forall s ground remove_f H cc e P,
    (exists text, generate_eT_z_t_symmetric_latex s ground remove_f H cc 1 e P = Ok text) <->
    ground = true /\ 1 <= e /\ Nat.min cc P <= 8.
Proof. exact eT_latex_iff. Qed.
Print Assumptions C66_written.

Theorem C66_errors :
  forall s ground remove_f H cc e P err,
    generate_eT_z_t_symmetric_latex s ground remove_f H cc 1 e P = Err err ->
    err = match e, ground with 0, _ => IndexErr | _, false => NotImplementedErr | _, true => IndexErr end.
Proof. exact eT_latex_errors. Qed.
Print Assumptions C66_errors.

(** So every accepted truncation can be written for the ground state, and none
    otherwise. *)
Theorem C66_accepted :
  forall s ground remove_f d H CC e P,
    is_dict d -> acceptable ETz d ->
    has_value d KH (Z.of_nat H) -> has_value d KCC (Z.of_nat CC) -> has_value d KeT (Z.of_nat e) -> has_value d KP (Z.of_nat P) ->
    has_value d KT 1%Z /\
    ((exists text, generate_eT_z_t_symmetric_latex s ground remove_f H CC 1 e P = Ok text) <-> ground = true).
Proof.
  intros s g rf d H CC e P Hd A V1 V2 V3 V4.
  assert (B2 := dict_bound ETz d KCC 6%Z CC Hd A ltac:(cbn; auto) V2).
  assert (B3 := dict_bound ETz d KeT 8%Z e Hd A ltac:(cbn; auto 10) V3).
  split.
  - destruct (proj2 A KT 1%Z) as (v & Hv & B); [cbn; auto|]. now replace v with 1%Z in Hv by lia.
  - rewrite eT_latex_iff. split; [tauto|]. intros ->. repeat split; lia.
Qed.
Print Assumptions C66_accepted.

Example C66_example :
  exists d, is_dict d /\ acceptable ETz d /\ has_value d KH 1%Z /\ has_value d KCC 2%Z /\ has_value d KeT 2%Z /\ has_value d KP 2%Z /\
    (exists text, generate_eT_z_t_symmetric_latex LHS true true 1 2 1 2 2 = Ok text) /\
    generate_eT_z_t_symmetric_latex RHS false true 1 2 1 2 2 = Err NotImplementedErr /\
    generate_eT_z_t_symmetric_latex RHS true true 1 9 1 1 9 = Err IndexErr.
Proof.
  exists [(DEnum KH, 1%Z); (DEnum KCC, 2%Z); (DEnum KT, 1%Z); (DEnum KeT, 2%Z); (DEnum KP, 2%Z)].
  split; [repeat constructor; cbn; intuition discriminate|]. split.
  { split.
    - intros k v [[= <- _]|[[= <- _]|[[= <- _]|[[= <- _]|[[= <- _]|[]]]]]]; eexists; reflexivity.
    - intros k top [[= <- <-]|[[= <- <-]|[[= <- <-]|[[= <- <-]|[[= <- <-]|[]]]]]]; eexists; (split; [unfold has_value; cbn; auto 10|]); lia. }
  do 4 (split; [unfold has_value; cbn [In]; auto 10|]).
  split; [apply eT_latex_iff; cbn; auto with arith|]. split; [apply eT_latex_excited_refused; lia|apply eT_latex_rank9_refused; lia].
Qed.

(** C67: every term of the left hand side has exactly one time derivative, no
    term of the right hand side has one. *)
Theorem C67_one_derivative :
  forall s remove_f P q m n r c text, complete P q m n r c -> printed_for s remove_f P q m n r c text ->
    occurrences_of "\dv{" text = match s with LHS => 1 | RHS => 0 end.
Proof. intros s rf P q m n r c text C T. printed T; apply one_derivative. Qed.
Print Assumptions C67_one_derivative.

Example C67_example :
  let text := "\bar{f}^{2}\frac{(2)(2)}{2!2!2!}\bs_{\magenta{}\blue{}\magenta{k}\red{}}\bs_{\magenta{}\blue{l}\magenta{}\red{}}\left(i\dv{\bt^{\blue{}\blue{l}\blue{}\red{y}}}{\tau}\right)\bz^{\magenta{k}\magenta{}\red{x}}" in
  let c := mkcontraction 1 0 [1; 0] 1 [0; 1] in
  let c' := mkcontraction 1 0 [1] 0 [0] in
  complete 2 2 2 0 2 c /\ printed_for LHS false 2 2 2 0 2 c text /\ occurrences_of "\dv{" text = 1 /\
  complete 1 1 0 0 2 c' /\ printed_for LHS false 1 1 0 0 2 c' "\bar{f}\frac{(2)}{2!}\bs_{\magenta{}\blue{}\magenta{k}\red{}}\mathds1\left(i\dv{\bz^{\magenta{k}\red{y}}}{\tau}\right)".
Proof.
  cbv zeta. split; [repeat split; cbn; try lia; intros [|[|i]] Hi; cbn; lia|].
  split; [eexists; split; [vm_compute; reflexivity|right; vm_compute; reflexivity]|]. split; [vm_compute; reflexivity|].
  split; [repeat split; cbn; try lia; intros [|i] Hi; cbn; lia|]. eexists; split; [vm_compute; reflexivity|right; vm_compute; reflexivity].
Qed.

(** C68: the free letters of a term of an equation are never among those of its
    left hand side and of the terms with h alone, which are the first P of
    i, j, k ... (see [eT_align_text] and [eT_equation_text]). *)
Theorem C68_free_letters_disagree :
  forall s remove_f P q m n r c text, complete P q m n r c -> printed_for s remove_f P q m n r c text -> P <= 7 ->
    List.length (free_upper text) = P /\
    forall x, In x (free_upper text) -> ~ In x (letters_from summed_letters 0 P).
Proof.
  intros s rf P q m n r c text C T B.
  assert (E : (k_zp (pairs_of c) + k_hp (pairs_of c))%nat = P) by (unfold complete in C; unfold pairs_of; cbn; lia).
  rewrite <- E in B.
  printed T; intros T'; rewrite <- E; exact (free_letters_of_term _ s _ _ T' B).
Qed.
Print Assumptions C68_free_letters_disagree.

Example C68_example :
  let text := "\bar{f}\frac{(2)}{2!}\bt_{\magenta{}\blue{}\magenta{k}\red{}}\bh_0\bz^{\magenta{k}\red{y}}" in
  let c := mkcontraction 1 0 [1] 0 [0] in
  complete 1 1 0 0 2 c /\ printed_for RHS false 1 1 0 0 2 c text /\ free_upper text = ["y"%char] /\ letters_from summed_letters 0 1 = ["i"%char].
Proof.
  cbv zeta. split; [repeat split; cbn; try lia; intros [|i] Hi; cbn; lia|].
  split; [eexists; split; [vm_compute; reflexivity|right; vm_compute; reflexivity]|]. vm_compute. auto.
Qed.
