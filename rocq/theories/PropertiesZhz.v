(** Property theorems C22 (Z operators), C36 - C38 and C58 - C61: the z t
    symmetrised equations. *)
From Coq Require Import Lia.
From Verif Require Import PyBase ModelFullCC ModelZhz SpecFullCC SpecFullCCLatex SpecZhz
  ProofsZhz ProofsZhzLatex ProofsZhzFile ProofsZhzEquation.
Open Scope string_scope.

(** C22: the Z operators. *)
Theorem C22_z_operators :
  forall cc ground,
    NoDup (generate_z_operator cc ground) /\
    forall z, In z (generate_z_operator cc ground) <-> z_operator cc ground z.
Proof. exact z_operators_exact. Qed.
Print Assumptions C22_z_operators.

Example C22_z_example :
  z_operator 2 false (mkgop "z^1_1" 2 1 1) /\ In (mkgop "z^1_1" 2 1 1) (generate_z_operator 2 false) /\
  ~ In (mkgop "z^1_1" 2 1 1) (generate_z_operator 2 true).
Proof.
  assert (Z : z_operator 2 false (mkgop "z^1_1" 2 1 1)) by (repeat split; cbn; auto; discriminate).
  split; [exact Z|]. split; [now apply C22_z_operators|]. intros H. apply C22_z_operators in H as (_ & _ & _ & H).
  specialize (H eq_refl). discriminate.
Qed.

(** C36: for any lists of operators the terms are exactly the contractions,
    each once. *)
Theorem C36_terms_exact :
  forall lhs H k l r, h_list H -> z_list l -> z_list r ->
    exists ts, filter_out_valid_z_terms lhs H (sides k l r) = Ok ts /\ NoDup ts /\
      forall t, In t ts <->
        exists c, contracts (g_m lhs) (g_n lhs) (in_h H) (in_z l) (in_z r) k c /\ t = recorded k c.
Proof. exact z_terms_exact. Qed.
Print Assumptions C36_terms_exact.

(** ... and for the operators of the ansatz. *)
Theorem C36_terms_of_ansatz :
  forall lhs H cc ground k,
    exists ts, filter_out_valid_z_terms lhs (pruned_hamiltonian H) (sides k (generate_z_operator cc ground) (generate_z_operator cc ground)) = Ok ts /\
      NoDup ts /\
      forall t, In t ts <->
        exists c, contracts (g_m lhs) (g_n lhs) (h_allowed H) (z_allowed cc ground) (z_allowed cc ground) k c /\ t = recorded k c.
Proof. exact z_terms_of_ansatz. Qed.
Print Assumptions C36_terms_of_ansatz.

(** Different contractions are recorded differently. *)
Theorem C36_recorded_once :
  forall k c d, fits_kind k c -> fits_kind k d -> recorded k c = recorded k d -> c = d.
Proof. exact recorded_inj. Qed.
Print Assumptions C36_recorded_once.

(** A contraction with both Z: the projection "b" annihilates with h, h with
    the left Z, and the two Z with each other. *)
Example C36_example :
  let c := mkpairing 0 0 0  0 1 1  1 0 0  0 0 0 in
  contracts 0 1 (h_allowed 2) (z_allowed 2 false) (z_allowed 2 false) both_sides c /\
  exists ts, filter_out_valid_z_terms (mkgop "b" 1 0 1) (pruned_hamiltonian 2)
               (sides both_sides (generate_z_operator 2 false) (generate_z_operator 2 false)) = Ok ts /\
             In (recorded both_sides c) ts /\ List.length ts = 54.
Proof.
  split.
  - unfold contracts, fits_kind, h_allowed, z_allowed. cbn. repeat split; intros; try discriminate; auto with arith.
  - eexists. split; [vm_compute; reflexivity|]. split; [|reflexivity]. vm_compute. repeat (first [left; reflexivity | right]).
Qed.

(** C37: the text of a sum: the terms in order; from 14 terms on the lines of
    [broken]. *)
Theorem C37_sum :
  forall k rf cs,
    Forall (fun c => fits_kind k c /\ inner c <= 5 /\ outer c <= 7) cs ->
    exists s ss, prepare k (map (recorded k) cs) rf = Ok s /\
      Forall2 (z_term_text false k) (kept rf cs) ss /\ z_sum_text (ending k) ss (render_zsum (ending k) s).
Proof. exact sum_of_contractions. Qed.
Print Assumptions C37_sum.

(** The lines have every term once exactly when the number of terms is 3
    modulo 7. *)
Theorem C37_lines :
  forall A (l : list A) lines, 14 <= List.length l -> broken l lines ->
    (List.concat lines = l <-> List.length l mod 7 = 3).
Proof. exact @broken_complete. Qed.
Print Assumptions C37_lines.

(** Every "(" is closed, except for one in a long sum of h z. *)
Theorem C37_parentheses :
  forall k rf ts os s,
    mapM (print_term k rf) ts = Ok os -> prepare k ts rf = Ok s ->
    occurrences "(" (render_zsum (ending k) s)
    = (occurrences ")" (render_zsum (ending k) s)
       + if Nat.leb 14 (List.length (flat_map option_list os)) then match k with right_only => 1 | _ => 0 end else 0)%nat.
Proof. exact parentheses. Qed.
Print Assumptions C37_parentheses.

Example C37_example :
  let c := mkpairing 0 0 0  0 0 0  0 0 0  1 0 2 in
  fits_kind right_only c /\ inner c <= 5 /\ outer c <= 7 /\
  prepare right_only [recorded right_only c] false
  = prepare_third_z_latex [recorded right_only c] false true /\
  match prepare right_only [recorded right_only c] false with
  | Ok s => render_zsum (ending right_only) s
  | Err _ => ""
  end = "(\bar{f}^{2}\frac{3*2!}{2!3!}\bh^{}_{\blue{}\blue{kl}\red{}}\bz^{\magenta{}\blue{kl}\red{y}}_{})".
Proof.
  cbv zeta. split; [|split; [cbn; auto with arith|split; [cbn; auto with arith|split; [reflexivity|vm_compute; reflexivity]]]].
  split; intros E; [split; reflexivity|discriminate].
Qed.

(** The claim that every term is printed once fails: 36 terms are printed as
    40, four of them twice. *)
Theorem C37_once_refuted :
  exists ts ls, filter_out_valid_z_terms (mkgop "" 0 0 0) (pruned_hamiltonian 2)
                  (ZHZ (generate_z_operator 2 false) (generate_z_operator 2 false)) = Ok ts /\
    prepare_fourth_z_latex ts false = Ok (ZSplit ls) /\
    List.length ts = 36 /\ List.length (List.concat ls) = 40 /\
    firstn 4 (skipn 35 (List.concat ls)) = firstn 4 (skipn 31 (List.concat ls)).
Proof. eexists _, _. split; [vm_compute; reflexivity|]. split; [vm_compute; reflexivity|]. repeat split; vm_compute; reflexivity. Qed.
Print Assumptions C37_once_refuted.

(** Balanced parentheses fail even in the file. *)
Theorem C37_balanced_refuted :
  exists text, generate_z_t_symmetric_latex 13 13 0 true false = Ok text /\
    occurrences "(" text = 6 /\ occurrences ")" text = 5.
Proof. eexists. split; [vm_compute; reflexivity|]. split; vm_compute; reflexivity. Qed.
Print Assumptions C37_balanced_refuted.

(** C38: as long as the letters last (5 pairs among h and Z, 7 with the
    projection) every printed operator carries one letter per index, and a pair
    has the same letter on both operators. *)
Theorem C38_labels :
  forall k rf c, fits_kind k c -> inner c <= 5 -> outer c <= 7 ->
    exists o, print_term k rf (recorded k c) = Ok o /\
      match o with
      | None => rf = true /\ 0 < f_pairs c
      | Some t => ~ (rf = true /\ 0 < f_pairs c) /\ z_term_text false k c (render_zlterm t)
      end.
Proof. exact print_term_ok. Qed.
Print Assumptions C38_labels.

(** In the ground state file the letters last when one of the two ranks is at
    most 5 and the projection has at most 7 operators. *)
Theorem C38_ground_letters :
  forall om on H cc c,
    contracts om on (h_allowed H) (z_allowed cc true) (z_allowed cc true) right_only c ->
    H <= 5 \/ cc <= 5 -> om + on <= 7 -> fits_kind right_only c /\ inner c <= 5 /\ outer c <= 7.
Proof. exact ground_letters. Qed.
Print Assumptions C38_ground_letters.

Example C38_example :
  let c := mkpairing 0 1 0  0 0 0  0 0 0  1 0 2 in
  contracts 1 1 (h_allowed 3) (z_allowed 3 true) (z_allowed 3 true) right_only c /\
  match print_term right_only false (recorded right_only c) with
  | Ok (Some t) => render_zlterm t
  | _ => ""
  end = "\bar{f}^{2}\frac{3*3*2!}{3!3!}\bh^{}_{\blue{}\blue{kl}\red{y}}\bz^{\magenta{}\blue{kl}\red{x}}_{}".
Proof.
  split; [|vm_compute; reflexivity]. unfold contracts, fits_kind, h_allowed, z_allowed. cbn. repeat split; intros; try discriminate; auto with arith.
Qed.

(** Beyond that letters are missing: six indices with five letters ... *)
Theorem C38_summed_refuted :
  let c := mkpairing 0 0 0  0 0 0  0 0 0  0 0 6 in
  contracts 0 0 (h_allowed 6) (z_allowed 6 true) (z_allowed 6 true) right_only c /\ h_down c = 6 /\ r_up c = 6 /\
  exists t, print_term right_only false (recorded right_only c) = Ok (Some t) /\
    render_zlterm t = "\bar{f}^{6}\frac{6!}{6!6!}\bh^{}_{\blue{}\blue{klmno}\red{}}\bz^{\magenta{}\blue{klmno}\red{}}_{}".
Proof.
  split; [|split; [reflexivity|split; [reflexivity|eexists; split; vm_compute; reflexivity]]].
  unfold contracts, fits_kind, h_allowed, z_allowed. cbn. repeat split; intros; try discriminate; auto with arith.
Qed.
Print Assumptions C38_summed_refuted.

(** ... and a projection with eight operators with seven. *)
Theorem C38_free_refuted :
  let c := mkpairing 0 0 0  0 0 0  0 0 0  8 0 0 in
  contracts 0 8 (h_allowed 1) (z_allowed 8 true) (z_allowed 8 true) right_only c /\ r_up c = 8 /\
  exists t, print_term right_only false (recorded right_only c) = Ok (Some t) /\
    render_zlterm t = "\frac{1}{8!}\bh_0\bz^{\magenta{}\blue{}\red{yxwvuts}}_{}".
Proof.
  split; [|split; [reflexivity|eexists; split; vm_compute; reflexivity]].
  unfold contracts, fits_kind, h_allowed, z_allowed. cbn. repeat split; intros; try discriminate; auto with arith.
Qed.
Print Assumptions C38_free_refuted.

(** C58: the prefactor of a product h z is one over the factorials of the
    numbers of pairs of each kind. *)
Theorem C58_prefactor :
  forall c t, fits_kind right_only c ->
    print_term right_only false (recorded right_only c) = Ok (Some t) ->
    one_over (pair_factorials c) (render_hz_prefactor (zl_prefactor t)).
Proof. exact printed_prefactor. Qed.
Print Assumptions C58_prefactor.

(** C58: with the flag that asks for it, the prefactor is one over their product
    as a number, and nothing is printed for one. *)
Theorem C58_simplified :
  forall c t, fits_kind right_only c ->
    print_term right_only false (recorded right_only c) = Ok (Some t) ->
    render_simplified_prefactor (zl_prefactor t) =
    if Nat.eqb (pair_factorials c) 1 then "" else "\frac{1}{" ++ str_nat (pair_factorials c) ++ "}".
Proof. exact simplified_prefactor. Qed.
Print Assumptions C58_simplified.

(** Two pairs of h and z, one of z with the projection: 3*2!/(2! 3!) = 1/2. *)
Example C58_example :
  let c := mkpairing 0 0 0  0 0 0  0 0 0  1 0 2 in
  fits_kind right_only c /\ pair_factorials c = 2 /\
  exists t, print_term right_only false (recorded right_only c) = Ok (Some t) /\
    render_hz_prefactor (zl_prefactor t) = "\frac{3*2!}{2!3!}" /\ render_simplified_prefactor (zl_prefactor t) = "\frac{1}{2}".
Proof.
  split; [split; intros E; [split; reflexivity|discriminate]|]. split; [reflexivity|]. eexists. repeat split; vm_compute; reflexivity.
Qed.

(** C59: the file of the ground state, and when none is written. *)
Theorem C59_file :
  forall H cc rf, H <= 5 \/ cc <= 5 -> forall P, cc <= 7 \/ P <= 7 ->
    exists text, generate_z_t_symmetric_latex H cc P true rf = Ok text /\ z_latex_text H cc P rf text.
Proof. exact z_file_ok. Qed.
Print Assumptions C59_file.

Theorem C59_excited_states_refused :
  forall H cc P rf, generate_z_t_symmetric_latex H cc P false rf = Err NotImplementedErr.
Proof. exact z_excited_refused. Qed.
Print Assumptions C59_excited_states_refused.

Theorem C59_rank_nine_refused :
  forall H cc P rf, 9 <= cc -> 9 <= P -> generate_z_t_symmetric_latex H cc P true rf = Err IndexErr.
Proof. exact z_rank9_refused. Qed.
Print Assumptions C59_rank_nine_refused.

Example C59_example :
  match generate_z_symmetric_latex_equations (mkgop "b" 1 0 1) (pruned_hamiltonian 2) (generate_z_operator 2 true) true false with
  | Ok e => e
  | Err _ => ""
  end
  = "\bh^{i}(1-\delta_{x\gamma})\\&+\sum\Big((\bh_0\bz^{\magenta{}\blue{}\red{y}} + \bar{f}\frac{2}{2!}\bh_{\blue{}\blue{k}\red{}}\bz^{\magenta{}\blue{k}\red{y}} + \bh^{\blue{}\blue{}\red{y}}\bz_0 + \bar{f}\bh^{\blue{}\blue{}\red{y}}_{\blue{}\blue{k}\red{}}\bz^{\magenta{}\blue{k}\red{}})\Big)(1-\delta_{cb})\\&-i\sum\Big(\dv{\hat{\bt}^{i}_{\gamma}}{\tau}\,\hat{\bz}_{0, \gamma} + \dv{\hat{\bt}_{0, \gamma}}{\tau}\,\hat{\bz}^{i}_{\gamma}\Big)".
Proof. vm_compute. reflexivity. Qed.

(** C60: in a product of the derivative of t and z the letters of the
    annihilation operators of the projection are shared out between t and z
    exactly if the projection has no creation operator or z no index. *)
Theorem C60_derivative_letters :
  forall lhs k, g_rank lhs = (g_m lhs + g_n lhs)%nat -> g_rank lhs <= 8 -> k <= g_n lhs ->
    let t := fifth_z_term lhs k in
    dt_lower t = letters (g_n lhs) (g_m lhs) /\
    (dt_upper t ++ z_upper t = letters 0 (g_n lhs) <-> g_m lhs = 0 \/ k = 0).
Proof. exact fifth_letters. Qed.
Print Assumptions C60_derivative_letters.

(** For the projection "db" the letter j stands on t and on z, and i is
    missing. *)
Theorem C60_shared_out_refuted :
  exists t, In t (build_fifth_z_term (mkgop "db" 2 1 1)) /\
    render_fifth t = "\dv{\hat{\bt}_{j, \gamma}}{\tau}\,\hat{\bz}^{j}_{\gamma}".
Proof. exists (fifth_z_term (mkgop "db" 2 1 1) 1). split; [cbn; auto|]. vm_compute. reflexivity. Qed.
Print Assumptions C60_shared_out_refuted.

(** C61: the free letters of a product h z are never those of the left hand
    side and of the other terms of its equation. *)
Theorem C61_free_letters_disagree :
  forall om on H cc c w,
    contracts om on (h_allowed H) (z_allowed cc true) (z_allowed cc true) right_only c -> lettered c w ->
    let free := (c_lp w ++ c_pl w ++ c_ph w ++ c_hp w ++ c_pr w ++ c_rp w)%list in
    List.length free = (om + on)%nat /\ forall x, In x free -> ~ In x (letters_from summed_letters 0 (om + on)).
Proof. exact free_letters_differ. Qed.
Print Assumptions C61_free_letters_disagree.

Example C61_example :
  let c := mkpairing 0 1 0  0 0 0  0 0 0  1 0 2 in
  contracts 1 1 (h_allowed 3) (z_allowed 3 true) (z_allowed 3 true) right_only c /\ lettered c (letters_of c) /\
  letters_from summed_letters 0 2 = ["i"; "j"]%char /\ letters_from outer_letters 0 2 = ["y"; "x"]%char.
Proof.
  split; [exact (proj1 C38_example)|]. split; [apply letters_lettered; cbn; auto with arith|]. split; reflexivity.
Qed.
