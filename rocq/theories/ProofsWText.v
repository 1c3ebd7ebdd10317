(** The text of the generated module of the W operators is a program, and what
    its functions do. *)
From Coq Require Import List Arith Lia Bool Ascii String Permutation.
From Verif Require Import PyBase PyBaseFacts ModelHelper SpecPartitions SpecW SpecDt SpecPython SpecEtText SpecSumText SpecWText ModelW
  PyStr ProofsStr ProofsHelper ProofsPython ProofsParse ProofsFullCCBuckets ProofsEtText ProofsW ProofsSumText.
Import ListNotations.
Local Open Scope nat_scope.
Local Open Scope list_scope.

(** ** Prefactors and calls *)

Lemma fact_text_neutral n : neutral (fact_text n).
Proof. unfold fact_text. change (neutral ("factorial" ++ ("(" ++ str_nat n ++ ")"))). apply neutral_app; [now apply neutral_plain|apply neutral_paren, nat_neutral]. Qed.
Lemma prefactor_neutral p : neutral (render_prefactor p).
Proof.
  destruct p as [|k|k ns]; cbn [render_prefactor].
  - apply neutral_nil. - apply neutral_app; [now apply neutral_plain|apply fact_text_neutral].
  - change (neutral ("1/" ++ ("(" ++ join " * " (map fact_text (k :: ns)) ++ ")"))). apply neutral_app; [now apply neutral_plain|]. apply neutral_paren.
    rewrite join_concat. apply neutral_concat; [now apply neutral_plain|]. apply Forall_map, Forall_forall. intros n _. apply fact_text_neutral.
Qed.
Lemma prefactor_weight p d : prefactor_denominator p = Some d -> weight_text d (render_prefactor p).
Proof.
  assert (F : forall l, fold_right Nat.mul 1 (map factorial l) = fold_right (fun n acc => fact_spec n * acc) 1 l).
  { induction l as [|n l IH]; [reflexivity|]. cbn [map fold_right]. now rewrite IH, factorial_spec. }
  destruct p as [|k|k ns]; cbn [prefactor_denominator]; intros E; [discriminate| |]; injection E as <-.
  - exists [k]. split; [cbn [fold_right]; rewrite Nat.mul_1_r; apply factorial_spec|]. left. now exists k.
  - exists (k :: ns). split; [exact (F (k :: ns))|]. right. split; [discriminate|]. cbn [render_prefactor]. now rewrite join_concat.
Qed.

(** The product of the amplitudes of ranks [c] in the W operator of order [k]. *)
Definition prod_of (k : nat) (c : list nat) : product := mkproduct (map amp_name c) (ins_of k c) (out_of k).
Definition call_text (opt : bool) (p : product) : string := if opt then next_text p else einsum_text p.
Lemma render_call opt k c : render_expr (call_of opt k c) = call_text opt (prod_of k c).
Proof.
  destruct opt; cbn [call_of render_expr call_text]; unfold next_text, einsum_text, subscripts, commas; cbn [p_ops p_ins p_out prod_of]; rewrite !join_concat; [reflexivity|].
  rewrite !append_assoc. reflexivity.
Qed.

Definition mode_ok (c : ascii) : bool := existsb (Ascii.eqb c) (mode_letters ++ ["a"; "b"; "c"; "d"; "e"; "f"; "g"; "h"; "i"]%char).
Lemma mode_ok_plain c : mode_ok c = true -> special c = false.
Proof.
  unfold mode_ok. set (L := mode_letters ++ _). assert (B : forallb (fun x => negb (special x)) L = true) by reflexivity.
  intros H. apply existsb_exists in H as (x & I & E). apply Ascii.eqb_eq in E. subst x. rewrite forallb_forall in B. apply B in I. now destruct (special c).
Qed.
Lemma chain_letters states groups l : Forall (fun c => mode_ok c = true) states -> Forall (Forall (fun c => mode_ok c = true)) groups ->
  chain_subscripts states groups = Some l -> Forall nq l.
Proof.
  revert groups l. induction states as [|s states IH]; intros groups l HS G E; [destruct groups; discriminate|].
  destruct states as [|s' states].
  - destruct groups; [injection E as <-; constructor|discriminate].
  - destruct groups as [|g gs]; [discriminate|].
    change (match chain_subscripts (s' :: states) gs with Some l => Some (string_of (s :: s' :: g) :: l) | None => None end = Some l) in E.
    destruct (chain_subscripts (s' :: states) gs) as [r|] eqn:R; [|discriminate]. injection E as <-.
    apply Forall_cons_iff in HS as [S1 S2]. apply Forall_cons_iff in G as [G1 G2]. constructor; [|eapply IH; eauto].
    apply no_special_nq. apply (string_of_plain (s :: s' :: g)). apply Forall_cons_iff in S2 as [S2 _].
    constructor; [now apply mode_ok_plain|]. constructor; [now apply mode_ok_plain|]. eapply Forall_impl; [|exact G1]. intros c. apply mode_ok_plain.
Qed.
Lemma Forall_firstn {A} (P : A -> Prop) n l : Forall P l -> Forall P (firstn n l).
Proof. intros F. rewrite <- (firstn_skipn n l) in F. now apply Forall_app in F as [F _]. Qed.
Lemma Forall_skipn {A} (P : A -> Prop) n l : Forall P l -> Forall P (skipn n l).
Proof. intros F. rewrite <- (firstn_skipn n l) in F. now apply Forall_app in F as [_ F]. Qed.
Lemma groups_letters letters c : Forall (fun c => mode_ok c = true) letters -> Forall (Forall (fun c => mode_ok c = true)) (groups_of letters c).
Proof. revert letters. induction c as [|n c IH]; intros letters F; [constructor|]. constructor; [now apply Forall_firstn|]. apply IH. now apply Forall_skipn. Qed.
Lemma modes_ok k : Forall (fun c => mode_ok c = true) (firstn k mode_letters).
Proof. apply Forall_firstn. repeat constructor. Qed.
Lemma ins_of_nq k c : Forall nq (ins_of k c).
Proof.
  unfold ins_of. destruct (chain_subscripts _ _) as [l|] eqn:E; [|constructor]. eapply chain_letters; [| |exact E].
  - constructor; [reflexivity|]. apply Forall_app. split; [|now repeat constructor]. unfold inner_states. apply Forall_firstn. repeat constructor.
  - apply groups_letters, modes_ok.
Qed.
Lemma out_of_nq k : nq (out_of k).
Proof. apply no_special_nq, string_of_plain. do 2 (constructor; [reflexivity|]). eapply Forall_impl; [|apply modes_ok]. intros c. apply mode_ok_plain. Qed.
Lemma prod_good k c : good_product (prod_of k c).
Proof. split; [apply ins_of_nq|]. split; [apply out_of_nq|]. apply Forall_map, Forall_forall. intros n _. apply amp_name_plain. Qed.
Lemma call_ok opt p : good_product p -> text_ok (call_text opt p) /\ is_head (call_text opt p) = false.
Proof. intros G. destruct opt; [now apply next_ok|now apply einsum_ok]. Qed.

(** ** The contributions of a partition *)

Section W.
  Variable so : list (list nat) -> list (list nat).
  Hypothesis Hso : set_order so.

  Definition calls_of (k : nat) (opt : bool) (p : list nat) : list string :=
    map (fun c => call_text opt (prod_of k c)) (unique_permutations so p).
  Definition sum_start (k : nat) (p : list nat) : string :=
    (w_array k ++ " += " ++ render_prefactor (generate_w_operator_prefactor p) ++ " * ")%string.
  Definition sum_stmt (k : nat) (opt : bool) (p : list nat) : string :=
    if Nat.eqb (List.length p) k then (sum_start k p ++ "(" ++ String.concat " + " (calls_of k opt p) ++ ")")%string
    else (sum_start k p ++ "( " ++ String.concat " + " (calls_of k opt p) ++ " )")%string.
  Definition contrib_stmt (k : nat) (opt : bool) (p : list nat) : stmt :=
    if Nat.leb 2 (list_max p) then If ("truncation." ++ rank_name (list_max p)) [Simple (sum_stmt k opt p)] []
    else Simple (sum_stmt k opt p).

  Lemma sum_start_ok k p : neutral (sum_start k p) /\ starts (sum_start k p) = true.
  Proof.
    split; [|reflexivity]. unfold sum_start, w_array. repeat apply neutral_app; try (now apply neutral_plain); [apply nat_neutral|apply prefactor_neutral].
  Qed.
  Lemma calls_ok k opt p : Forall (fun c => text_ok c /\ is_head c = false) (calls_of k opt p).
  Proof. apply Forall_map, Forall_forall. intros c _. apply call_ok, prod_good. Qed.
  Lemma calls_nonempty k opt p : calls_of k opt p <> [].
  Proof.
    unfold calls_of. assert (I : In p (unique_permutations so p)) by (apply in_unique_permutations; [exact Hso|reflexivity]).
    destruct (unique_permutations so p); [destruct I|discriminate].
  Qed.

  Lemma rank_name_plain r : no_special (rank_name r) = true.
  Proof. do 7 (destruct r as [|r]; [reflexivity|]). reflexivity. Qed.
  Lemma upper_rank_line r : has_char newline (upper (rank_name r) ++ " contribution") = false.
  Proof. do 7 (destruct r as [|r]; [reflexivity|]). reflexivity. Qed.

  Lemma contrib_block k opt p : block 4 (render_contrib k (contrib_of so k opt p)) [contrib_stmt k opt p].
  Proof.
    unfold render_contrib. cbn [contrib_of cb_tag cb_guard cb_pref cb_oneline cb_calls].
    rewrite map_map, (map_ext _ _ (render_call opt k)). fold (calls_of k opt p).
    set (body := if Nat.eqb (List.length p) k then _ else _).
    assert (B : block 4 body [Simple (sum_stmt k opt p)]).
    { subst body. destruct (sum_start_ok k p) as [N HS]. unfold sum_stmt. destruct (Nat.eqb _ _).
      - match goal with |- block 4 ?t _ => replace t with (pad 4 ++ (sum_start k p ++ "(" ++ join " + " (calls_of k opt p) ++ ")") ++ nl)%string end.
        + apply block_sum_line; [exact N|exact HS|apply calls_ok].
        + unfold sum_start, w_array. rewrite !append_assoc. reflexivity.
      - match goal with |- block 4 ?t _ => replace t with
          (pad 4 ++ sum_start k p ++ "(" ++ nl ++ pad 8 ++ join (" +" ++ nl ++ pad 8) (calls_of k opt p) ++ nl ++ pad 4 ++ ")" ++ nl)%string end.
        + apply block_sum_lines; [exact N|exact HS|apply calls_nonempty|apply calls_ok].
        + unfold sum_start, w_array. rewrite !append_assoc. reflexivity. }
    clearbody body. change [contrib_stmt k opt p] with ([] ++ [contrib_stmt k opt p]).
    match goal with |- block 4 ?t _ => replace t with ((pad 4 ++ "# " ++ (upper (rank_name (list_max p)) ++ " contribution") ++ nl)
            ++ match (if Nat.leb 2 (list_max p) then Some (rank_name (list_max p)) else None) with
               | Some g => tab ++ "if truncation." ++ g ++ ":" ++ nl ++ concat_str (map (fun l => tab ++ l ++ nl) (splitlines body))
               | None => body end)%string by (rewrite !append_assoc; reflexivity) end.
    apply block_app; [apply block_comment, upper_rank_line|]. unfold contrib_stmt. destruct (Nat.leb 2 (list_max p)); [|exact B].
    replace (tab ++ "if truncation." ++ rank_name (list_max p) ++ ":" ++ nl ++ concat_str (map (fun l => tab ++ l ++ nl) (splitlines body)))%string
      with ((pad 4 ++ if_line ("truncation." ++ rank_name (list_max p))) ++ nl ++ concat_str (map (fun l => tab ++ l ++ nl) (splitlines body)))%string
      by (unfold if_line; rewrite !append_assoc; reflexivity).
    assert (N : neutral (if_line ("truncation." ++ rank_name (list_max p)))).
    { apply neutral_plain. unfold if_line. rewrite !no_special_app, rank_name_plain. reflexivity. }
    apply (block_condition 4 8); [| |lia|discriminate|now apply (block_indent 4)].
    - rewrite has_char_app. exact (proj1 N).
    - apply line_simple; [exact N|reflexivity|]. unfold if_line. apply ends_app. now apply ends_app.
  Qed.

  (** ** The functions *)

  Definition kind (un : bool) : string := if un then "vecc" else "vemx".
  Definition least (un : bool) : nat := if un then 4 else 2.
  Definition parts (un : bool) (k : nat) : list (list nat) :=
    if un then generate_un_linked_disconnected_partitions_of_n so k else generate_linked_disconnected_partitions_of_n so k.
  Definition helper_fun (un : bool) (k : nat) (opt : bool) : res contrib_fun :=
    if un then generate_vecc_contributions so k opt else generate_vemx_contributions so k opt.
  Definition render_helper (un : bool) (k : nat) (opt : bool) (f : contrib_fun) : string :=
    if un then render_vecc k opt f else render_vemx k opt f.
  Definition unpacked (un : bool) (k : nat) : list string := map amp_name (range 1 (if un then k - 1 else k)).

  (** The text after the head of a function, and its statements. *)
  Fixpoint sdrop (n : nat) (s : string) : string :=
    match n, s with S n', String _ s' => sdrop n' s' | _, _ => s end.
  Definition after_head (head t : string) : string := sdrop (2 + String.length head) t.
  Definition parsed (i : nat) (t : string) : list stmt := match parse_text i t with Some b => b | None => [] end.

  Definition intro_text (un : bool) (k : nat) (opt : bool) : string :=
    if un then render_contrib_def "vecc" "VECC" """" k opt (unpacked un k)
    else render_contrib_def "vemx" "VECI/CC (mixed)" "" k opt (unpacked un k).
  Definition intro_body (un : bool) (k : nat) (opt : bool) : list stmt :=
    parsed 4 (after_head (helper_head (kind un) k opt) (intro_text un k opt)).
  Definition raise_text (un : bool) (k : nat) (opt : bool) : string := render_helper un k opt CFraise.
  Definition raise_body (un : bool) (k : nat) (opt : bool) : list stmt :=
    parsed 4 (after_head (helper_head (kind un) k opt) (raise_text un k opt)).
  Definition helper_body (un : bool) (k : nat) (opt : bool) : list stmt :=
    if Nat.ltb k (least un) then raise_body un k opt
    else intro_body un k opt ++ map (contrib_stmt k opt) (parts un k) ++ [Simple "return"].

  (** A definition: a blank line, the head, and the body. *)
  Lemma block_def head t b : has_char newline head = false -> lex_line Top head = Some (Top, [(0, head)]) -> other_head head = true ->
    b <> [] -> block 4 t b -> block 0 (nl ++ head ++ nl ++ t) [Block head b].
  Proof.
    intros N L O B T. change [Block head b] with ([] ++ [Block head b]). apply block_app; [apply block_nl|].
    apply (block_head 0 4); [exact N|exact L|exact O|lia|exact B|exact T].
  Qed.
  (** The checks of [block_def] for a head that is a known text. *)
  Definition plain_head (head : string) : bool :=
    negb (has_char newline head) && other_head head &&
    match lex_line Top head with Some (Top, [(0, h)]) => String.eqb h head | _ => false end.
  Lemma plain_head_ok head : plain_head head = true ->
    has_char newline head = false /\ lex_line Top head = Some (Top, [(0, head)]) /\ other_head head = true.
  Proof.
    unfold plain_head. intros H. apply andb_prop in H as [H L]. apply andb_prop in H as [N O]. apply negb_true_iff in N.
    split; [exact N|]. split; [|exact O]. destruct (lex_line Top head) as [[[] [|[[|i] h] [|? ?]]]|]; try discriminate L.
    apply String.eqb_eq in L. now subst h.
  Qed.

  Ltac by_order k := destruct k as [|[|[|[|[|[|[|?]]]]]]]; try (exfalso; lia).

  Lemma helper_heads_plain un k opt : 1 <= k <= 6 -> plain_head (helper_head (kind un) k opt) = true.
  Proof. intros K. by_order k; destruct un, opt; vm_compute; reflexivity. Qed.
  Lemma intro_ok un k opt : least un <= k <= 6 ->
    intro_text un k opt = (nl ++ helper_head (kind un) k opt ++ nl ++ after_head (helper_head (kind un) k opt) (intro_text un k opt))%string /\
    block 4 (after_head (helper_head (kind un) k opt) (intro_text un k opt)) (intro_body un k opt) /\
    exists doc, String.prefix triple doc = true /\
      intro_body un k opt = map Simple ([doc; unpack_text (unpacked un k) "t_args"] ++ (if opt then ["optimized_einsum = iter(opt_path_list)"%string] else [])).
  Proof.
    intros K. destruct un; unfold least in K; by_order k; destruct opt;
      (split; [vm_compute; reflexivity|split; [apply block_text; vm_compute; reflexivity|eexists; split; [|vm_compute; reflexivity]; vm_compute; reflexivity]]).
  Qed.
  Lemma raise_ok un k opt : 1 <= k < least un ->
    raise_text un k opt = (nl ++ helper_head (kind un) k opt ++ nl ++ after_head (helper_head (kind un) k opt) (raise_text un k opt))%string /\
    block 4 (after_head (helper_head (kind un) k opt) (raise_text un k opt)) (raise_body un k opt) /\ raise_body un k opt <> [].
  Proof.
    intros K. destruct un; unfold least in K; by_order k; destruct opt;
      (split; [vm_compute; reflexivity|split; [apply block_text; vm_compute; reflexivity|vm_compute; discriminate]]).
  Qed.

  Definition helper_text (un : bool) (k : nat) (opt : bool) : string :=
    if Nat.ltb k (least un) then raise_text un k opt
    else (intro_text un k opt ++ concat_str (map (fun p => render_contrib k (contrib_of so k opt p)) (parts un k)) ++ tab ++ "return" ++ nl)%string.
  Lemma helper_generated un k opt : 1 <= k <= 6 ->
    (do f <- helper_fun un k opt; Ok (render_helper un k opt f)) = Ok (helper_text un k opt).
  Proof.
    intros K. unfold helper_text, helper_fun, render_helper. destruct (Nat.ltb_spec k (least un)) as [L|L].
    - destruct un; unfold least in L; by_order k; reflexivity.
    - destruct un; unfold least in L.
      + rewrite vecc_ok by (exact Hso || lia). cbn [bind]. unfold render_vecc, intro_text, unpacked, parts. now rewrite map_map.
      + rewrite vemx_ok by (exact Hso || lia). cbn [bind]. unfold render_vemx, intro_text, unpacked, parts. now rewrite map_map.
  Qed.
  Lemma helper_block un k opt : 1 <= k <= 6 -> block 0 (helper_text un k opt) [Block (helper_head (kind un) k opt) (helper_body un k opt)].
  Proof.
    intros K. destruct (plain_head_ok _ (helper_heads_plain un k opt K)) as (N & L & O).
    unfold helper_text, helper_body. destruct (Nat.ltb_spec k (least un)) as [S1|S1].
    - destruct (raise_ok un k opt) as (E & B & E'); [lia|]. rewrite E. now apply block_def.
    - destruct (intro_ok un k opt) as (E & B & _); [lia|]. set (h := after_head _ _) in *. rewrite E.
      set (rest := (concat_str _ ++ tab ++ "return" ++ nl)%string).
      replace ((nl ++ helper_head (kind un) k opt ++ nl ++ h) ++ rest)%string with (nl ++ helper_head (kind un) k opt ++ nl ++ (h ++ rest))%string
        by now rewrite !append_assoc.
      apply block_def; [exact N|exact L|exact O| |].
      + intros E0. apply app_eq_nil in E0 as [_ E0]. apply app_eq_nil in E0 as [_ E0]. discriminate.
      + apply block_app; [exact B|]. subst rest. apply block_app; [|apply block_text; vm_compute; reflexivity].
        replace (map (contrib_stmt k opt) (parts un k)) with (flat_map (fun p => [contrib_stmt k opt p]) (parts un k))
          by (induction (parts un k) as [|p l IH]; [reflexivity|]; cbn [flat_map map]; now rewrite IH).
        apply block_concat. intros p _. apply contrib_block.
  Qed.

  Definition w_text (k : nat) (opt : bool) : string :=
    match write_w_function k opt with Ok f => render_w_function k opt f | Err _ => "" end.
  Definition w_body (k : nat) (opt : bool) : list stmt := parsed 4 (after_head (w_head k opt) (w_text k opt)).
  Lemma w_generated k opt : 1 <= k <= 6 -> (do f <- write_w_function k opt; Ok (render_w_function k opt f)) = Ok (w_text k opt).
  Proof. intros K. unfold w_text. by_order k; reflexivity. Qed.
  Lemma w_block k opt : 1 <= k <= 6 -> block 0 (w_text k opt) [Block (w_head k opt) (w_body k opt)].
  Proof.
    intros K.
    assert (H : plain_head (w_head k opt) = true /\ w_text k opt = (nl ++ w_head k opt ++ nl ++ after_head (w_head k opt) (w_text k opt))%string /\
      block 4 (after_head (w_head k opt) (w_text k opt)) (w_body k opt) /\ w_body k opt <> []).
    { by_order k; destruct opt; (split; [vm_compute; reflexivity|]); (split; [vm_compute; reflexivity|]); (split; [apply block_text; vm_compute; reflexivity|vm_compute; discriminate]). }
    destruct H as (P & E & B & NE). destruct (plain_head_ok _ P) as (N & L & O). rewrite E. now apply block_def.
  Qed.

  Definition master_text (opt : bool) : string := render_master opt (write_master_w_compute_function 0).
  Definition master_body (opt : bool) : list stmt := parsed 4 (after_head (compute_w_head opt) (master_text opt)).
  Lemma master_block opt : block 0 (master_text opt) [Block (compute_w_head opt) (master_body opt)].
  Proof.
    assert (H : plain_head (compute_w_head opt) = true /\ master_text opt = (nl ++ compute_w_head opt ++ nl ++ after_head (compute_w_head opt) (master_text opt))%string /\
      block 4 (after_head (compute_w_head opt) (master_text opt)) (master_body opt) /\ master_body opt <> []).
    { destruct opt; (split; [vm_compute; reflexivity|]); (split; [vm_compute; reflexivity|]); (split; [apply block_text; vm_compute; reflexivity|vm_compute; discriminate]). }
    destruct H as (P & E & B & NE). destruct (plain_head_ok _ P) as (N & L & O). rewrite E. now apply block_def.
  Qed.

  (** *** The lists of expressions *)
  Definition entry (k : nat) (c : list nat) : string := contract_text (ins_of k c) (out_of k) (map amp_shape c).
  Definition list_name (k : nat) : string := ("order_" ++ str_nat k ++ "_list")%string.
  Definition extend (k : nat) (p : list nat) : list_stmt := Extend (list_name k) (map (entry k) (unique_permutations so p)).
  Definition path_stmt (k : nat) (p : list nat) : stmt :=
    If ("truncation." ++ rank_name (list_max p)) [Simple (list_text (extend k p))] [].

  Lemma render_path_entry k c : render_path (path_of k c) = (entry k c ++ "," ++ nl)%string.
  Proof. unfold render_path, entry, contract_text, subscripts, commas. cbn [path_of pt_ins pt_out pt_shapes]. rewrite !join_concat, !append_assoc. reflexivity. Qed.
  Lemma entry_ok k c : text_ok (entry k c) /\ is_head (entry k c) = false.
  Proof. apply contract_ok; [apply ins_of_nq|apply out_of_nq|]. apply Forall_map, Forall_forall. intros n _. apply amp_shape_neutral. Qed.

  Lemma path_stmt_block k p : block 4 (render_block (block_of so k p)) [path_stmt k p].
  Proof.
    unfold render_block. cbn [block_of pb_guard pb_order pb_paths]. rewrite map_map.
    rewrite (map_ext (fun x => tab ++ tab ++ tab ++ render_path (path_of k x))%string (fun c => pad 12 ++ entry k c ++ "," ++ nl)%string)
      by (intros c; rewrite render_path_entry; reflexivity).
    match goal with |- block 4 ?t _ => replace t with
      (((pad 4 ++ if_line ("truncation." ++ rank_name (list_max p))) ++ nl
       ++ (pad 8 ++ list_name k ++ ".extend([" ++ nl ++ concat_str (map (fun e => pad 12 ++ e ++ "," ++ nl)%string (map (entry k) (unique_permutations so p))) ++ pad 8 ++ "])" ++ nl))
       ++ nl)%string end.
    2:{ unfold if_line, list_name. rewrite map_map, !append_assoc. reflexivity. }
    change [path_stmt k p] with ([path_stmt k p] ++ []). apply block_app; [|apply block_nl].
    assert (N : neutral (if_line ("truncation." ++ rank_name (list_max p)))).
    { apply neutral_plain. unfold if_line. rewrite !no_special_app, rank_name_plain. reflexivity. }
    apply (block_condition 4 8); [| |lia|discriminate|].
    - rewrite has_char_app. exact (proj1 N).
    - apply line_simple; [exact N|reflexivity|]. unfold if_line. apply ends_app. now apply ends_app.
    - apply block_extend.
      + unfold list_name. rewrite !no_special_app. rewrite (str_nat_no_special k). reflexivity.
      + reflexivity.
      + assert (I : In p (unique_permutations so p)) by (apply in_unique_permutations; [exact Hso|reflexivity]).
        destruct (unique_permutations so p); [destruct I|discriminate].
      + apply Forall_map, Forall_forall. intros c _. apply entry_ok.
  Qed.

  Definition path_orders (un : bool) (M : nat) : list nat := range (least un) (M + 1).
  Definition path_items (un : bool) (M : nat) : list (option nat) :=
    (if un then [None; None; None] else [None]) ++ map Some (path_orders un M).
  Definition path_blocks_of (un : bool) (M : nat) : list path_block :=
    List.concat (map (fun k => map (block_of so k) (parts un k)) (path_orders un M)).
  Definition paths_text (un : bool) (M : nat) : string :=
    (if un then render_vecc_paths else render_vemx_paths) (path_blocks_of un M, path_items un M).
  Definition paths_fun (un : bool) (M : nat) : res (list path_block * list (option nat)) :=
    if un then optimized_vecc_paths so M else optimized_vemx_paths so M.
  Lemma parts_len un k p : 1 <= k -> In p (parts un k) -> partition_of k p /\ 2 <= List.length p.
  Proof. unfold parts. destruct un; [apply unlinked_len|apply linked_len]; exact Hso. Qed.
  Lemma paths_generated un M : M <= 6 -> paths_fun un M = Ok (path_blocks_of un M, path_items un M).
  Proof.
    intros K. unfold paths_fun, path_blocks_of, path_items, path_orders.
    destruct un; [unfold optimized_vecc_paths|unfold optimized_vemx_paths]; (destruct (Nat.ltb_spec 6 M); [lia|]); unfold least.
    - rewrite (mapM_ok _ (fun o => map (block_of so o) (parts true o))); [reflexivity|].
      intros o Ho. apply in_range in Ho. unfold parts. apply path_blocks_ok; [exact Hso|lia|]. intros p. apply (parts_len true). lia.
    - rewrite (mapM_ok _ (fun o => map (block_of so o) (parts false o))); [reflexivity|].
      intros o Ho. apply in_range in Ho. unfold parts. apply path_blocks_ok; [exact Hso|lia|]. intros p. apply (parts_len false). lia.
  Qed.

  (** The text before and after the statements that extend the lists. *)
  Definition paths_start (un : bool) : string :=
    if un then
      tab ++ q3 ++ "Calculate optimized paths for the VECC einsum calls up to `highest_order`." ++ q3 ++ nl ++ nl
      ++ tab ++ "order_4_list, order_5_list, order_6_list = [], [], []" ++ nl ++ nl
      ++ tab ++ "if not truncation.doubles:" ++ nl
      ++ tab ++ tab ++ "log.warning('Did not calculate optimized VECC paths of the dt amplitudes')" ++ nl
      ++ tab ++ tab ++ "return [[], [], [], [], [], []]" ++ nl ++ nl
    else
      tab ++ q3 ++ "Calculate optimized paths for the VECI/CC (mixed) einsum calls up to `highest_order`." ++ q3 ++ nl ++ nl
      ++ tab ++ "order_2_list, order_3_list = [], []" ++ nl
      ++ tab ++ "order_4_list, order_5_list, order_6_list = [], [], []" ++ nl ++ nl.
  Definition ret_text (un : bool) (M : nat) : string := (nl ++ tab ++ "return [" ++ render_ret (path_items un M) ++ "]" ++ nl)%string.
  Lemma paths_head_plain un : plain_head (paths_head (kind un)) = true.
  Proof. destruct un; vm_compute; reflexivity. Qed.
  Lemma paths_text_parts un M : paths_text un M =
    (nl ++ paths_head (kind un) ++ nl ++ paths_start un ++ concat_str (map render_block (path_blocks_of un M)) ++ ret_text un M)%string.
  Proof.
    unfold paths_text, ret_text. destruct un; [unfold render_vecc_paths|unfold render_vemx_paths]; cbn [fst snd];
      match goal with |- context [concat_str ?b] => generalize (concat_str b) end; match goal with |- context [render_ret ?r] => generalize (render_ret r) end; intros r b;
      unfold paths_start, paths_head, kind; rewrite !append_assoc; reflexivity.
  Qed.
  Definition intro_stmts (un : bool) : list stmt :=
    if un then [Simple (q3 ++ "Calculate optimized paths for the VECC einsum calls up to `highest_order`." ++ q3);
                Simple (list_text (Start [list_name 4; list_name 5; list_name 6]));
                If "not truncation.doubles"
                  [Simple (list_text (Warn "Did not calculate optimized VECC paths of the dt amplitudes")); Simple ("return [" ++ commas (repeat "[]"%string 6) ++ "]")] []]
    else [Simple (q3 ++ "Calculate optimized paths for the VECI/CC (mixed) einsum calls up to `highest_order`." ++ q3);
          Simple (list_text (Start [list_name 2; list_name 3])); Simple (list_text (Start [list_name 4; list_name 5; list_name 6]))].
  Definition item_text (r : option nat) : string := match r with None => "[]" | Some k => list_name k end.
  Definition paths_body (un : bool) (M : nat) : list stmt :=
    intro_stmts un ++ flat_map (fun k => map (path_stmt k) (parts un k)) (path_orders un M)
    ++ [Simple ("return [" ++ commas (map item_text (path_items un M)) ++ "]")].
  Lemma paths_block un M : M <= 6 -> block 0 (paths_text un M) [Block (paths_head (kind un)) (paths_body un M)].
  Proof.
    intros K. rewrite paths_text_parts. destruct (plain_head_ok _ (paths_head_plain un)) as (N & L & O).
    apply block_def; [exact N|exact L|exact O|destruct un; discriminate|]. unfold paths_body.
    apply block_app; [destruct un; apply block_text; vm_compute; reflexivity|]. apply block_app.
    - unfold path_blocks_of. induction (path_orders un M) as [|k l IH]; [apply block_nil|]. cbn [map List.concat flat_map].
      rewrite map_app, concat_str_app. apply block_app; [|exact IH]. rewrite map_map.
      replace (map (path_stmt k) (parts un k)) with (flat_map (fun p => [path_stmt k p]) (parts un k))
        by (induction (parts un k) as [|p r IHr]; [reflexivity|]; cbn [flat_map map]; now rewrite IHr).
      apply block_concat. intros p _. apply path_stmt_block.
    - apply block_text. destruct M as [|[|[|[|[|[|[|?]]]]]]]; try (exfalso; lia); destruct un; vm_compute; reflexivity.
  Qed.

  (** ** The whole module *)

  Definition helpers (un opt : bool) (M : nat) : list (string * list stmt) :=
    map (fun k => (helper_head (kind un) k opt, helper_body un k opt)) (seq 1 M).
  Definition w_funs (opt : bool) (M : nat) : list (string * list stmt) := map (fun k => (w_head k opt, w_body k opt)) (seq 1 M).
  Definition half_defs (M : nat) (opt : bool) : list (string * list stmt) :=
    helpers false opt M ++ helpers true opt M ++ w_funs opt M ++ [(compute_w_head opt, master_body opt)].
  Definition w_defs (M : nat) : list (string * list stmt) :=
    flat_map (half_defs M) [false; true] ++ [(paths_head (kind false), paths_body false M); (paths_head (kind true), paths_body true M)].
  Definition block_of_def (d : string * list stmt) : stmt := Block (fst d) (snd d).
  Definition w_prog (M : nat) : list stmt := map Simple w_imports ++ map block_of_def (w_defs M).

  Lemma range_seq M : range 1 (M + 1) = seq 1 M.
  Proof. unfold range. f_equal. lia. Qed.

  Definition half_text (M : nat) (opt : bool) : string :=
   (nl ++ named_line_nl "VECI/CC CONTRIBUTIONS" 28 ++ concat_str (map (fun k => helper_text false k opt) (seq 1 M))
    ++ nl ++ named_line_nl "VECC CONTRIBUTIONS" 28 ++ concat_str (map (fun k => helper_text true k opt) (seq 1 M))
    ++ nl ++ named_line_nl "W OPERATOR FUNCTIONS" 28 ++ concat_str (map (fun k => w_text k opt) (seq 1 M))
    ++ master_text opt ++ nl)%string.
  Lemma file_generated M : M <= 6 -> generate_w_operator_equations_file so M = Ok
    (w_equations_import_statements
     ++ spacing_line_75 ++ named_line_nl "DEFAULT FUNCTIONS" 28 ++ spacing_line_75 ++ half_text M false
     ++ spacing_line_75 ++ named_line_nl "OPTIMIZED FUNCTIONS" 27 ++ spacing_line_75 ++ half_text M true
     ++ nl ++ named_line_nl "OPTIMIZED PATHS FUNCTION" 28 ++ paths_text false M ++ nl ++ paths_text true M ++ nl)%string.
  Proof.
    intros K. unfold generate_w_operator_equations_file, generate_w_operators_string. rewrite range_seq.
    assert (X : forall opt, mapM (fun o => do f <- generate_vemx_contributions so o opt; Ok (render_vemx o opt f)) (seq 1 M)
                = Ok (map (fun k => helper_text false k opt) (seq 1 M))).
    { intros opt. apply mapM_ok. intros k I. apply in_seq in I. apply (helper_generated false). lia. }
    assert (C : forall opt, mapM (fun o => do f <- generate_vecc_contributions so o opt; Ok (render_vecc o opt f)) (seq 1 M)
                = Ok (map (fun k => helper_text true k opt) (seq 1 M))).
    { intros opt. apply mapM_ok. intros k I. apply in_seq in I. apply (helper_generated true). lia. }
    assert (W : forall opt, mapM (fun o => do f <- write_w_function o opt; Ok (render_w_function o opt f)) (seq 1 M)
                = Ok (map (fun k => w_text k opt) (seq 1 M))).
    { intros opt. apply mapM_ok. intros k I. apply in_seq in I. apply w_generated. lia. }
    rewrite (X false), (X true), (C false), (C true), (W false), (W true). cbn [bind].
    change (optimized_vemx_paths so M) with (paths_fun false M). change (optimized_vecc_paths so M) with (paths_fun true M).
    rewrite (paths_generated false M K), (paths_generated true M K). cbn [bind]. reflexivity.
  Qed.

  Lemma block_nothing i t u b : parse_text i t = Some [] -> block i u b -> block i (t ++ u) b.
  Proof. intros P B. change b with ([] ++ b). apply block_app; [now apply block_text|exact B]. Qed.
  Lemma block_map {A} i (f : A -> string) (g : A -> stmt) l : (forall x, In x l -> block i (f x) [g x]) -> block i (concat_str (map f l)) (map g l).
  Proof.
    intros H. replace (map g l) with (flat_map (fun x => [g x]) l) by (clear; induction l as [|x l IH]; [reflexivity|]; cbn [flat_map map]; now rewrite IH).
    now apply block_concat.
  Qed.
  Lemma half_block M opt : M <= 6 -> block 0 (half_text M opt) (map block_of_def (half_defs M opt)).
  Proof.
    intros K. unfold half_text, half_defs. rewrite !map_app. unfold helpers, w_funs. rewrite !map_map.
    apply block_nothing; [reflexivity|]. apply block_nothing; [vm_compute; reflexivity|].
    apply block_app; [apply block_map; intros k I; apply in_seq in I; apply helper_block; lia|].
    apply block_nothing; [reflexivity|]. apply block_nothing; [vm_compute; reflexivity|].
    apply block_app; [apply block_map; intros k I; apply in_seq in I; apply helper_block; lia|].
    apply block_nothing; [reflexivity|]. apply block_nothing; [vm_compute; reflexivity|].
    apply block_app; [apply block_map; intros k I; apply in_seq in I; apply w_block; lia|].
    rewrite <- (app_nil_r (map block_of_def _)). apply block_app; [apply master_block|apply block_nl].
  Qed.

  Lemma ok_inj {A} (a b : A) : Ok a = Ok b -> a = b.
  Proof. congruence. Qed.
  Lemma block_python t b : block 0 t b -> python t b.
  Proof. intros B. rewrite <- (append_nil_r t). apply closed_python; [now apply block_closed|split; reflexivity]. Qed.
  Lemma w_program_read M text : M <= 6 -> generate_w_operator_equations_file so M = Ok text -> python text (w_prog M).
  Proof.
    intros K G. rewrite file_generated in G by exact K. apply ok_inj in G. rewrite <- G. clear text G. apply block_python. unfold w_prog, w_defs.
    apply block_app; [apply block_text; vm_compute; reflexivity|]. cbn [flat_map]. rewrite app_nil_r, !map_app, <- !app_assoc.
    apply block_nothing; [vm_compute; reflexivity|]. apply block_nothing; [vm_compute; reflexivity|]. apply block_nothing; [vm_compute; reflexivity|].
    apply block_app; [now apply half_block|].
    apply block_nothing; [vm_compute; reflexivity|]. apply block_nothing; [vm_compute; reflexivity|]. apply block_nothing; [vm_compute; reflexivity|].
    apply block_app; [now apply half_block|].
    apply block_nothing; [reflexivity|]. apply block_nothing; [vm_compute; reflexivity|].
    cbn [map]. change [?a; ?b] with ([a] ++ [b]). apply block_app; [now apply paths_block|]. apply block_nothing; [reflexivity|].
    rewrite <- (app_nil_r [_]). apply block_app; [now apply paths_block|apply block_nl].
  Qed.

  (** ** What the functions add *)

  Definition weighted (k : nat) (c : list nat) : nat * product := (exp_denominator c, prod_of k c).
  Definition comps (flag : string -> bool) (un : bool) (k : nat) : list (list nat) := blocks_comps so (trunc_of flag) k (parts un k).
  Definition used (opt : bool) (k : nat) (cs : list (list nat)) : list string := if opt then map (entry k) cs else [].

  Lemma used_app opt k a b : used opt k (a ++ b) = used opt k a ++ used opt k b.
  Proof. destruct opt; [apply map_app|reflexivity]. Qed.
  Lemma shapes_ok c : Forall2 has_shape (map amp_name c) (map amp_shape c).
  Proof. induction c as [|n c IH]; cbn [map]; constructor; [|exact IH]. exists n. auto. Qed.
  Lemma calls_compute opt k q cs : compute (used opt k cs ++ q) (map (fun c => call_text opt (prod_of k c)) cs) (map (prod_of k) cs) q.
  Proof.
    destruct opt; cbn [used call_text].
    - induction cs as [|c cs IH]; [constructor|]. cbn [map app]. econstructor; [|exact IH]. apply (computes_next (prod_of k c)). apply shapes_ok.
    - cbn [app]. rewrite <- map_map. apply compute_default.
  Qed.

  Lemma sum_stmt_adds k opt p q : 1 <= k <= 6 -> partition_of k p -> 2 <= List.length p ->
    adds (w_array k) (used opt k (unique_permutations so p) ++ q) [sum_stmt k opt p] (map (weighted k) (unique_permutations so p)) q.
  Proof.
    intros K P L.
    assert (W : weight_text (exp_denominator p) (render_prefactor (generate_w_operator_prefactor p))).
    { apply prefactor_weight, prefactor_ok; [destruct p; [cbn in L; lia|discriminate]|destruct p as [|x [|y r]]; cbn in L; try lia; discriminate|apply P]. }
    replace (map (weighted k) (unique_permutations so p)) with (map (pair (exp_denominator p)) (map (prod_of k) (unique_permutations so p)) ++ []).
    2:{ rewrite app_nil_r, map_map. apply map_ext_in. intros c I. unfold weighted. f_equal. apply in_unique_permutations in I; [|exact Hso].
        apply exp_denominator_perm. now symmetry. }
    apply (adds_sum (w_array k) _ (render_prefactor (generate_w_operator_prefactor p)) _ (calls_of k opt p) _ q).
    - exact W.
    - apply calls_nonempty.
    - apply calls_compute.
    - unfold sum_stmt, sum_start. destruct (Nat.eqb _ _); [left|right]; rewrite !append_assoc; reflexivity.
    - constructor.
  Qed.

  Lemma contribs_add flag k opt ps q : 1 <= k <= 6 -> (forall p, In p ps -> partition_of k p /\ 2 <= List.length p) ->
    adds (w_array k) (used opt k (blocks_comps so (trunc_of flag) k ps) ++ q) (exec flag (map (contrib_stmt k opt) ps))
      (map (weighted k) (blocks_comps so (trunc_of flag) k ps)) q.
  Proof.
    intros K. induction ps as [|p ps IH]; intros H; [destruct opt; constructor|]. unfold blocks_comps. cbn [flat_map]. fold (blocks_comps so (trunc_of flag) k ps).
    rewrite used_app, map_app, <- app_assoc. unfold exec. cbn [map flat_map]. fold (exec flag (map (contrib_stmt k opt) ps)).
    apply adds_app with (used opt k (blocks_comps so (trunc_of flag) k ps) ++ q); [|apply IH; intros; apply H; now right].
    destruct (H p) as [P L]; [now left|]. unfold contrib_stmt. cbn [contrib_of cb_guard].
    destruct (Nat.leb 2 (list_max p)); cbn [guard_ok exec1 flat_map].
    - change (flag ("truncation." ++ rank_name (list_max p))%string) with (trunc_of flag (rank_name (list_max p))). destruct (trunc_of flag (rank_name (list_max p))); [now apply sum_stmt_adds|]. destruct opt; constructor.
    - now apply sum_stmt_adds.
  Qed.

  Lemma comps_bound flag un k c : 1 <= k <= 6 -> In c (comps flag un k) -> incl (map amp_name c) (unpacked un k).
  Proof.
    intros K I x Hx. unfold comps, blocks_comps in I. apply in_flat_map in I as (p & Hp & Hc). destruct (guard_ok _ _); [|destruct Hc].
    apply in_unique_permutations in Hc; [|exact Hso]. apply in_map_iff in Hx as (n & <- & Hn). unfold unpacked. apply in_map.
    assert (In n p) as Hnp by (eapply Permutation_in; eauto). pose proof (in_le_list_max n p Hnp).
    destruct (parts_len un k p) as [Hpp Hlen]; [lia|exact Hp|]. pose proof Hpp as [[Hpos _] _]. rewrite Forall_forall in Hpos. specialize (Hpos n Hnp).
    apply in_range. destruct un.
    - apply in_unlinked in Hp; [|exact Hso|lia]. destruct Hp as [_ Hu]. pose proof (unlinked_max k p Hpp Hu). lia.
    - assert (list_max p < k) by (apply (is_mixed_max_lt k p); [lia|exact Hpp|exact Hlen]). lia.
  Qed.

  Lemma exec_app flag a b : exec flag (a ++ b) = exec flag a ++ exec flag b.
  Proof. apply flat_map_app. Qed.
  Lemma exec_simple flag l : exec flag (map Simple l) = l.
  Proof. induction l as [|t l IH]; [reflexivity|]. change (t :: exec flag (map Simple l) = t :: l). now rewrite IH. Qed.

  Lemma in_prog M d : In d (w_defs M) -> In (block_of_def d) (w_prog M).
  Proof. intros I. unfold w_prog. apply in_or_app. right. now apply in_map. Qed.
  Lemma helper_in M un opt k : 1 <= k <= M -> In (Block (helper_head (kind un) k opt) (helper_body un k opt)) (w_prog M).
  Proof.
    intros K. apply (in_prog M (helper_head (kind un) k opt, helper_body un k opt)). unfold w_defs. apply in_or_app. left. apply in_flat_map.
    exists opt. split; [destruct opt; cbn; auto|]. unfold half_defs. rewrite !in_app_iff.
    assert (I : In (helper_head (kind un) k opt, helper_body un k opt) (helpers un opt M)).
    { unfold helpers. apply in_map_iff. exists k. split; [reflexivity|]. apply in_seq. lia. }
    destruct un; auto.
  Qed.
  Lemma w_in M opt k : 1 <= k <= M -> In (Block (w_head k opt) (w_body k opt)) (w_prog M).
  Proof.
    intros K. apply (in_prog M (w_head k opt, w_body k opt)). unfold w_defs. apply in_or_app. left. apply in_flat_map.
    exists opt. split; [destruct opt; cbn; auto|]. unfold half_defs. rewrite !in_app_iff. do 2 right. left. unfold w_funs.
    apply in_map_iff. exists k. split; [reflexivity|]. apply in_seq. lia.
  Qed.
  Lemma master_in M opt : In (Block (compute_w_head opt) (master_body opt)) (w_prog M).
  Proof.
    apply (in_prog M (compute_w_head opt, master_body opt)). unfold w_defs. apply in_or_app. left. apply in_flat_map.
    exists opt. split; [destruct opt; cbn; auto|]. unfold half_defs. rewrite !in_app_iff. do 3 right. now left.
  Qed.
  Lemma paths_in M un : In (Block (paths_head (kind un)) (paths_body un M)) (w_prog M).
  Proof.
    apply (in_prog M (paths_head (kind un), paths_body un M)). unfold w_defs. apply in_or_app. right. destruct un; cbn [In]; auto.
  Qed.

  Lemma helper_ok M flag un k opt : least un <= k <= M -> M <= 6 ->
    helper_adds (w_prog M) flag (kind un) k opt (used opt k (comps flag un k)) (map (weighted k) (comps flag un k)).
  Proof.
    intros K HM. assert (K1 : 1 <= k <= 6) by (destruct un; unfold least in K; lia).
    destruct (intro_ok un k opt) as (_ & _ & doc & D & E); [lia|].
    exists (helper_body un k opt), doc, (if un then k - 2 else k - 1), (exec flag (map (contrib_stmt k opt) (parts un k))).
    assert (U : unpacked un k = map amp_name (seq 1 (if un then k - 2 else k - 1))).
    { unfold unpacked, range. destruct un; do 2 f_equal; lia. }
    split; [apply helper_in; lia|]. split; [|split; [exact D|split]].
    - unfold helper_body. destruct (Nat.ltb_spec k (least un)); [lia|]. rewrite E, !exec_app, exec_simple, <- U, <- !app_assoc. reflexivity.
    - rewrite <- (app_nil_r (used _ _ _)). apply contribs_add; [exact K1|]. intros p. apply parts_len. lia.
    - rewrite <- U. apply Forall_map, Forall_forall. intros c I. cbn [weighted snd prod_of p_ops]. now apply (comps_bound flag).
  Qed.

  (** *** The functions of the W operators *)
  Definition w_statements (flag : string -> bool) (k : nat) (opt : bool) : list string :=
    (if Nat.eqb k 1 then [(w_array 1 ++ " += " ++ amp_name 1)%string]
     else (if flag ("truncation." ++ rank_name k)%string then [(w_array k ++ " += " ++ ("1/" ++ factorial_text k) ++ " * " ++ amp_name k)%string] else [])
          ++ (if flag "ansatz.VE_MIXED"%string then [helper_call "vemx" k opt]
              else if flag "ansatz.VECC"%string then [helper_call "vemx" k opt; if Nat.ltb k 4 then "pass"%string else helper_call "vecc" k opt] else [])).
  Lemma w_body_exec flag k opt : 1 <= k <= 6 -> exists doc, String.prefix triple doc = true /\
    exec flag (w_body k opt) =
      [doc; unpack_text (map amp_name (seq 1 k)) "t_args"; (w_array k ++ " = np.zeros(" ++ amp_shape k ++ ", dtype=complex)")%string]
      ++ w_statements flag k opt
      ++ (if Nat.eqb k 1 then [("return " ++ w_array k)%string]
          else [("symmetric_w = symmetrize_tensor(N, " ++ w_array k ++ ", order=" ++ str_nat k ++ ")")%string; "return symmetric_w"%string]).
  Proof.
    intros K. exists (match w_body k opt with Simple d :: _ => d | _ => ""%string end).
    by_order k; destruct opt; (split; [vm_compute; reflexivity|]); vm_compute;
      repeat match goal with |- context [flag ?x] => destruct (flag x) end; reflexivity.
  Qed.

  Definition ansatz_of (flag : string -> bool) : ansatz :=
    if flag "ansatz.VE_MIXED"%string then VE_MIXED else if flag "ansatz.VECC"%string then VECC else VECI.
  Definition w_list (flag : string -> bool) (k : nat) : list (nat * product) := map (weighted k) (w_comps so (ansatz_of flag) (trunc_of flag) k).

  Lemma single_of k : 1 <= k <= 6 -> weighted k [k] = (fact_spec k, single k).
  Proof. intros K. by_order k; reflexivity. Qed.

  Lemma w_ok M flag k opt paths : 1 <= k <= M -> M <= 6 ->
    (forall un, least un <= k -> paths (kind un) = used opt k (comps flag un k)) ->
    w_adds (w_prog M) flag k opt paths (w_list flag k).
  Proof.
    intros K HM HP. destruct (w_body_exec flag k opt) as (doc & D & E); [lia|].
    exists (w_body k opt), doc, (w_statements flag k opt). split; [apply w_in; lia|]. split; [exact E|]. split; [exact D|].
    unfold w_list, w_statements, ansatz_of. destruct (Nat.eqb_spec k 1) as [->|K1].
    - assert (E1 : generate_linked_disconnected_partitions_of_n so 1 = []) by (apply nil_of_empty; apply not_linked_1; exact Hso).
      assert (E2 : generate_un_linked_disconnected_partitions_of_n so 1 = [])
        by (apply nil_of_empty; intros p Hp; apply (not_unlinked_small so Hso 1 p); [lia|exact Hp]).
      replace (map (weighted 1) _) with [(1, single 1)] by (destruct (flag "ansatz.VE_MIXED"%string); [|destruct (flag "ansatz.VECC"%string)]; cbn [w_comps]; rewrite ?E1, ?E2; reflexivity).
      apply contributes_single; [left; split; reflexivity|constructor].
    - assert (HV : forall ts l, contributes (w_prog M) flag k opt paths ts l ->
        contributes (w_prog M) flag k opt paths
          ((if flag ("truncation." ++ rank_name k)%string then [(w_array k ++ " += " ++ ("1/" ++ factorial_text k) ++ " * " ++ amp_name k)%string] else []) ++ ts)
          (map (weighted k) (veci_comps (trunc_of flag) k) ++ l)).
      { intros ts l C. unfold veci_comps, trunc_of. destruct (Nat.eqb_spec k 1); [lia|]. destruct (flag _); [|exact C].
        cbn [map app]. rewrite single_of by lia. apply contributes_single; [|exact C]. right. exists ("1/" ++ factorial_text k)%string. split; [|reflexivity].
        exists [k]. split; [cbn [fold_right]; lia|]. left. exists k. auto. }
      assert (HX : forall ts l, contributes (w_prog M) flag k opt paths ts l ->
        contributes (w_prog M) flag k opt paths (helper_call "vemx" k opt :: ts) (map (weighted k) (comps flag false k) ++ l)).
      { intros ts l C. apply (contributes_helper _ _ _ _ _ "vemx"); [|exact C]. change "vemx"%string with (kind false). rewrite HP by (unfold least; lia).
        apply helper_ok; unfold least; lia. }
      assert (HC : contributes (w_prog M) flag k opt paths [if Nat.ltb k 4 then "pass"%string else helper_call "vecc" k opt] (map (weighted k) (comps flag true k))).
      { destruct (Nat.ltb_spec k 4).
        - apply contributes_pass. unfold comps, parts. rewrite (nil_of_empty (generate_un_linked_disconnected_partitions_of_n so k)); [constructor|].
          intros p Hp. apply (not_unlinked_small so Hso k p); [lia|exact Hp].
        - rewrite <- (app_nil_r (map _ _)). apply (contributes_helper _ _ _ _ _ "vecc"); [|constructor]. change "vecc"%string with (kind true). rewrite HP by (unfold least; lia).
          apply helper_ok; unfold least; lia. }
      destruct (flag "ansatz.VE_MIXED"%string); [|destruct (flag "ansatz.VECC"%string)]; cbn [w_comps]; rewrite ?map_app.
      + apply HV. rewrite <- (app_nil_r (map (weighted k) (blocks_comps _ _ _ _))). apply HX. constructor.
      + apply HV. apply HX. exact HC.
      + rewrite <- (app_nil_r (map _ _)). apply HV. constructor.
  Qed.

  Lemma w_list_sum flag k : level_truncation (trunc_of flag) -> 1 <= k <= 6 -> is_w_sum flag k (w_list flag k).
  Proof.
    intros L K. unfold w_list.
    assert (Hin : forall c, In c (w_comps so (ansatz_of flag) (trunc_of flag) k) -> composition_of k c /\ Forall (fun n => 1 <= n <= 8) c).
    { intros c Hc. apply in_w_comps in Hc; [|exact Hso|exact L|exact K]. destruct Hc as [Hc _].
      split; [exact Hc|]. destruct (comp_bounds k c Hc) as [_ Hb]; [lia|]. eapply Forall_impl; [|exact Hb]. cbn. lia. }
    assert (Ha : forall c, composition_of k c -> (in_ansatz (ansatz_of flag) k c <-> kept flag c)).
    { intros c Hc. unfold ansatz_of, kept. destruct (flag "ansatz.VE_MIXED"%string); [reflexivity|]. destruct (flag "ansatz.VECC"%string); [reflexivity|]. cbn [in_ansatz].
      split; [intros ->; reflexivity|]. intros Hl. destruct c as [|x [|y r]]; cbn in Hl; try lia. destruct Hc as [_ Hs]. cbn in Hs. f_equal. lia. }
    assert (Hm : map (fun dp => p_ops (snd dp)) (map (weighted k) (w_comps so (ansatz_of flag) (trunc_of flag) k)) = map (map amp_name) (w_comps so (ansatz_of flag) (trunc_of flag) k)).
    { rewrite map_map. reflexivity. }
    unfold is_w_sum. rewrite Hm. split; [|split].
    - apply NoDup_map_inj; [now apply nodup_w_comps|]. intros x y Hx Hy E. destruct (Hin x Hx), (Hin y Hy). now apply map_amp_inj.
    - intros ops. rewrite in_map_iff. split.
      + intros (c & <- & Hc). pose proof (Hin c Hc) as [Hcc _]. apply in_w_comps in Hc; [|exact Hso|exact L|exact K]. exists c. rewrite <- Ha by exact Hcc. tauto.
      + intros (c & Hc & Hk & Hal & ->). exists c. split; [reflexivity|]. apply in_w_comps; [exact Hso|exact L|exact K|]. rewrite Ha by exact Hc. auto.
    - apply Forall_map, Forall_forall. intros c Hc. destruct (Hin c Hc) as [Hcc _]. exists c. split; [exact Hcc|]. split; [reflexivity|]. split; [reflexivity|].
      cbn [weighted snd prod_of p_ins p_out]. now apply ins_of_chain.
  Qed.

  (** *** The lists of expressions *)
  Definition path_text (p : path) : string := contract_text (pt_ins p) (pt_out p) (pt_shapes p).
  Definition extends_of (trunc : string -> bool) (bs : list path_block) : list (string * list string) :=
    flat_map (fun b => if trunc (pb_guard b) then [(list_name (pb_order b), map path_text (pb_paths b))] else []) bs.
  Definition extend_stmt (e : string * list string) : list_stmt := Extend (fst e) (snd e).

  Lemma run_extends es : forall env, (forall e, In e es -> exists l, env (fst e) = Some l) ->
    exists env', run_list_stmts env (map extend_stmt es) = Some env' /\
      forall x l, env x = Some l -> env' x = Some (l ++ flat_map (fun e => if String.eqb (fst e) x then snd e else []) es).
  Proof.
    induction es as [|[y es0] es IH]; intros env H.
    - exists env. split; [reflexivity|]. intros x l E. cbn [flat_map]. now rewrite app_nil_r.
    - destruct (H (y, es0)) as (ly & Ey); [now left|]. cbn [fst] in Ey.
      destruct (IH (set_list env y (ly ++ es0))) as (env' & R & V).
      { intros e I. unfold set_list. destruct (String.eqb (fst e) y); [eauto|]. apply H. now right. }
      exists env'. split; [cbn [map run_list_stmts run_list_stmt extend_stmt fst snd]; rewrite Ey; exact R|].
      intros x l E. cbn [flat_map fst snd]. destruct (String.eqb_spec y x) as [->|D].
      + rewrite Ey in E. injection E as ->. rewrite app_assoc. apply V. unfold set_list. now rewrite String.eqb_refl.
      + apply V. unfold set_list. destruct (String.eqb_spec x y); [congruence|exact E].
  Qed.

  Lemma list_name_inj a b : list_name a = list_name b -> a = b.
  Proof.
    unfold list_name. intros E. apply append_inj_l, append_inj_r, str_nat_inj in E. exact E.
  Qed.
  Lemma select_extends trunc k bs :
    flat_map (fun e => if String.eqb (fst e) (list_name k) then snd e else []) (extends_of trunc bs) = map path_text (blocks_for k trunc bs).
  Proof.
    unfold extends_of, blocks_for. induction bs as [|b bs IH]; [reflexivity|]. cbn [flat_map]. rewrite flat_map_app, map_app, IH. f_equal.
    destruct (trunc (pb_guard b)); [|now rewrite andb_false_r]. rewrite andb_true_r. cbn [flat_map fst snd]. rewrite app_nil_r.
    destruct (Nat.eqb_spec (pb_order b) k) as [->|D]; [now rewrite String.eqb_refl|].
    destruct (String.eqb_spec (list_name (pb_order b)) (list_name k)) as [E|_]; [apply list_name_inj in E; congruence|reflexivity].
  Qed.

  Lemma exec_paths flag un M :
    exec flag (flat_map (fun k => map (path_stmt k) (parts un k)) (path_orders un M))
    = map list_text (map extend_stmt (extends_of (trunc_of flag) (path_blocks_of un M))).
  Proof.
    unfold path_blocks_of. induction (path_orders un M) as [|k l IH]; [reflexivity|]. cbn [flat_map map List.concat].
    rewrite exec_app, IH. unfold extends_of. rewrite flat_map_app, !map_app. f_equal. clear IH.
    induction (parts un k) as [|p ps IH]; [reflexivity|]. cbn [map flat_map]. rewrite !map_app, <- IH.
    change (exec flag (path_stmt k p :: map (path_stmt k) ps)) with (exec1 flag (path_stmt k p) ++ exec flag (map (path_stmt k) ps)). f_equal.
    unfold path_stmt. cbn [exec1 block_of pb_guard pb_order pb_paths]. unfold trunc_of. destruct (flag _); [|reflexivity].
    cbn [flat_map exec1 app map extend_stmt fst snd]. unfold extend. do 2 f_equal. rewrite map_map. reflexivity.
  Qed.

  (** The values of the lists. *)
  Lemma blocks_lists flag un k M : level_truncation (trunc_of flag) -> least un <= k <= M -> M <= 6 ->
    map path_text (blocks_for k (trunc_of flag) (path_blocks_of un M)) = map (entry k) (comps flag un k).
  Proof.
    intros L K HM. unfold path_blocks_of, path_orders, range.
    rewrite (blocks_for_concat so (parts un)) by (apply in_seq; lia).
    replace (blocks_for k (trunc_of flag) (map (block_of so k) (parts un k))) with (map (path_of k) (comps flag un k)).
    - rewrite map_map. reflexivity.
    - symmetry. unfold comps. destruct un.
      + apply blocks_for_comps2; [unfold least in K; lia|]. intros p Hp. unfold parts in Hp. apply in_unlinked in Hp; [|exact Hso|unfold least in K; lia].
        split; [tauto|]. eapply unlinked_max2. exact Hp.
      + apply blocks_for_comps; [exact (proj1 L)|unfold least in K; lia|]. intros p Hp. apply (parts_len false k p); [unfold least in K; lia|exact Hp].
  Qed.
  Lemma no_doubles_empty flag k : level_truncation (trunc_of flag) -> trunc_of flag "doubles" = false -> 1 <= k <= 6 -> comps flag true k = [].
  Proof.
    intros L H2 K. apply nil_of_empty. intros c Hc. unfold comps, parts in Hc. apply unlinked_blocks in Hc; [|exact Hso|exact L|lia]. destruct Hc as [Hc [Hu Ha]].
    unfold unlinked_shape, big_parts in Hu.
    destruct (filter (fun x => 1 <? x) c) as [|x xs] eqn:E; [cbn in Hu; lia|].
    assert (In x (filter (fun x => 1 <? x) c)) as Hx by (rewrite E; now left).
    apply filter_In in Hx as [Hx Hx']. apply Nat.ltb_lt in Hx'.
    unfold allowed in Ha. rewrite Forall_forall in Ha.
    destruct (comp_bounds k c Hc) as [_ Hb]; [lia|]. rewrite Forall_forall in Hb. specialize (Hb x Hx).
    assert (has_rank (trunc_of flag) 2) by (apply (level_down _ x); auto; lia). unfold has_rank in H. cbn [rank_name] in H. congruence.
  Qed.

  Definition list_value (flag : string -> bool) (un : bool) (r : option nat) : list string :=
    match r with None => [] | Some k => map (entry k) (comps flag un k) end.
  Definition starts_of (un : bool) : list list_stmt :=
    (if un then [] else [Start [list_name 2; list_name 3]]) ++ [Start [list_name 4; list_name 5; list_name 6]].
  Lemma items_ok flag un M : level_truncation (trunc_of flag) -> M <= 6 -> exists env,
    run_list_stmts no_lists (starts_of un ++ map extend_stmt (extends_of (trunc_of flag) (path_blocks_of un M))) = Some env /\
    Forall2 (item_is env) (map item_text (path_items un M)) (map (list_value flag un) (path_items un M)).
  Proof.
    intros L HM.
    assert (A : forall a b env env', run_list_stmts env a = Some env' -> run_list_stmts env (a ++ b) = run_list_stmts env' b).
    { induction a as [|s a IH]; intros b env env' E; [cbn in E; now injection E as ->|]. cbn [app run_list_stmts] in *. destruct (run_list_stmt env s); [eauto|discriminate]. }
    assert (D : exists env0, run_list_stmts no_lists (starts_of un) = Some env0 /\ forall k, least un <= k <= 6 -> env0 (list_name k) = Some []).
    { destruct un; (eexists; split; [reflexivity|]); unfold least; intros k K; by_order k; vm_compute; reflexivity. }
    destruct D as (env0 & R0 & D).
    assert (O : forall b, In b (path_blocks_of un M) -> least un <= pb_order b <= 6).
    { intros b I. unfold path_blocks_of in I. apply in_concat in I as (l & I & J). apply in_map_iff in I as (k & <- & I). apply in_map_iff in J as (p & <- & _).
      unfold path_orders in I. apply in_range in I. cbn [block_of pb_order]. lia. }
    destruct (run_extends (extends_of (trunc_of flag) (path_blocks_of un M)) env0) as (env & R & V).
    { intros e I. unfold extends_of in I. apply in_flat_map in I as (b & I & J). destruct (trunc_of flag (pb_guard b)); [|destruct J]. destruct J as [<-|[]].
      exists []. apply D. now apply O. }
    exists env. split; [rewrite (A _ _ _ _ R0); exact R|].
    assert (G : forall r, In r (path_items un M) -> item_is env (item_text r) (list_value flag un r)).
    { intros [k|] I; [|left; split; reflexivity]. right. cbn [item_text list_value].
      assert (K : least un <= k <= M).
      { unfold path_items in I. apply in_app_or in I as [I|I]; [destruct un; cbn in I; intuition discriminate|]. apply in_map_iff in I as (k' & E & I). injection E as ->.
        unfold path_orders in I. apply in_range in I. lia. }
      rewrite (V (list_name k) []) by (apply D; lia). cbn [app]. rewrite select_extends, blocks_lists by (assumption || lia). reflexivity. }
    revert G. induction (path_items un M) as [|r l IH]; intros G; cbn [map]; constructor; [apply G; now left|apply IH; intros; apply G; now right].
  Qed.

  Definition path_results (flag : string -> bool) (un : bool) (M : nat) : list (list string) :=
    if un && flag "not truncation.doubles"%string then repeat [] 6 else map (list_value flag un) (path_items un M).
  Lemma paths_ok flag un M : level_truncation (trunc_of flag) -> M <= 6 ->
    returns_paths (w_prog M) flag (kind un) (path_results flag un M).
  Proof.
    intros L HM. exists (paths_body un M). split; [apply paths_in|]. unfold paths_body, path_results. rewrite !exec_app, exec_paths.
    destruct (items_ok flag un M L HM) as (env & R & F). destruct un; cbn [andb].
    - destruct (flag "not truncation.doubles"%string) eqn:E.
      + unfold intro_stmts. cbn [exec flat_map exec1 app]. rewrite E. cbn [flat_map exec1 app].
        exists (q3 ++ "Calculate optimized paths for the VECC einsum calls up to `highest_order`." ++ q3)%string,
          [Start [list_name 4; list_name 5; list_name 6]; Warn "Did not calculate optimized VECC paths of the dt amplitudes"], (repeat "[]"%string 6).
        do 2 eexists. split; [reflexivity|]. split; [reflexivity|]. split; [reflexivity|]. repeat constructor.
      + unfold intro_stmts. cbn [exec flat_map exec1 app]. rewrite E. cbn [flat_map exec1 app].
        exists (q3 ++ "Calculate optimized paths for the VECC einsum calls up to `highest_order`." ++ q3)%string. do 4 eexists.
        split; [|split; [|split; [exact R|exact F]]]; [|reflexivity]. rewrite map_app, <- app_assoc. reflexivity.
    - unfold intro_stmts. cbn [exec flat_map exec1 app].
      exists (q3 ++ "Calculate optimized paths for the VECI/CC (mixed) einsum calls up to `highest_order`." ++ q3)%string. do 4 eexists.
      split; [|split; [|split; [exact R|exact F]]]; [|reflexivity]. rewrite map_app, <- app_assoc. reflexivity.
  Qed.
  Lemma path_results_nth flag un M k : level_truncation (trunc_of flag) -> negations flag -> 1 <= k <= M -> M <= 6 ->
    exists l, nth_error (path_results flag un M) (k - 1) = Some l /\ (least un <= k -> l = map (entry k) (comps flag un k)).
  Proof.
    intros L Ng K HM. unfold path_results.
    assert (E : flag "not truncation.doubles"%string = negb (trunc_of flag "doubles")) by exact (Ng "doubles"%string).
    destruct (un && flag "not truncation.doubles"%string) eqn:B.
    - apply andb_prop in B as [-> B]. rewrite E in B. apply negb_true_iff in B. exists []. split; [|intros _; now rewrite no_doubles_empty by (assumption || lia)].
      by_order k; reflexivity.
    - clear B E. unfold path_items. rewrite map_app. destruct (le_lt_dec (least un) k) as [J|J].
      + exists (map (entry k) (comps flag un k)). split; [|reflexivity]. rewrite nth_error_app2 by (destruct un; cbn [map List.length]; unfold least in J; lia).
        rewrite map_map, nth_error_map. unfold path_orders, range. rewrite seq_nth_range by (destruct un; cbn [map List.length]; unfold least in *; lia).
        cbn [option_map list_value]. replace (least un + _) with k by (destruct un; cbn [map List.length]; unfold least in *; lia). reflexivity.
      + exists []. split; [|lia]. destruct un; unfold least in J; by_order k; reflexivity.
  Qed.

  (** ** The function of all operators *)
  Lemma master_exec flag opt : exists doc r1 r2, String.prefix triple doc = true /\ raises r1 /\ String.prefix "raise NotImplementedError(" r2 = true /\
    exec flag (master_body opt) = doc :: (if flag "not truncation.singles"%string then [r1] else [])
      ++ [compute_w_call 1 opt; compute_w_call 2 opt; compute_w_call 3 opt]
      ++ (if flag "not truncation.doubles"%string then [w_result 3] else [compute_w_call 4 opt])
      ++ (if flag "not truncation.triples"%string then [w_result 4] else [compute_w_call 5 opt])
      ++ (if flag "not truncation.quadruples"%string then [w_result 5] else [compute_w_call 6 opt])
      ++ (if flag "not truncation.quintuples"%string then [w_result 6] else [r2]).
  Proof.
    exists (match master_body opt with Simple d :: _ => d | _ => ""%string end),
      (match nth 1 (master_body opt) (Simple "") with If _ [Simple r] _ => r | _ => ""%string end),
      (match last (master_body opt) (Simple "") with If _ _ [Simple r] => r | _ => ""%string end).
    destruct opt; (split; [vm_compute; reflexivity|]); (split; [vm_compute; reflexivity|]); (split; [vm_compute; reflexivity|]); vm_compute;
      repeat match goal with |- context [flag ?x] => destruct (flag x) end; reflexivity.
  Qed.
  Lemma master_ok flag M opt : negations flag -> exists body doc,
    In (Block (compute_w_head opt) body) (w_prog M) /\ String.prefix triple doc = true /\
    (~ has_rank (trunc_of flag) 1 -> exists t, raises t /\ starts_with (exec flag body) [doc; t]) /\
    (has_rank (trunc_of flag) 1 -> ~ has_rank (trunc_of flag) 5 ->
       let n := needed_order (trunc_of flag) in
       starts_with (exec flag body) (doc :: map (fun k => compute_w_call k opt) (seq 1 n) ++ [w_result n])) /\
    (level_truncation (trunc_of flag) -> has_rank (trunc_of flag) 5 ->
       exists t, String.prefix "raise NotImplementedError(" t = true /\
         starts_with (exec flag body) (doc :: map (fun k => compute_w_call k opt) (seq 1 6) ++ [t])).
  Proof.
    intros Ng. destruct (master_exec flag opt) as (doc & r1 & r2 & D & R1 & R2 & E).
    exists (master_body opt), doc. split; [apply master_in|]. split; [exact D|]. rewrite E.
    assert (T : forall r, flag ("not truncation." ++ r)%string = negb (trunc_of flag r)) by exact Ng.
    change (flag "not truncation.singles"%string) with (flag ("not truncation." ++ "singles")%string).
    change (flag "not truncation.doubles"%string) with (flag ("not truncation." ++ "doubles")%string).
    change (flag "not truncation.triples"%string) with (flag ("not truncation." ++ "triples")%string).
    change (flag "not truncation.quadruples"%string) with (flag ("not truncation." ++ "quadruples")%string).
    change (flag "not truncation.quintuples"%string) with (flag ("not truncation." ++ "quintuples")%string).
    rewrite !T. unfold needed_order, has_rank. cbn [rank_name]. clear E T.
    split; [|split].
    - intros H. exists r1. split; [exact R1|]. destruct (trunc_of flag "singles"); [congruence|]. eexists. reflexivity.
    - intros -> H5. destruct (trunc_of flag "quintuples"); [congruence|]. cbn [negb app].
      destruct (trunc_of flag "doubles"); [destruct (trunc_of flag "triples"); [destruct (trunc_of flag "quadruples")|]|]; cbn [negb app]; eexists; reflexivity.
    - intros (H1 & Hd) H5. exists r2. split; [exact R2|]. unfold has_rank in *.
      assert (H4 := Hd 4 ltac:(lia) ltac:(lia) H5). assert (H3 := Hd 3 ltac:(lia) ltac:(lia) H4). assert (H2 := Hd 2 ltac:(lia) ltac:(lia) H3).
      cbn [rank_name] in *. rewrite H1, H2, H3, H4, H5. exists []. reflexivity.
  Qed.

  (** ** The heads *)
  Lemma heads_map_defs l : heads (map block_of_def l) = map fst l.
  Proof. induction l as [|d l IH]; [reflexivity|]. change (fst d :: heads (map block_of_def l) = fst d :: map fst l). now rewrite IH. Qed.
  Lemma w_prog_heads M : heads (w_prog M) = w_heads M.
  Proof.
    unfold w_prog. unfold heads. rewrite flat_map_app. fold (heads (map block_of_def (w_defs M))). rewrite heads_map_defs. change (flat_map _ (map Simple w_imports)) with (@nil string).
    cbn [app]. unfold w_defs, w_heads. cbn [flat_map]. unfold half_defs, helpers, w_funs. rewrite !map_app, !map_map, !app_nil_r. reflexivity.
  Qed.
  Lemma w_prog_top flag M : exec flag (w_prog M) = w_imports.
  Proof.
    unfold w_prog. rewrite exec_app, exec_simple. replace (exec flag (map block_of_def (w_defs M))) with (@nil string); [apply app_nil_r|].
    induction (w_defs M) as [|d l IH]; [reflexivity|]. exact IH.
  Qed.
  Fixpoint distinct (l : list string) : bool := match l with [] => true | x :: r => negb (existsb (String.eqb x) r) && distinct r end.
  Lemma distinct_nodup l : distinct l = true -> NoDup l.
  Proof.
    induction l as [|x l IH]; [constructor|]. cbn [distinct]. intros H. apply andb_prop in H as [H1 H2]. constructor; [|now apply IH].
    intros I. apply negb_true_iff in H1. apply not_true_iff_false in H1. apply H1. apply existsb_exists. exists x. split; [exact I|apply String.eqb_refl].
  Qed.
  Lemma w_heads_nodup M : M <= 6 -> NoDup (w_heads M).
  Proof. intros K. apply distinct_nodup. by_order M; vm_compute; reflexivity. Qed.

  Lemma mapM_err {A B} (f : A -> res B) a b c e : (forall x, In x a -> exists y, f x = Ok y) -> f b = Err e -> mapM f (a ++ b :: c) = Err e.
  Proof.
    intros H E. induction a as [|x a IH]; cbn [app mapM]; [now rewrite E|]. destruct (H x) as (y & ->); [now left|]. cbn [bind]. rewrite IH by (intros; apply H; now right). reflexivity.
  Qed.
  Lemma file_refused M : 6 < M -> generate_w_operator_equations_file so M = Err NotImplementedErr.
  Proof.
    intros K. unfold generate_w_operator_equations_file, generate_w_operators_string. rewrite range_seq.
    replace (seq 1 M) with (seq 1 6 ++ 7 :: seq 8 (M - 7)) by (rewrite <- (app_nil_r (seq 1 M)); change (7 :: seq 8 (M - 7)) with (seq 7 (S (M - 7))); replace (seq 7 (S (M - 7))) with (seq (1 + 6) (S (M - 7))) by reflexivity;
      rewrite <- seq_app, app_nil_r; f_equal; lia).
    rewrite (mapM_err _ (seq 1 6) 7 _ NotImplementedErr); [reflexivity| |reflexivity].
    intros k I. apply in_seq in I. eexists. apply (helper_generated false). lia.
  Qed.
End W.

(** ** The statements of the properties *)
Section Final.
  Variable so : list (list nat) -> list (list nat).
  Hypothesis Hso : set_order so.

  Lemma w_program M text : M <= 6 -> generate_w_operator_equations_file so M = Ok text ->
    exists prog, python text prog /\ (forall flag, exec flag prog = w_imports) /\ heads prog = w_heads M /\ NoDup (heads prog).
  Proof.
    intros K G. exists (w_prog so M). split; [now apply w_program_read|]. split; [intros flag; apply w_prog_top|]. rewrite w_prog_heads.
    split; [reflexivity|now apply w_heads_nodup].
  Qed.
  Lemma w_total M : (exists text, generate_w_operator_equations_file so M = Ok text) <-> M <= 6.
  Proof.
    split; [|intros K; eexists; now apply file_generated]. intros (t & E). destruct (le_lt_dec M 6) as [K|K]; [exact K|]. rewrite file_refused in E by assumption. discriminate.
  Qed.
  Lemma w_default M text prog flag k : M <= 6 -> generate_w_operator_equations_file so M = Ok text -> python text prog ->
    level_truncation (trunc_of flag) -> 1 <= k <= M ->
    exists l, w_adds prog flag k false (fun _ => []) l /\ is_w_sum flag k l.
  Proof.
    intros K G P L Hk. rewrite (python_functional _ _ _ P (w_program_read so Hso M text K G)). exists (w_list so flag k).
    split; [apply w_ok; try assumption; reflexivity|]. apply w_list_sum; (assumption || lia).
  Qed.
  Lemma w_optimized M text prog flag : M <= 6 -> generate_w_operator_equations_file so M = Ok text -> python text prog ->
    level_truncation (trunc_of flag) -> negations flag ->
    exists vx vc, returns_paths prog flag "vemx" vx /\ returns_paths prog flag "vecc" vc /\
      forall k, 1 <= k <= M -> exists px pc l, nth_error vx (k - 1) = Some px /\ nth_error vc (k - 1) = Some pc /\
        w_adds prog flag k true (choose px pc) l /\ w_adds prog flag k false (fun _ => []) l /\ is_w_sum flag k l.
  Proof.
    intros K G P L Ng. rewrite (python_functional _ _ _ P (w_program_read so Hso M text K G)).
    exists (path_results so flag false M), (path_results so flag true M). split; [now apply (paths_ok so Hso flag false)|]. split; [now apply (paths_ok so Hso flag true)|].
    intros k Hk. destruct (path_results_nth so Hso flag false M k L Ng Hk K) as (px & Ex & Px). destruct (path_results_nth so Hso flag true M k L Ng Hk K) as (pc & Ec & Pc).
    exists px, pc, (w_list so flag k). split; [exact Ex|]. split; [exact Ec|]. split; [|split].
    - apply w_ok; try assumption. intros un U. destruct un; [cbn; now apply Pc|cbn; now apply Px].
    - apply w_ok; try assumption. reflexivity.
    - apply w_list_sum; (assumption || lia).
  Qed.
  Lemma w_master M text prog flag opt : M <= 6 -> generate_w_operator_equations_file so M = Ok text -> python text prog -> negations flag ->
    (exists body doc, In (Block (compute_w_head opt) body) prog /\ String.prefix triple doc = true /\
      (~ has_rank (trunc_of flag) 1 -> exists t, raises t /\ starts_with (exec flag body) [doc; t]) /\
      (has_rank (trunc_of flag) 1 -> ~ has_rank (trunc_of flag) 5 ->
         let n := needed_order (trunc_of flag) in
         starts_with (exec flag body) (doc :: map (fun k => compute_w_call k opt) (seq 1 n) ++ [w_result n])) /\
      (level_truncation (trunc_of flag) -> has_rank (trunc_of flag) 5 ->
         exists t, String.prefix "raise NotImplementedError(" t = true /\
           starts_with (exec flag body) (doc :: map (fun k => compute_w_call k opt) (seq 1 6) ++ [t]))) /\
    (forall k, 1 <= k <= 6 -> ((exists body, In (Block (w_head k opt) body) prog) <-> k <= M)).
  Proof.
    intros K G P Ng. rewrite (python_functional _ _ _ P (w_program_read so Hso M text K G)). split; [now apply master_ok|].
    intros k Hk. split.
    - intros (b & I). assert (J : In (w_head k opt) (heads (w_prog so M))) by (apply in_flat_map; exists (Block (w_head k opt) b); split; [exact I|now left]).
      rewrite w_prog_heads in J. destruct (le_lt_dec k M) as [H|H]; [exact H|exfalso]. revert J.
      assert (X : existsb (String.eqb (w_head k opt)) (w_heads M) = false).
      { destruct M as [|[|[|[|[|[|[|?]]]]]]]; try (exfalso; lia); destruct k as [|[|[|[|[|[|[|?]]]]]]]; try (exfalso; lia); destruct opt; vm_compute; reflexivity. }
      intros J. apply not_true_iff_false in X. apply X. apply existsb_exists. exists (w_head k opt). split; [exact J|apply String.eqb_refl].
    - intros H. exists (w_body k opt). apply w_in. lia.
  Qed.
End Final.

Section File.
  Lemma w_file_program so M : set_order so ->
    ((exists text, generate_w_operator_equations_file so M = Ok text) <-> M <= 6) /\
    (forall text, generate_w_operator_equations_file so M = Ok text ->
       exists prog, python text prog /\ (forall flag, exec flag prog = w_imports) /\ heads prog = w_heads M /\ NoDup (heads prog)).
  Proof.
    intros Hso. split; [now apply w_total|]. intros text G. apply (w_program so Hso M text); [|exact G]. apply (w_total so Hso). eauto.
  Qed.
  Lemma w_file_default so M text prog flag k : set_order so ->
    generate_w_operator_equations_file so M = Ok text -> python text prog ->
    level_truncation (trunc_of flag) -> 1 <= k <= M ->
    exists l, w_adds prog flag k false (fun _ => []) l /\ is_w_sum flag k l.
  Proof. intros Hso G. apply (w_default so Hso M text); [|exact G]. apply (w_total so Hso). eauto. Qed.
  Lemma w_file_optimized so M text prog flag : set_order so ->
    generate_w_operator_equations_file so M = Ok text -> python text prog ->
    level_truncation (trunc_of flag) -> negations flag ->
    exists vx vc, returns_paths prog flag "vemx" vx /\ returns_paths prog flag "vecc" vc /\
      forall k, 1 <= k <= M -> exists px pc l, nth_error vx (k - 1) = Some px /\ nth_error vc (k - 1) = Some pc /\
        w_adds prog flag k true (choose px pc) l /\ w_adds prog flag k false (fun _ => []) l /\ is_w_sum flag k l.
  Proof. intros Hso G. apply (w_optimized so Hso M text); [|exact G]. apply (w_total so Hso). eauto. Qed.
  Lemma w_file_master so M text prog flag opt : set_order so -> generate_w_operator_equations_file so M = Ok text -> python text prog -> negations flag ->
    (exists body doc, In (Block (compute_w_head opt) body) prog /\ String.prefix triple doc = true /\
      (~ has_rank (trunc_of flag) 1 -> exists t, raises t /\ starts_with (exec flag body) [doc; t]) /\
      (has_rank (trunc_of flag) 1 -> ~ has_rank (trunc_of flag) 5 ->
         let n := needed_order (trunc_of flag) in
         starts_with (exec flag body) (doc :: map (fun k => compute_w_call k opt) (seq 1 n) ++ [w_result n])) /\
      (level_truncation (trunc_of flag) -> has_rank (trunc_of flag) 5 ->
         exists t, String.prefix "raise NotImplementedError(" t = true /\
           starts_with (exec flag body) (doc :: map (fun k => compute_w_call k opt) (seq 1 6) ++ [t]))) /\
    (forall k, 1 <= k <= 6 -> ((exists body, In (Block (w_head k opt) body) prog) <-> k <= M)).
  Proof. intros Hso G. apply (w_master so Hso M text); [|exact G]. apply (w_total so Hso). eauto. Qed.
End File.
