(** The text of the generated module of the time derivatives is a program, and
    what its functions do. *)
From Coq Require Import List Arith Lia Bool Ascii String Permutation.
From Verif Require Import PyBase PyBaseFacts ModelHelper SpecPartitions SpecW SpecDt SpecPython SpecEtText SpecSumText SpecWText SpecDtText ModelW ModelDt
  PyStr ProofsStr ProofsHelper ProofsPython ProofsParse ProofsFullCCBuckets ProofsEtText ProofsW ProofsDt ProofsSumText ProofsWText.
Import ListNotations.
Local Open Scope nat_scope.
Local Open Scope list_scope.

(** ** Products *)

Definition dprod (k : nat) (x : list nat * nat) : product := mkproduct (leibniz_term (fst x) (snd x)) (ins_of k (fst x)) (out_of k).
Lemma render_dt_call opt k x : render_expr (dt_call opt k x) = call_text opt (dprod k x).
Proof.
  destruct opt; cbn [dt_call render_expr call_text]; unfold next_text, einsum_text, subscripts, commas; cbn [p_ops p_ins p_out dprod]; rewrite !join_concat; [reflexivity|].
  rewrite !append_assoc. reflexivity.
Qed.
Lemma dt_amp_name_plain n : no_special (dt_amp_name n) = true.
Proof. unfold dt_amp_name. do 9 (destruct n as [|n]; [reflexivity|]). destruct n; reflexivity. Qed.
Lemma leibniz_plain c i : Forall (fun s => no_special s = true) (leibniz_term c i).
Proof. apply Forall_forall. intros s I. apply in_leibniz in I as (n & _ & [->| ->]); [apply amp_name_plain|apply dt_amp_name_plain]. Qed.
Lemma dprod_good k x : good_product (dprod k x).
Proof. split; [apply ins_of_nq|]. split; [apply out_of_nq|]. apply leibniz_plain. Qed.

Lemma tuple_repr_line p : has_char newline (tuple_repr p) = false.
Proof.
  assert (J : forall l, has_char newline (join ", " (map str_nat l)) = false).
  { intros l. rewrite join_concat. assert (N : neutral (String.concat ", " (map str_nat l))).
    { apply neutral_concat; [now apply neutral_plain|]. apply Forall_map, Forall_forall. intros n _. apply nat_neutral. }
    exact (proj1 N). }
  assert (E : has_char newline ("(" ++ join ", " (map str_nat p) ++ ")") = false) by (rewrite !has_char_app, J; reflexivity).
  unfold tuple_repr. destruct p as [|x [|y r]]; [exact E| |exact E]. rewrite !has_char_app, (proj1 (nat_neutral x)). reflexivity.
Qed.

Section D.
  Variable so : list (list nat) -> list (list nat).
  Hypothesis Hso : set_order so.

  Ltac by_order k := destruct k as [|[|[|[|[|[|[|?]]]]]]]; try (exfalso; lia).

  (** ** The contributions of a partition *)
  Definition dpairs (p : list nat) : list (list nat * nat) := flat_map positions (unique_permutations so p).
  Definition dcalls (k : nat) (opt : bool) (p : list nat) : list string := map (fun x => call_text opt (dprod k x)) (dpairs p).
  Definition dstart (un : bool) (p : list nat) : string :=
    (terms_array un ++ " += " ++ render_prefactor (generate_w_operator_prefactor p) ++ " * ")%string.
  Definition dsum (un : bool) (k : nat) (opt : bool) (p : list nat) : string :=
    (dstart un p ++ "( " ++ String.concat " + " (dcalls k opt p) ++ " )")%string.

  Lemma dstart_ok un p : neutral (dstart un p) /\ starts (dstart un p) = true.
  Proof.
    split; [|destruct un; reflexivity]. unfold dstart. repeat apply neutral_app; try (now apply neutral_plain); [destruct un; now apply neutral_plain|apply prefactor_neutral].
  Qed.
  Lemma dcalls_ok k opt p : Forall (fun c => text_ok c /\ is_head c = false) (dcalls k opt p).
  Proof. apply Forall_map, Forall_forall. intros x _. apply call_ok, dprod_good. Qed.
  Lemma dpairs_nonempty p : p <> [] -> dpairs p <> [].
  Proof.
    intros H. unfold dpairs. assert (I : In p (unique_permutations so p)) by (apply in_unique_permutations; [exact Hso|reflexivity]).
    intros E. assert (J : In (p, 0) (flat_map positions (unique_permutations so p))).
    { apply in_flat_map. exists p. split; [exact I|]. apply in_positions. cbn [fst snd]. split; [reflexivity|]. destruct p; [congruence|cbn; lia]. }
    rewrite E in J. destruct J.
  Qed.

  Definition render_dcontrib (un : bool) (c : dt_contrib) : string :=
    (tab ++ "# the " ++ tuple_repr (dc_partition c) ++ " term" ++ nl
     ++ tab ++ terms_array un ++ " += " ++ render_prefactor (dc_pref c) ++ " * (" ++ nl
     ++ tab ++ tab ++ join (" +" ++ nl ++ tab ++ tab) (map render_expr (dc_calls c)) ++ nl
     ++ tab ++ ")" ++ nl)%string.
  Lemma dcontrib_block un k opt p : p <> [] -> block 4 (render_dcontrib un (dt_contrib_of so k opt p)) [Simple (dsum un k opt p)].
  Proof.
    intros HP. unfold render_dcontrib. cbn [dt_contrib_of dc_partition dc_pref dc_calls]. rewrite map_map, (map_ext _ _ (render_dt_call opt k)). fold (dpairs p). fold (dcalls k opt p).
    destruct (dstart_ok un p) as [N HS]. change [Simple (dsum un k opt p)] with ([] ++ [Simple (dsum un k opt p)]).
    match goal with |- block 4 ?t _ => replace t with ((pad 4 ++ "# " ++ ("the " ++ tuple_repr p ++ " term") ++ nl)
      ++ (pad 4 ++ dstart un p ++ "(" ++ nl ++ pad 8 ++ join (" +" ++ nl ++ pad 8) (dcalls k opt p) ++ nl ++ pad 4 ++ ")" ++ nl))%string end.
    2:{ unfold dstart. rewrite !append_assoc. reflexivity. }
    apply block_app; [apply block_comment; rewrite !has_char_app, tuple_repr_line; reflexivity|].
    apply block_sum_lines; [exact N|exact HS| |apply dcalls_ok]. unfold dcalls. intros E. apply map_eq_nil in E. now apply (dpairs_nonempty p).
  Qed.

  (** ** The functions of the disconnected terms *)
  Definition dleast (un : bool) : nat := if un then 4 else 2.
  Definition dparts (un : bool) (k : nat) : list (list nat) :=
    if un then generate_un_linked_disconnected_partitions_of_n so k else generate_linked_disconnected_partitions_of_n so k.
  Definition dterms_fun (un : bool) (k : nat) (opt : bool) : res dt_fun :=
    if un then write_un_linked_disconnected so k opt else write_linked_disconnected so k opt.
  Lemma dparts_len un k p : 1 <= k -> In p (dparts un k) -> partition_of k p /\ 2 <= List.length p.
  Proof. unfold dparts. destruct un; [apply unlinked_len|apply linked_len]; exact Hso. Qed.

  (** The text before the contributions. *)
  Definition dintro (un : bool) (k : nat) (opt : bool) : string :=
   (tab ++ q3 ++ "Calculate all uniquely " ++ (if un then "un-linked" else "linked")
          ++ " disconnected terms generated from the wave operator ansatz." ++ nl
    ++ tab ++ "This means for order 5 we include terms such as "
           ++ (if un then "(3, 2), (2, 2, 1)"
               else if opt then "(4, 1), (3, 1, 1), (2, 1, 1, 1)"
               else "(4, 1), (3, 1, 1), (2, 1, 1, 1), (1, 1, 1, 1, 1)") ++ nl
    ++ tab ++ "But not terms "
           ++ (if un then "(5), (4, 1), (3, 1, 1), (2, 1, 1, 1), (1, 1, 1, 1, 1)"
               else if opt then "(5), (3, 2), (2, 2, 1), (1, 1, 1, 1, 1)"
               else "(5), (3, 2), (2, 2, 1)") ++ nl
    ++ (if opt then tab ++ "Uses optimized summation paths generate using `contract_expression` from the `opt_einsum` library." ++ nl
        else "")
    ++ tab ++ q3 ++ nl
    ++ tab ++ "# unpack the `t_args` and 'dt_args'" ++ nl
    ++ tab ++ join ", " (map amp_name (range 1 k) ++ ["*unusedargs"%string]) ++ " = t_args" ++ nl
    ++ tab ++ join ", " (map dt_amp_name (range 1 k) ++ ["*unusedargs"%string]) ++ " = dt_args" ++ nl
    ++ (if opt then
          let pl := if un then "opt_unlinked_path_list" else "opt_linked_path_list" in
          tab ++ "# make an iterable out of the `" ++ pl ++ "`" ++ nl
          ++ tab ++ "optimized_einsum = iter(" ++ pl ++ ")" ++ nl
        else "")
    ++ tab ++ "# Creating the " ++ nth k num_tag "" ++ " order return array" ++ nl
    ++ tab ++ terms_array un ++ " = np.zeros((" ++ join ", " (["A"%string; "A"%string] ++ repeat "N"%string k) ++ "), dtype=complex)" ++ nl)%string.
  Definition dreturn (un : bool) : string := (nl ++ tab ++ "return " ++ terms_array un ++ nl)%string.
  Definition draise_text (un : bool) (k : nat) (opt : bool) : string := render_dt_fun un k opt DFraise.
  Definition draise_body (un : bool) (k : nat) (opt : bool) : list stmt :=
    parsed 4 (after_head (terms_head un k opt) (draise_text un k opt)).
  Definition dterms_text (un : bool) (k : nat) (opt : bool) : string :=
    if Nat.ltb k (dleast un) then draise_text un k opt
    else (nl ++ terms_head un k opt ++ nl ++ dintro un k opt
          ++ concat_str (map (fun p => render_dcontrib un (dt_contrib_of so k opt p)) (dparts un k)) ++ dreturn un)%string.
  Definition dintro_body (un : bool) (k : nat) (opt : bool) : list stmt := parsed 4 (dintro un k opt).
  Definition dterms_body (un : bool) (k : nat) (opt : bool) : list stmt :=
    if Nat.ltb k (dleast un) then draise_body un k opt
    else dintro_body un k opt ++ map (fun p => Simple (dsum un k opt p)) (dparts un k) ++ [Simple ("return " ++ terms_array un)].

  Lemma dterms_generated un k opt : 1 <= k <= 6 ->
    (do f <- dterms_fun un k opt; Ok (render_dt_fun un k opt f)) = Ok (dterms_text un k opt).
  Proof.
    intros K. unfold dterms_text, dterms_fun. destruct (Nat.ltb_spec k (dleast un)) as [L|L].
    - destruct un; unfold dleast in L; by_order k; reflexivity.
    - assert (E : forall cs, render_dt_fun un k opt (DFbody (map amp_name (range 1 k)) (map dt_amp_name (range 1 k)) cs)
        = (nl ++ terms_head un k opt ++ nl ++ dintro un k opt ++ concat_str (map (render_dcontrib un) cs) ++ dreturn un)%string).
      { intros cs. unfold render_dt_fun. change (fun c : dt_contrib => (tab ++ "# the " ++ _)%string) with (render_dcontrib un).
        generalize (concat_str (map (render_dcontrib un) cs)). intros s.
        unfold dintro, dreturn, render_dt_def, terms_head, terms_call, terms_name, terms_paths, terms_array, linkedness, path_word, optimized.
        destruct un, opt; rewrite !append_assoc; reflexivity. }
      destruct un; unfold dleast in L.
      + rewrite unlinked_ok by (exact Hso || lia). cbn [bind]. rewrite E, map_map. reflexivity.
      + rewrite linked_ok by (exact Hso || lia). cbn [bind]. rewrite E, map_map. reflexivity.
  Qed.
  Lemma dterms_head_plain un k opt : 1 <= k <= 6 -> plain_head (terms_head un k opt) = true.
  Proof. intros K. by_order k; destruct un, opt; vm_compute; reflexivity. Qed.
  Lemma dintro_ok un k opt : dleast un <= k <= 6 ->
    block 4 (dintro un k opt) (dintro_body un k opt) /\
    exists doc, String.prefix triple doc = true /\
      dintro_body un k opt = map Simple ([doc; unpack_text (map amp_name (seq 1 (k - 1))) "t_args"; unpack_text (map dt_amp_name (seq 1 (k - 1))) "dt_args"]
        ++ (if opt then [("optimized_einsum = iter(" ++ terms_paths un ++ ")")%string] else [])
        ++ [(terms_array un ++ " = np.zeros(" ++ amp_shape k ++ ", dtype=complex)")%string]).
  Proof.
    intros K. destruct un; unfold dleast in K; by_order k; destruct opt;
      (split; [apply block_text; vm_compute; reflexivity|eexists; split; [|vm_compute; reflexivity]; vm_compute; reflexivity]).
  Qed.
  Lemma draise_ok un k opt : 1 <= k < dleast un ->
    draise_text un k opt = (nl ++ terms_head un k opt ++ nl ++ after_head (terms_head un k opt) (draise_text un k opt))%string /\
    block 4 (after_head (terms_head un k opt) (draise_text un k opt)) (draise_body un k opt) /\ draise_body un k opt <> [].
  Proof.
    intros K. destruct un; unfold dleast in K; by_order k; destruct opt;
      (split; [vm_compute; reflexivity|split; [apply block_text; vm_compute; reflexivity|vm_compute; discriminate]]).
  Qed.
  Lemma dterms_block un k opt : 1 <= k <= 6 -> block 0 (dterms_text un k opt) [Block (terms_head un k opt) (dterms_body un k opt)].
  Proof.
    intros K. destruct (plain_head_ok _ (dterms_head_plain un k opt K)) as (N & L & O).
    unfold dterms_text, dterms_body. destruct (Nat.ltb_spec k (dleast un)) as [S1|S1].
    - destruct (draise_ok un k opt) as (E & B & E'); [lia|]. rewrite E. now apply block_def.
    - destruct (dintro_ok un k opt) as (B & _); [lia|].
      apply block_def; [exact N|exact L|exact O| |].
      + intros E0. apply app_eq_nil in E0 as [_ E0]. apply app_eq_nil in E0 as [_ E0]. discriminate.
      + apply block_app; [exact B|]. apply block_app; [|destruct un; apply block_text; vm_compute; reflexivity].
        apply block_map. intros p I. apply dcontrib_block. destruct (dparts_len un k p) as [_ X]; [lia|exact I|]. destruct p; [cbn in X; lia|discriminate].
  Qed.

  (** ** The amplitude functions and the functions a caller uses *)
  Definition damp_text (k : nat) (opt : bool) : string :=
    match write_dt_amplitude k opt with Ok f => render_dt_amplitude k opt f | Err _ => "" end.
  Definition damp_body (k : nat) (opt : bool) : list stmt := parsed 4 (after_head (dt_head k opt) (damp_text k opt)).
  Lemma damp_generated k opt : 1 <= k <= 6 -> (do f <- write_dt_amplitude k opt; Ok (render_dt_amplitude k opt f)) = Ok (damp_text k opt).
  Proof. intros K. unfold damp_text. by_order k; reflexivity. Qed.
  Lemma damp_block k opt : 1 <= k <= 6 -> block 0 (damp_text k opt) [Block (dt_head k opt) (damp_body k opt)].
  Proof.
    intros K.
    assert (H : plain_head (dt_head k opt) = true /\ damp_text k opt = (nl ++ dt_head k opt ++ nl ++ after_head (dt_head k opt) (damp_text k opt))%string /\
      block 4 (after_head (dt_head k opt) (damp_text k opt)) (damp_body k opt) /\ damp_body k opt <> []).
    { by_order k; destruct opt; (split; [vm_compute; reflexivity|]); (split; [vm_compute; reflexivity|]); (split; [apply block_text; vm_compute; reflexivity|vm_compute; discriminate]). }
    destruct H as (P & E & B & NE). destruct (plain_head_ok _ P) as (N & L & O). rewrite E. now apply block_def.
  Qed.

  Definition solve_text (k : nat) (opt : bool) : string := match render_solve k opt with Ok t => t | Err _ => "" end.
  Definition solve_stmts (k : nat) (opt : bool) : list stmt := parsed 4 (after_head (solve_head k opt) (solve_text k opt)).
  Lemma solve_generated k opt : 1 <= k <= 6 -> render_solve k opt = Ok (solve_text k opt).
  Proof. intros K. unfold solve_text. by_order k; reflexivity. Qed.
  Lemma solve_block k opt : 1 <= k <= 6 -> block 0 (solve_text k opt) [Block (solve_head k opt) (solve_stmts k opt)].
  Proof.
    intros K.
    assert (H : plain_head (solve_head k opt) = true /\ solve_text k opt = (nl ++ solve_head k opt ++ nl ++ after_head (solve_head k opt) (solve_text k opt))%string /\
      block 4 (after_head (solve_head k opt) (solve_text k opt)) (solve_stmts k opt) /\ solve_stmts k opt <> []).
    { by_order k; destruct opt; (split; [vm_compute; reflexivity|]); (split; [vm_compute; reflexivity|]); (split; [apply block_text; vm_compute; reflexivity|vm_compute; discriminate]). }
    destruct H as (P & E & B & NE). destruct (plain_head_ok _ P) as (N & L & O). rewrite E. now apply block_def.
  Qed.

  Definition all_paths_stmts : list stmt := parsed 4 (after_head all_paths_head render_master_paths).
  Lemma all_paths_block : block 0 render_master_paths [Block all_paths_head all_paths_stmts].
  Proof.
    assert (H : plain_head all_paths_head = true /\ render_master_paths = (nl ++ all_paths_head ++ nl ++ after_head all_paths_head render_master_paths)%string /\
      block 4 (after_head all_paths_head render_master_paths) all_paths_stmts /\ all_paths_stmts <> []).
    { (split; [vm_compute; reflexivity|]); (split; [vm_compute; reflexivity|]); (split; [apply block_text; vm_compute; reflexivity|vm_compute; discriminate]). }
    destruct H as (P & E & B & NE). destruct (plain_head_ok _ P) as (N & L & O). rewrite E. now apply block_def.
  Qed.

  (** ** The lists of expressions *)
  Definition eps_text (M : nat) : string := match epsilon_paths M with Ok l => render_epsilon_paths l | Err _ => "" end.
  Definition eps_body (M : nat) : list stmt := parsed 4 (after_head (dt_paths_head "epsilon") (eps_text M)).
  Lemma eps_generated M : M <= 6 -> (do l <- epsilon_paths M; Ok (render_epsilon_paths l)) = Ok (eps_text M).
  Proof. intros K. unfold eps_text. by_order M; reflexivity. Qed.
  Lemma eps_block M : M <= 6 -> block 0 (eps_text M) [Block (dt_paths_head "epsilon") (eps_body M)].
  Proof.
    intros K. set (h := dt_paths_head "epsilon").
    assert (H : plain_head h = true /\ eps_text M = (nl ++ h ++ nl ++ after_head h (eps_text M))%string /\
      block 4 (after_head h (eps_text M)) (eps_body M) /\ eps_body M <> []).
    { by_order M; (split; [vm_compute; reflexivity|]); (split; [vm_compute; reflexivity|]); (split; [apply block_text; vm_compute; reflexivity|vm_compute; discriminate]). }
    destruct H as (P & E & B & NE). destruct (plain_head_ok _ P) as (N & L & O). rewrite E. now apply block_def.
  Qed.

  Definition dextend (k : nat) (p : list nat) : list_stmt := Extend (list_name k) (map (fun x => entry k (fst x)) (dpairs p)).
  Definition dpath_stmt (k : nat) (p : list nat) : stmt := If ("truncation." ++ rank_name (list_max p)) [Simple (list_text (dextend k p))] [].
  Lemma dpath_stmt_block k p : p <> [] -> block 4 (render_block (dt_block_of so k p)) [dpath_stmt k p].
  Proof.
    intros HP. unfold render_block. cbn [dt_block_of pb_guard pb_order pb_paths]. fold (dpairs p). rewrite map_map.
    rewrite (map_ext (fun x : list nat * nat => tab ++ tab ++ tab ++ render_path (path_of k (fst x)))%string (fun x => pad 12 ++ entry k (fst x) ++ "," ++ nl)%string)
      by (intros c; rewrite render_path_entry; reflexivity).
    match goal with |- block 4 ?t _ => replace t with
      (((pad 4 ++ if_line ("truncation." ++ rank_name (list_max p))) ++ nl
       ++ (pad 8 ++ list_name k ++ ".extend([" ++ nl ++ concat_str (map (fun e => pad 12 ++ e ++ "," ++ nl)%string (map (fun x => entry k (fst x)) (dpairs p))) ++ pad 8 ++ "])" ++ nl))
       ++ nl)%string end.
    2:{ unfold if_line, list_name. rewrite map_map, !append_assoc. reflexivity. }
    change [dpath_stmt k p] with ([dpath_stmt k p] ++ []). apply block_app; [|apply block_nl].
    assert (N : neutral (if_line ("truncation." ++ rank_name (list_max p)))).
    { apply neutral_plain. unfold if_line. rewrite !no_special_app, rank_name_plain. reflexivity. }
    apply (block_condition 4 8); [| |lia|discriminate|].
    - rewrite has_char_app. exact (proj1 N).
    - apply line_simple; [exact N|reflexivity|]. unfold if_line. apply ends_app. now apply ends_app.
    - apply block_extend.
      + unfold list_name. rewrite !no_special_app. rewrite (str_nat_no_special k). reflexivity.
      + reflexivity.
      + intros E. apply map_eq_nil in E. now apply (dpairs_nonempty p).
      + apply Forall_map, Forall_forall. intros c _. apply entry_ok.
  Qed.

  Definition dorders (un : bool) (M : nat) : list nat := range (dleast un) (M + 1).
  Definition ditems (un : bool) (M : nat) : list nat := (if un then [1; 2; 3] else [1]) ++ dorders un M.
  Definition dblocks (un : bool) (M : nat) : list path_block :=
    List.concat (map (fun k => map (dt_block_of so k) (dparts un k)) (dorders un M)).
  Definition dpaths_fun (un : bool) (M : nat) : res (list path_block * list (option nat)) :=
    if un then optimized_unlinked_paths so M else optimized_linked_paths so M.
  Definition dpaths_text (un : bool) (M : nat) : string :=
    (if un then render_unlinked_paths else render_linked_paths) (dblocks un M, map Some (ditems un M)).
  Lemma dpaths_generated un M : M <= 6 -> dpaths_fun un M = Ok (dblocks un M, map Some (ditems un M)).
  Proof.
    intros K. unfold dpaths_fun, dblocks, ditems, dorders.
    destruct un; [unfold optimized_unlinked_paths|unfold optimized_linked_paths]; (destruct (Nat.ltb_spec 6 M); [lia|]); unfold dleast.
    - rewrite (mapM_ok _ (fun o => map (dt_block_of so o) (dparts true o))); [reflexivity|].
      intros o Ho. apply in_range in Ho. unfold dparts. apply dt_path_blocks_ok; [exact Hso|lia|]. intros p. apply (dparts_len true). lia.
    - rewrite (mapM_ok _ (fun o => map (dt_block_of so o) (dparts false o))); [reflexivity|].
      intros o Ho. apply in_range in Ho. unfold dparts. apply dt_path_blocks_ok; [exact Hso|lia|]. intros p. apply (dparts_len false). lia.
  Qed.

  Definition dpaths_start (un : bool) : string :=
    (tab ++ q3 ++ "Calculate optimized paths for the " ++ path_word un ++ "-disconnected einsum calls up to `highest_order`." ++ q3 ++ nl ++ nl
     ++ tab ++ "order_1_list, order_2_list, order_3_list = [], [], []" ++ nl
     ++ tab ++ "order_4_list, order_5_list, order_6_list = [], [], []" ++ nl ++ nl
     ++ (if un then
           tab ++ "if not truncation.doubles:" ++ nl
           ++ tab ++ tab ++ "log.warning('Did not calculate optimized unlinked paths of the dt amplitudes')" ++ nl
           ++ tab ++ tab ++ "return [[], [], [], [], [], []]" ++ nl ++ nl
         else ""))%string.
  Definition dret_text (un : bool) (M : nat) : string := (tab ++ "return [" ++ render_ret (map Some (ditems un M)) ++ "]" ++ nl)%string.
  Lemma dpaths_head_plain un : plain_head (dt_paths_head (path_word un)) = true.
  Proof. destruct un; vm_compute; reflexivity. Qed.
  Lemma dpaths_text_parts un M : dpaths_text un M =
    (nl ++ dt_paths_head (path_word un) ++ nl ++ dpaths_start un ++ concat_str (map render_block (dblocks un M)) ++ dret_text un M)%string.
  Proof.
    unfold dpaths_text, dret_text. destruct un; [unfold render_unlinked_paths|unfold render_linked_paths]; cbn [fst snd];
      match goal with |- context [concat_str ?b] => generalize (concat_str b) end; match goal with |- context [render_ret ?r] => generalize (render_ret r) end; intros r b;
      unfold dpaths_start, dt_paths_head, dt_paths_call, path_word; rewrite !append_assoc; reflexivity.
  Qed.
  Definition dpaths_doc (un : bool) : string :=
    (q3 ++ "Calculate optimized paths for the " ++ path_word un ++ "-disconnected einsum calls up to `highest_order`." ++ q3)%string.
  Definition dlists : list list_stmt := [Start [list_name 1; list_name 2; list_name 3]; Start [list_name 4; list_name 5; list_name 6]].
  Definition dwarning : list_stmt := Warn "Did not calculate optimized unlinked paths of the dt amplitudes".
  Definition dpaths_intro (un : bool) : list stmt :=
    Simple (dpaths_doc un) :: map (fun s => Simple (list_text s)) dlists
    ++ (if un then [If "not truncation.doubles" [Simple (list_text dwarning); Simple ("return [" ++ commas (repeat "[]"%string 6) ++ "]")] []] else []).
  Definition dpaths_body (un : bool) (M : nat) : list stmt :=
    dpaths_intro un ++ flat_map (fun k => map (dpath_stmt k) (dparts un k)) (dorders un M)
    ++ [Simple ("return [" ++ commas (map list_name (ditems un M)) ++ "]")].
  Lemma dpaths_block un M : M <= 6 -> block 0 (dpaths_text un M) [Block (dt_paths_head (path_word un)) (dpaths_body un M)].
  Proof.
    intros K. rewrite dpaths_text_parts. destruct (plain_head_ok _ (dpaths_head_plain un)) as (N & L & O).
    apply block_def; [exact N|exact L|exact O|destruct un; discriminate|]. unfold dpaths_body.
    apply block_app; [destruct un; apply block_text; vm_compute; reflexivity|]. apply block_app.
    - unfold dblocks. assert (P : forall k, In k (dorders un M) -> 1 <= k) by (intros k I; apply in_range in I; destruct un; unfold dleast in I; lia).
      induction (dorders un M) as [|k l IH]; [apply block_nil|]. cbn [map List.concat flat_map].
      rewrite map_app, concat_str_app. apply block_app; [|apply IH; intros; apply P; now right]. rewrite map_map.
      apply block_map. intros p I. apply dpath_stmt_block. destruct (dparts_len un k p) as [_ X]; [apply P; now left|exact I|]. destruct p; [cbn in X; lia|discriminate].
    - apply block_text. destruct M as [|[|[|[|[|[|[|?]]]]]]]; try (exfalso; lia); destruct un; vm_compute; reflexivity.
  Qed.

  (** ** The whole module *)
  Definition dterms_defs (un opt : bool) (M : nat) : list (string * list stmt) := map (fun k => (terms_head un k opt, dterms_body un k opt)) (seq 1 M).
  Definition damp_defs (opt : bool) (M : nat) : list (string * list stmt) := map (fun k => (dt_head k opt, damp_body k opt)) (seq 1 M).
  Definition solve_defs (opt : bool) (M : nat) : list (string * list stmt) := map (fun k => (solve_head k opt, solve_stmts k opt)) (seq 1 M).
  Definition dhalf_defs (M : nat) (opt : bool) : list (string * list stmt) :=
    dterms_defs false opt M ++ dterms_defs true opt M ++ damp_defs opt M ++ solve_defs opt M.
  Definition dt_defs (M : nat) : list (string * list stmt) :=
    flat_map (dhalf_defs M) [false; true]
    ++ [(all_paths_head, all_paths_stmts); (dt_paths_head "epsilon", eps_body M); (dt_paths_head "linked", dpaths_body false M); (dt_paths_head "unlinked", dpaths_body true M)].
  Definition dt_prog (M : nat) : list stmt := map Simple dt_imports ++ map block_of_def (dt_defs M).

  Definition dhalf_text (M : nat) (opt : bool) : string :=
   (nl ++ named_line_nl "DISCONNECTED TERMS" 28 ++ concat_str (map (fun k => dterms_text false k opt) (seq 1 M)) ++ concat_str (map (fun k => dterms_text true k opt) (seq 1 M))
    ++ nl ++ named_line_nl "dt AMPLITUDES" 28 ++ concat_str (map (fun k => damp_text k opt) (seq 1 M))
    ++ nl ++ named_line_nl "WRAPPER FUNCTIONS" 28 ++ concat_str (map (fun k => solve_text k opt) (seq 1 M)))%string.
  Lemma dfile_generated M : M <= 6 -> generate_dt_amplitude_equations_file so M = Ok
    (dt_equations_import_statements
     ++ spacing_line_75 ++ named_line_nl "DEFAULT FUNCTIONS" 28 ++ spacing_line_75 ++ dhalf_text M false ++ nl
     ++ spacing_line_75 ++ named_line_nl "OPTIMIZED FUNCTIONS" 27 ++ spacing_line_75 ++ dhalf_text M true
     ++ nl ++ named_line_nl "OPTIMIZED PATHS FUNCTION" 28
     ++ render_master_paths ++ nl ++ eps_text M ++ nl ++ dpaths_text false M ++ nl ++ dpaths_text true M ++ nl)%string.
  Proof.
    intros K. unfold generate_dt_amplitude_equations_file, generate_dt_amplitude_string. rewrite range_seq.
    assert (X : forall opt, mapM (fun o => do f <- write_linked_disconnected so o opt; Ok (render_dt_fun false o opt f)) (seq 1 M)
                = Ok (map (fun k => dterms_text false k opt) (seq 1 M))).
    { intros opt. apply mapM_ok. intros k I. apply in_seq in I. apply (dterms_generated false). lia. }
    assert (C : forall opt, mapM (fun o => do f <- write_un_linked_disconnected so o opt; Ok (render_dt_fun true o opt f)) (seq 1 M)
                = Ok (map (fun k => dterms_text true k opt) (seq 1 M))).
    { intros opt. apply mapM_ok. intros k I. apply in_seq in I. apply (dterms_generated true). lia. }
    assert (W : forall opt, mapM (fun o => do f <- write_dt_amplitude o opt; Ok (render_dt_amplitude o opt f)) (seq 1 M)
                = Ok (map (fun k => damp_text k opt) (seq 1 M))).
    { intros opt. apply mapM_ok. intros k I. apply in_seq in I. apply damp_generated. lia. }
    assert (V : forall opt, mapM (fun o => render_solve o opt) (seq 1 M) = Ok (map (fun k => solve_text k opt) (seq 1 M))).
    { intros opt. apply mapM_ok. intros k I. apply in_seq in I. apply solve_generated. lia. }
    rewrite (X false), (X true), (C false), (C true), (W false), (W true), (V false), (V true). cbn [bind].
    change (optimized_linked_paths so M) with (dpaths_fun false M). change (optimized_unlinked_paths so M) with (dpaths_fun true M).
    rewrite (dpaths_generated false M K), (dpaths_generated true M K).
    pose proof (eps_generated M K) as E. destruct (epsilon_paths M) as [ep|]; [|discriminate]. cbn [bind] in *. apply ok_inj in E. rewrite E. reflexivity.
  Qed.

  Lemma dhalf_block M opt : M <= 6 -> block 0 (dhalf_text M opt) (map block_of_def (dhalf_defs M opt)).
  Proof.
    intros K. unfold dhalf_text, dhalf_defs. rewrite !map_app. unfold dterms_defs, damp_defs, solve_defs. rewrite !map_map.
    apply block_nothing; [reflexivity|]. apply block_nothing; [vm_compute; reflexivity|].
    apply block_app; [apply block_map; intros k I; apply in_seq in I; apply dterms_block; lia|].
    apply block_app; [apply block_map; intros k I; apply in_seq in I; apply dterms_block; lia|].
    apply block_nothing; [reflexivity|]. apply block_nothing; [vm_compute; reflexivity|].
    apply block_app; [apply block_map; intros k I; apply in_seq in I; apply damp_block; lia|].
    apply block_nothing; [reflexivity|]. apply block_nothing; [vm_compute; reflexivity|].
    apply block_map; intros k I; apply in_seq in I; apply solve_block; lia.
  Qed.
  Lemma dt_program_read M text : M <= 6 -> generate_dt_amplitude_equations_file so M = Ok text -> python text (dt_prog M).
  Proof.
    intros K G. rewrite dfile_generated in G by exact K. apply ok_inj in G. rewrite <- G. clear text G. apply block_python. unfold dt_prog, dt_defs.
    apply block_app; [apply block_text; vm_compute; reflexivity|]. cbn [flat_map]. rewrite app_nil_r, !map_app, <- !app_assoc.
    apply block_nothing; [vm_compute; reflexivity|]. apply block_nothing; [vm_compute; reflexivity|]. apply block_nothing; [vm_compute; reflexivity|].
    apply block_app; [now apply dhalf_block|]. apply block_nothing; [reflexivity|].
    apply block_nothing; [vm_compute; reflexivity|]. apply block_nothing; [vm_compute; reflexivity|]. apply block_nothing; [vm_compute; reflexivity|].
    apply block_app; [now apply dhalf_block|].
    apply block_nothing; [reflexivity|]. apply block_nothing; [vm_compute; reflexivity|].
    cbn [map]. change [?a; ?b; ?c; ?d] with ([a] ++ [b] ++ [c] ++ [d]).
    apply block_app; [apply all_paths_block|]. apply block_nothing; [reflexivity|].
    apply block_app; [now apply eps_block|]. apply block_nothing; [reflexivity|].
    apply block_app; [now apply dpaths_block|]. apply block_nothing; [reflexivity|].
    rewrite <- (app_nil_r [_]). apply block_app; [now apply dpaths_block|apply block_nl].
  Qed.
End D.
