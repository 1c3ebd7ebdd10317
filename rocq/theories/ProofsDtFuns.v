(** What the functions of the generated module of the time derivatives do. *)
From Coq Require Import List Arith Lia Bool Ascii String Permutation.
From Verif Require Import PyBase PyBaseFacts ModelHelper SpecPartitions SpecW SpecDt SpecPython SpecEtText SpecSumText SpecWText SpecDtText ModelW ModelDt
  PyStr ProofsStr ProofsHelper ProofsPython ProofsParse ProofsFullCCBuckets ProofsEtText ProofsW ProofsDt ProofsSumText ProofsWText ProofsDtText.
Import ListNotations.
Local Open Scope nat_scope.
Local Open Scope list_scope.

Lemma leibniz_shapes c : forall i, Forall2 has_shape (leibniz_term c i) (map amp_shape c).
Proof.
  induction c as [|n c IH]; intros i.
  - unfold leibniz_term. rewrite firstn_nil, !skipn_nil. constructor.
  - destruct i as [|i].
    + change (leibniz_term (n :: c) 0) with (dt_amp_name n :: map amp_name c). constructor; [exists n; auto|apply shapes_ok].
    + change (leibniz_term (n :: c) (S i)) with (amp_name n :: leibniz_term c i). constructor; [exists n; auto|apply IH].
Qed.
Lemma prefix_filter_any {A} (f : nat -> bool) (g : nat -> A) n k a :
  k < n -> (forall i, a <= i <= a + k -> f i = true) ->
  nth_error (flat_map (fun i => if f i then [g i] else []) (seq a n)) k = Some (g (a + k)).
Proof.
  revert k a; induction n as [|n IH]; intros k a Hk Hf; [lia|].
  cbn [seq flat_map]. rewrite (Hf a) by lia. cbn [app]. destruct k as [|k]; cbn [nth_error].
  - f_equal. f_equal. lia.
  - rewrite IH by (lia || (intros; apply Hf; lia)). f_equal. f_equal. lia.
Qed.

Section D.
  Variable so : list (list nat) -> list (list nat).
  Hypothesis Hso : set_order so.

  Ltac by_order k := destruct k as [|[|[|[|[|[|[|?]]]]]]]; try (exfalso; lia).

  (** ** The disconnected terms *)
  Definition dweighted (k : nat) (x : list nat * nat) : nat * product := (exp_denominator (fst x), dprod k x).
  Definition dused (opt : bool) (k : nat) (xs : list (list nat * nat)) : list string := if opt then map (fun x => entry k (fst x)) xs else [].
  Lemma dused_app opt k a b : dused opt k (a ++ b) = dused opt k a ++ dused opt k b.
  Proof. destruct opt; [apply map_app|reflexivity]. Qed.
  Lemma dcalls_compute opt k q xs : compute (dused opt k xs ++ q) (map (fun x => call_text opt (dprod k x)) xs) (map (dprod k) xs) q.
  Proof.
    destruct opt; cbn [dused call_text].
    - induction xs as [|x xs IH]; [constructor|]. cbn [map app]. econstructor; [|exact IH]. apply (computes_next (dprod k x)). apply leibniz_shapes.
    - cbn [app]. rewrite <- map_map. apply compute_default.
  Qed.
  Lemma in_dpairs p x : In x (dpairs so p) -> Permutation (fst x) p.
  Proof. unfold dpairs. intros I. apply in_flat_map in I as (c & Hc & I). apply in_positions in I as [-> _]. now apply in_unique_permutations in Hc. Qed.

  Lemma dsum_adds un k opt p q : partition_of k p -> 2 <= List.length p ->
    adds (terms_array un) (dused opt k (dpairs so p) ++ q) [dsum so un k opt p] (map (dweighted k) (dpairs so p)) q.
  Proof.
    intros P L.
    assert (W : weight_text (exp_denominator p) (render_prefactor (generate_w_operator_prefactor p))).
    { apply prefactor_weight, prefactor_ok; [destruct p; [cbn in L; lia|discriminate]|destruct p as [|x [|y r]]; cbn in L; try lia; discriminate|apply P]. }
    replace (map (dweighted k) (dpairs so p)) with (map (pair (exp_denominator p)) (map (dprod k) (dpairs so p)) ++ []).
    2:{ rewrite app_nil_r, map_map. apply map_ext_in. intros x I. unfold dweighted. f_equal. apply exp_denominator_perm. symmetry. now apply in_dpairs. }
    apply (adds_sum (terms_array un) _ (render_prefactor (generate_w_operator_prefactor p)) _ (dcalls so k opt p) _ q).
    - exact W.
    - unfold dcalls. intros E. apply map_eq_nil in E. revert E. apply dpairs_nonempty; [exact Hso|]. destruct p; [cbn in L; lia|discriminate].
    - apply dcalls_compute.
    - right. unfold dsum, dstart. rewrite !append_assoc. reflexivity.
    - constructor.
  Qed.
  Lemma dsums_add un k opt ps q : (forall p, In p ps -> partition_of k p /\ 2 <= List.length p) ->
    adds (terms_array un) (dused opt k (dt_pairs so ps) ++ q) (map (dsum so un k opt) ps) (map (dweighted k) (dt_pairs so ps)) q.
  Proof.
    induction ps as [|p ps IH]; intros H; [destruct opt; constructor|].
    change (dt_pairs so (p :: ps)) with (dpairs so p ++ dt_pairs so ps). rewrite dused_app, map_app, <- app_assoc. cbn [map].
    change (?a :: ?b) with ([a] ++ b). apply adds_app with (dused opt k (dt_pairs so ps) ++ q); [|apply IH; intros; apply H; now right].
    destruct (H p) as [P L]; [now left|]. now apply dsum_adds.
  Qed.

  Definition dall (un : bool) (k : nat) : list (list nat * nat) := dt_pairs so (dparts so un k).
  Lemma dall_bound un k x : 1 <= k -> In x (dall un k) ->
    incl (leibniz_term (fst x) (snd x)) (map amp_name (seq 1 (k - 1)) ++ map dt_amp_name (seq 1 (k - 1))).
  Proof.
    intros K I y Hy. apply in_leibniz in Hy as (n & Hn & Hy).
    assert (B : 1 <= n < k).
    { unfold dall, dparts in I. destruct un.
      - apply in_unlinked_pairs in I; [|exact Hso|lia]. destruct I as [Hc [Hs _]]. unfold unlinked_shape in Hs.
        pose proof (big_parts_le_length (fst x)). apply (disc_part_lt k (fst x)); [lia|exact Hc|lia|exact Hn].
      - apply in_linked_pairs in I; [|exact Hso|lia]. destruct I as [Hc [[Hs _] _]]. apply (disc_part_lt k (fst x)); [lia|exact Hc|lia|exact Hn]. }
    apply in_or_app. destruct Hy as [->| ->]; [left|right]; apply in_map, in_seq; lia.
  Qed.

  Lemma din_prog M d : In d (dt_defs so M) -> In (block_of_def d) (dt_prog so M).
  Proof. intros I. unfold dt_prog. apply in_or_app. right. now apply in_map. Qed.
  Lemma din_half M opt d : In d (dhalf_defs so M opt) -> In (block_of_def d) (dt_prog so M).
  Proof. intros I. apply din_prog. unfold dt_defs. apply in_or_app. left. apply in_flat_map. exists opt. split; [destruct opt; cbn; auto|exact I]. Qed.
  Lemma dterms_in M un opt k : 1 <= k <= M -> In (Block (terms_head un k opt) (dterms_body so un k opt)) (dt_prog so M).
  Proof.
    intros K. apply (din_half M opt (terms_head un k opt, dterms_body so un k opt)). unfold dhalf_defs. rewrite !in_app_iff.
    assert (I : In (terms_head un k opt, dterms_body so un k opt) (dterms_defs so un opt M)) by (apply in_map_iff; exists k; split; [reflexivity|apply in_seq; lia]).
    destruct un; auto.
  Qed.
  Lemma damp_in M opt k : 1 <= k <= M -> In (Block (dt_head k opt) (damp_body k opt)) (dt_prog so M).
  Proof.
    intros K. apply (din_half M opt (dt_head k opt, damp_body k opt)). unfold dhalf_defs. rewrite !in_app_iff. do 2 right. left.
    apply in_map_iff. exists k. split; [reflexivity|]. apply in_seq. lia.
  Qed.
  Lemma solve_in M opt k : 1 <= k <= M -> In (Block (solve_head k opt) (solve_stmts k opt)) (dt_prog so M).
  Proof.
    intros K. apply (din_half M opt (solve_head k opt, solve_stmts k opt)). unfold dhalf_defs. rewrite !in_app_iff. do 3 right.
    apply in_map_iff. exists k. split; [reflexivity|]. apply in_seq. lia.
  Qed.
  Lemma din_last M d : In d [(all_paths_head, all_paths_stmts); (dt_paths_head "epsilon", eps_body M); (dt_paths_head "linked", dpaths_body so false M); (dt_paths_head "unlinked", dpaths_body so true M)] ->
    In (block_of_def d) (dt_prog so M).
  Proof. intros I. apply din_prog. unfold dt_defs. apply in_or_app. now right. Qed.

  Lemma terms_ok M flag un k opt : dleast un <= k <= M -> M <= 6 ->
    terms_returns (dt_prog so M) flag un k opt (dused opt k (dall un k)) (map (dweighted k) (dall un k)).
  Proof.
    intros K HM. assert (K1 : 1 <= k <= 6) by (destruct un; unfold dleast in K; lia).
    destruct (dintro_ok un k opt) as (_ & doc & D & E); [lia|].
    exists (dterms_body so un k opt), doc, (k - 1), (map (dsum so un k opt) (dparts so un k)).
    split; [apply dterms_in; lia|]. split; [|split; [exact D|split]].
    - unfold dterms_body. destruct (Nat.ltb_spec k (dleast un)); [lia|]. rewrite E, !exec_app, exec_simple.
      rewrite <- (map_map (dsum so un k opt) Simple), exec_simple. change (exec flag [Simple ?t]) with [t]. rewrite <- !app_assoc. reflexivity.
    - rewrite <- (app_nil_r (dused _ _ _)). apply dsums_add. intros p. apply dparts_len; [exact Hso|lia].
    - apply Forall_map, Forall_forall. intros x I. cbn [dweighted snd dprod p_ops]. apply (dall_bound un k); [lia|exact I].
  Qed.

  (** ** The amplitude functions *)
  Definition minus (t : string) : string := ("residual -= " ++ t)%string.
  Definition eps_statement (k : nat) (opt : bool) : string :=
    minus (("1/" ++ factorial_text k) ++ " * " ++ (if opt then w_epsilon_call k else w_epsilon_einsum k)).
  Definition dansatz (flag : string -> bool) : ansatz :=
    if flag "ansatz.VECI"%string then VECI else if flag "ansatz.VE_MIXED"%string then VE_MIXED else if flag "ansatz.VECC"%string then VECC else VECI.
  Definition d_statements (flag : string -> bool) (k : nat) (opt : bool) : list string :=
    eps_statement k opt ::
    (if flag "ansatz.VECI"%string then ["pass"%string]
     else if flag "ansatz.VE_MIXED"%string then [if Nat.ltb k 2 then "pass"%string else minus (terms_call false k opt)]
     else if flag "ansatz.VECC"%string then
       (if Nat.ltb k 2 then [] else [minus (terms_call false k opt)]) ++ [if Nat.ltb k 4 then "pass"%string else minus (terms_call true k opt)]
     else []).
  Lemma damp_exec flag k opt : 1 <= k <= 6 -> exists doc, String.prefix triple doc = true /\
    exec flag (damp_body k opt) =
      [doc; unpack_text (map w_name (seq 1 k)) "w_args";
        ("residual = residual_equations.calculate_order_" ++ str_nat k ++ "_residual(A, N, trunc, h_args, w_args)")%string]
       ++ d_statements flag k opt
       ++ [(dt_amp_name k ++ " = symmetrize_tensor(N, residual, order=" ++ str_nat k ++ ")")%string;
           ("return " ++ dt_amp_name k)%string].
  Proof.
    intros K. exists (match damp_body k opt with Simple d :: _ => d | _ => ""%string end).
    by_order k; destruct opt; (split; [vm_compute; reflexivity|]); vm_compute;
      repeat match goal with |- context [flag ?x] => destruct (flag x) end; reflexivity.
  Qed.

  Definition d_list (flag : string -> bool) (k : nat) : list (nat * product) :=
    (fact_spec k, w_epsilon k) :: map (dweighted k) (ansatz_pairs so (dansatz flag) k).
  Lemma dall_small un k : 1 <= k < dleast un -> dall un k = [].
  Proof.
    intros K. unfold dall, dparts. destruct un; unfold dleast in K.
    - rewrite (nil_of_empty (generate_un_linked_disconnected_partitions_of_n so k)); [reflexivity|]. intros p Hp. apply (not_unlinked_small so Hso k p); [lia|exact Hp].
    - assert (k = 1) as -> by lia. rewrite (nil_of_empty (generate_linked_disconnected_partitions_of_n so 1)); [reflexivity|]. now apply not_linked_1.
  Qed.

  Lemma dt_ok M flag k opt eps paths : 1 <= k <= M -> M <= 6 ->
    (opt = true -> eps = w_epsilon_contract k) -> (forall un, dleast un <= k -> paths un = dused opt k (dall un k)) ->
    dt_computes (dt_prog so M) flag k opt eps paths (d_list flag k).
  Proof.
    intros K HM HE HP. destruct (damp_exec flag k opt) as (doc & D & E); [lia|].
    exists (damp_body k opt), doc, (d_statements flag k opt). split; [apply damp_in; lia|]. split; [exact E|]. split; [exact D|].
    unfold d_list, d_statements, eps_statement, minus. apply subtracts_epsilon.
    - exists [k]. split; [cbn [fold_right]; lia|]. left. exists k. auto.
    - destruct opt; [right; split; [now apply HE|reflexivity]|now left].
    - assert (HT : forall un ts l, subtracts (dt_prog so M) flag k opt eps paths ts l ->
        subtracts (dt_prog so M) flag k opt eps paths ((if Nat.ltb k (dleast un) then "pass"%string else minus (terms_call un k opt)) :: ts) (map (dweighted k) (dall un k) ++ l)).
      { intros un ts l C. destruct (Nat.ltb_spec k (dleast un)) as [X|X].
        - rewrite dall_small by lia. now apply subtracts_pass.
        - unfold minus. apply subtracts_terms; [|exact C]. rewrite HP by exact X. apply terms_ok; lia. }
      unfold dansatz. destruct (flag "ansatz.VECI"%string); [|destruct (flag "ansatz.VE_MIXED"%string); [|destruct (flag "ansatz.VECC"%string)]]; cbn [ansatz_pairs map].
      + apply subtracts_pass. constructor.
      + rewrite <- (app_nil_r (map _ _)). apply (HT false). constructor.
      + rewrite map_app. destruct (Nat.ltb_spec k 2) as [X|X].
        * change (dt_pairs so (generate_linked_disconnected_partitions_of_n so k)) with (dall false k). rewrite (dall_small false) by (unfold dleast; lia).
          cbn [map app]. rewrite <- (app_nil_r (map _ _)). apply (HT true). constructor.
        * pose proof (HT false [if Nat.ltb k 4 then "pass"%string else minus (terms_call true k opt)] (map (dweighted k) (dall true k))) as Y.
          unfold dleast in Y at 1. destruct (Nat.ltb_spec k 2); [lia|]. apply Y. rewrite <- (app_nil_r (map _ _)). apply (HT true). constructor.
      + constructor.
  Qed.

  Lemma dansatz_kind flag : kind_of (dansatz flag) = dt_kind flag.
  Proof. unfold dansatz, dt_kind. destruct (flag "ansatz.VECI"%string); [reflexivity|]. destruct (flag "ansatz.VE_MIXED"%string); [reflexivity|]. destruct (flag "ansatz.VECC"%string); reflexivity. Qed.
  Lemma d_list_sum flag k : 1 <= k <= 6 -> is_dt_sum flag k (d_list flag k).
  Proof.
    intros K. exists (map (dweighted k) (ansatz_pairs so (dansatz flag) k)). split; [reflexivity|].
    destruct (dt_amplitude_exact so Hso k false (dansatz flag) K) as (e & r & R & _). clear e r R.
    split.
    { exists ["c"%char], [firstn k mode_letters; []]. cbv zeta. cbn [List.concat]. rewrite !app_nil_r.
      split; [exact (sub_nodup k 2 (proj2 K) ltac:(lia))|]. split; [cbn [map]; rewrite firstn_length; cbn [List.length mode_letters]; f_equal; lia|]. split; reflexivity. }
    pose proof (leibniz_exact k false (ansatz_pairs so (dansatz flag) k) (disconnected_in (dt_kind flag)) K) as X.
    destruct X as (X1 & X2 & X3); [apply nodup_ansatz_pairs; [exact Hso|lia]|intros x; rewrite <- dansatz_kind; apply in_ansatz_pairs; [exact Hso|lia]|].
    assert (E : map (fun dp => p_ops (snd dp)) (map (dweighted k) (ansatz_pairs so (dansatz flag) k))
                = map (fun a => operands (ad_call a)) (map (dt_add false k) (ansatz_pairs so (dansatz flag) k))).
    { rewrite !map_map. reflexivity. }
    rewrite E. split; [exact X1|]. split; [exact X2|].
    apply Forall_map, Forall_forall. intros x I. apply (in_ansatz_pairs so Hso) in I; [|lia]. destruct I as (Hc & _ & Hi).
    exists (fst x), (snd x). split; [exact Hc|]. split; [exact Hi|]. split; [reflexivity|]. split; [reflexivity|].
    cbn [dweighted snd dprod p_ins p_out]. now apply ins_of_chain.
  Qed.

  (** ** The lists of expressions *)
  Definition eps_list (flag : string -> bool) (M : nat) : list string :=
    flat_map (fun k => if trunc_of flag (rank_name k) then [w_epsilon_contract k] else []) (seq 1 M).
  Lemma eps_exec flag M : M <= 6 -> exists doc, String.prefix triple doc = true /\
    exec flag (eps_body M) = doc :: map list_text (Start ["epsilon_path_list"%string] :: map (Append "epsilon_path_list") (eps_list flag M)) ++ ["return epsilon_path_list"%string].
  Proof.
    intros K. exists (match eps_body M with Simple d :: _ => d | _ => ""%string end). split; [by_order M; vm_compute; reflexivity|].
    by_order M; vm_compute; repeat match goal with |- context [flag ?x] => destruct (flag x) end; reflexivity.
  Qed.
  Lemma run_appends x es : forall env l, env x = Some l -> exists env', run_list_stmts env (map (Append x) es) = Some env' /\ env' x = Some (l ++ es).
  Proof.
    induction es as [|e es IH]; intros env l E; [exists env; rewrite app_nil_r; auto|].
    destruct (IH (set_list env x (l ++ [e])) (l ++ [e])) as (env' & R & V); [unfold set_list; now rewrite String.eqb_refl|].
    exists env'. cbn [map run_list_stmts run_list_stmt]. rewrite E. split; [exact R|]. rewrite V, <- app_assoc. reflexivity.
  Qed.
  Lemma eps_ok flag M : M <= 6 -> returns_epsilon_paths (dt_prog so M) flag (eps_list flag M).
  Proof.
    intros K. exists (eps_body M). split; [apply (din_last M (dt_paths_head "epsilon", eps_body M)); cbn [In]; auto|].
    destruct (eps_exec flag M K) as (doc & D & E). rewrite E.
    destruct (run_appends "epsilon_path_list" (eps_list flag M) (set_list no_lists "epsilon_path_list" []) []) as (env & R & V); [reflexivity|].
    exists doc, (Start ["epsilon_path_list"%string] :: map (Append "epsilon_path_list") (eps_list flag M)), "epsilon_path_list"%string, [], env.
    split; [reflexivity|]. split; [exact D|]. split; [exact R|exact V].
  Qed.
  Lemma eps_nth flag M k : level_truncation (trunc_of flag) -> has_rank (trunc_of flag) k -> 1 <= k <= M -> M <= 6 ->
    nth_error (eps_list flag M) (k - 1) = Some (w_epsilon_contract k).
  Proof.
    intros L R K HM. unfold eps_list. rewrite (prefix_filter_any (fun i => trunc_of flag (rank_name i))); [do 2 f_equal; lia|lia|].
    intros i Hi. change (has_rank (trunc_of flag) i). apply (level_down _ k); [exact L|lia|lia|lia|exact R].
  Qed.

  Definition dresults (un : bool) (M : nat) (t : string -> bool) : list (list path) :=
    if un && negb (t "doubles"%string) then repeat [] 6 else ModelW.run_blocks t (dblocks so un M) (map Some (ditems un M)).
  Lemma dresults_run (un : bool) M (t : string -> bool) : M <= 6 -> (if un then run_unlinked_paths so M t else run_linked_paths so M t) = Ok (dresults un M t).
  Proof.
    intros K. unfold dresults, run_unlinked_paths, run_linked_paths. pose proof (dpaths_generated so Hso un M K) as E. unfold dpaths_fun in E.
    destruct un; rewrite E; cbn [bind fst snd andb negb]; [|reflexivity]. destruct (t "doubles"%string); reflexivity.
  Qed.
  Lemma dresults_nth flag un M k : level_truncation (trunc_of flag) -> has_rank (trunc_of flag) k -> 1 <= k <= M -> M <= 6 ->
    nth_error (map (map path_text) (dresults un M (trunc_of flag))) (k - 1) = Some (dused true k (dall un k)).
  Proof.
    intros L R K HM. rewrite nth_error_map. pose proof (dresults_run un M (trunc_of flag) HM) as E. unfold dall, dparts.
    destruct un.
    - destruct (unlinked_paths_at so Hso M k (trunc_of flag) K HM L R) as (ls & E1 & N). rewrite E1 in E. apply ok_inj in E. subst ls. rewrite N.
      cbn [option_map]. rewrite map_map. reflexivity.
    - destruct (linked_paths_at so Hso M k (trunc_of flag) K HM L R) as (ls & E1 & N). rewrite E1 in E. apply ok_inj in E. subst ls. rewrite N.
      cbn [option_map]. rewrite map_map. reflexivity.
  Qed.

  Lemma dexec_paths flag un M :
    exec flag (flat_map (fun k => map (dpath_stmt so k) (dparts so un k)) (dorders un M))
    = map list_text (map extend_stmt (extends_of (trunc_of flag) (dblocks so un M))).
  Proof.
    unfold dblocks. induction (dorders un M) as [|k l IH]; [reflexivity|]. cbn [flat_map map List.concat].
    rewrite exec_app, IH. unfold extends_of. rewrite flat_map_app, !map_app. f_equal. clear IH.
    induction (dparts so un k) as [|p ps IH]; [reflexivity|]. cbn [map flat_map]. rewrite !map_app, <- IH.
    change (exec flag (dpath_stmt so k p :: map (dpath_stmt so k) ps)) with (exec1 flag (dpath_stmt so k p) ++ exec flag (map (dpath_stmt so k) ps)). f_equal.
    unfold dpath_stmt. cbn [exec1 dt_block_of pb_guard pb_order pb_paths]. unfold trunc_of. destruct (flag _); [|reflexivity].
    cbn [flat_map exec1 app map extend_stmt fst snd]. unfold dextend. do 2 f_equal. rewrite map_map. reflexivity.
  Qed.
  Lemma ditems_ok flag un M : M <= 6 -> exists env,
    run_list_stmts no_lists (dlists ++ map extend_stmt (extends_of (trunc_of flag) (dblocks so un M))) = Some env /\
    Forall2 (item_is env) (map list_name (ditems un M)) (map (map path_text) (ModelW.run_blocks (trunc_of flag) (dblocks so un M) (map Some (ditems un M)))).
  Proof.
    intros HM.
    assert (A : forall a b env env', run_list_stmts env a = Some env' -> run_list_stmts env (a ++ b) = run_list_stmts env' b).
    { induction a as [|s a IH]; intros b env env' E; [cbn in E; now injection E as ->|]. cbn [app run_list_stmts] in *. destruct (run_list_stmt env s); [eauto|discriminate]. }
    assert (D : exists env0, run_list_stmts no_lists dlists = Some env0 /\ forall k, 1 <= k <= 6 -> env0 (list_name k) = Some []).
    { eexists; split; [reflexivity|]. intros k K; by_order k; vm_compute; reflexivity. }
    destruct D as (env0 & R0 & D).
    assert (O : forall b, In b (dblocks so un M) -> 1 <= pb_order b <= 6).
    { intros b I. unfold dblocks in I. apply in_concat in I as (l & I & J). apply in_map_iff in I as (k & <- & I). apply in_map_iff in J as (p & <- & _).
      unfold dorders in I. apply in_range in I. cbn [dt_block_of pb_order]. destruct un; unfold dleast in I; lia. }
    destruct (run_extends (extends_of (trunc_of flag) (dblocks so un M)) env0) as (env & R & V).
    { intros e I. unfold extends_of in I. apply in_flat_map in I as (b & I & J). destruct (trunc_of flag (pb_guard b)); [|destruct J]. destruct J as [<-|[]].
      exists []. apply D. now apply O. }
    exists env. split; [rewrite (A _ _ _ _ R0); exact R|].
    assert (G : forall k, In k (ditems un M) -> item_is env (list_name k) (map path_text (blocks_for k (trunc_of flag) (dblocks so un M)))).
    { intros k I. right.
      assert (K : 1 <= k <= 6).
      { unfold ditems in I. apply in_app_or in I as [I|I]; [destruct un; cbn in I; lia|]. unfold dorders in I. apply in_range in I. destruct un; unfold dleast in I; lia. }
      rewrite (V (list_name k) []) by (apply D; lia). cbn [app]. now rewrite select_extends. }
    unfold ModelW.run_blocks. rewrite !map_map. revert G. induction (ditems un M) as [|k l IH]; intros G; cbn [map]; constructor; [|apply IH; intros; apply G; now right].
    apply (G k). now left.
  Qed.
  Lemma dpaths_ok flag un M : negations flag -> M <= 6 ->
    returns_dt_paths (dt_prog so M) flag un (map (map path_text) (dresults un M (trunc_of flag))).
  Proof.
    intros Ng HM. exists (dpaths_body so un M). split.
    { apply (din_last M (dt_paths_head (path_word un), dpaths_body so un M)). destruct un; cbn [In path_word]; auto. }
    unfold dpaths_body. rewrite !exec_app, dexec_paths. destruct (ditems_ok flag un M HM) as (env & R & F).
    assert (E : flag "not truncation.doubles"%string = negb (trunc_of flag "doubles")) by exact (Ng "doubles"%string).
    unfold dresults. destruct un; cbn [andb].
    - rewrite <- E. unfold dpaths_intro. change (exec flag (Simple ?a :: ?b)) with (a :: exec flag b). rewrite exec_app.
      rewrite <- (map_map list_text Simple), exec_simple. destruct (flag "not truncation.doubles"%string) eqn:E1.
      + exists (dpaths_doc true), (dlists ++ [dwarning]), (repeat "[]"%string 6). do 2 eexists. cbn [exec flat_map exec1]. rewrite E1. cbn [flat_map exec1 app].
        split; [rewrite map_app; reflexivity|]. split; [reflexivity|]. split; [reflexivity|]. repeat constructor.
      + exists (dpaths_doc true). do 4 eexists. cbn [exec flat_map exec1]. rewrite E1. cbn [flat_map exec1 app].
        split; [|split; [|split; [exact R|exact F]]]; [|reflexivity]. rewrite map_app, app_nil_r, <- app_assoc. reflexivity.
    - unfold dpaths_intro. change (exec flag (Simple ?a :: ?b)) with (a :: exec flag b). rewrite app_nil_r.
      rewrite <- (map_map list_text Simple), exec_simple. exists (dpaths_doc false). do 4 eexists.
      split; [|split; [|split; [exact R|exact F]]]; [|reflexivity]. rewrite map_app, <- app_assoc. reflexivity.
  Qed.

  (** ** The functions a caller uses *)
  Lemma solve_exec flag k opt : 1 <= k <= 6 -> exists doc r, String.prefix triple doc = true /\ raises r /\
    exec flag (solve_stmts k opt) = doc :: (if flag ("not trunc." ++ rank_name k)%string then [r] else []) ++ solve_body k opt.
  Proof.
    intros K. exists (match solve_stmts k opt with Simple d :: _ => d | _ => ""%string end),
      (match nth 1 (solve_stmts k opt) (Simple "") with If _ [Simple r] _ => r | _ => ""%string end).
    by_order k; destruct opt; (split; [vm_compute; reflexivity|]); (split; [vm_compute; reflexivity|]); vm_compute;
      repeat match goal with |- context [flag ?x] => destruct (flag x) end; reflexivity.
  Qed.
  Lemma all_paths_exec flag : exists doc, String.prefix triple doc = true /\ exec flag all_paths_stmts = all_paths_body doc.
  Proof. exists (match all_paths_stmts with Simple d :: _ => d | _ => ""%string end). split; vm_compute; reflexivity. Qed.

  (** ** The heads *)
  Lemma dt_prog_heads M : heads (dt_prog so M) = dt_heads M.
  Proof.
    unfold dt_prog. unfold heads. rewrite flat_map_app. fold (heads (map block_of_def (dt_defs so M))). rewrite heads_map_defs. change (flat_map _ (map Simple dt_imports)) with (@nil string).
    cbn [app]. unfold dt_defs, dt_heads. cbn [flat_map]. unfold dhalf_defs, dterms_defs, damp_defs, solve_defs. rewrite !map_app, !map_map, !app_nil_r. reflexivity.
  Qed.
  Lemma dt_prog_top flag M : exec flag (dt_prog so M) = dt_imports.
  Proof.
    unfold dt_prog. rewrite exec_app, exec_simple. replace (exec flag (map block_of_def (dt_defs so M))) with (@nil string); [apply app_nil_r|].
    induction (dt_defs so M) as [|d l IH]; [reflexivity|]. exact IH.
  Qed.
  Lemma dt_heads_nodup M : M <= 6 -> NoDup (dt_heads M).
  Proof. intros K. apply distinct_nodup. by_order M; vm_compute; reflexivity. Qed.
  Lemma dfile_refused M : 6 < M -> generate_dt_amplitude_equations_file so M = Err NotImplementedErr.
  Proof.
    intros K. unfold generate_dt_amplitude_equations_file, generate_dt_amplitude_string. rewrite range_seq.
    replace (seq 1 M) with (seq 1 6 ++ 7 :: seq 8 (M - 7)) by (rewrite <- (app_nil_r (seq 1 M)); change (7 :: seq 8 (M - 7)) with (seq 7 (S (M - 7))); replace (seq 7 (S (M - 7))) with (seq (1 + 6) (S (M - 7))) by reflexivity;
      rewrite <- seq_app, app_nil_r; f_equal; lia).
    rewrite (mapM_err _ (seq 1 6) 7 _ NotImplementedErr); [reflexivity| |reflexivity].
    intros k I. apply in_seq in I. eexists. apply (dterms_generated so Hso false). lia.
  Qed.
  Lemma dt_total M : (exists text, generate_dt_amplitude_equations_file so M = Ok text) <-> M <= 6.
  Proof.
    split; [|intros K; eexists; now apply dfile_generated]. intros (t & E). destruct (le_lt_dec M 6) as [K|K]; [exact K|]. rewrite dfile_refused in E by assumption. discriminate.
  Qed.
End D.

Lemma block_unique prog h : NoDup (heads prog) -> forall a b, In (Block h a) prog -> In (Block h b) prog -> a = b.
Proof.
  assert (H : forall p c, In (Block h c) p -> In h (heads p)) by (intros p c I; apply in_flat_map; exists (Block h c); split; [exact I|now left]).
  induction prog as [|s prog IH]; intros N a b A B; [destruct A|].
  assert (N' : NoDup (heads [s] ++ heads prog)) by (unfold heads in *; cbn [flat_map] in N |- *; now rewrite app_nil_r). clear N. rename N' into N.
  destruct A as [->|A], B as [B|B].
  - now injection B.
  - cbn [heads flat_map app] in N. apply NoDup_cons_iff in N as [N _]. destruct N. now apply (H prog b).
  - subst s. cbn [heads flat_map app] in N. apply NoDup_cons_iff in N as [N _]. destruct N. now apply (H prog a).
  - apply IH; [|exact A|exact B]. clear - N. induction (heads [s]) as [|x l IH]; [exact N|]. apply IH. cbn [app] in N. now apply NoDup_cons_iff in N.
Qed.
Lemma solve_listed so M k opt : 1 <= k <= 6 -> M <= 6 -> In (solve_head k opt) (heads (dt_prog so M)) -> k <= M.
Proof.
  intros Hk K J. rewrite dt_prog_heads in J. destruct (le_lt_dec k M) as [H|H]; [exact H|exfalso]. revert J.
  assert (X : existsb (String.eqb (solve_head k opt)) (dt_heads M) = false).
  { destruct M as [|[|[|[|[|[|[|?]]]]]]]; try (exfalso; lia); destruct k as [|[|[|[|[|[|[|?]]]]]]]; try (exfalso; lia); destruct opt; vm_compute; reflexivity. }
  intros J. apply not_true_iff_false in X. apply X. apply existsb_exists. exists (solve_head k opt). split; [exact J|apply String.eqb_refl].
Qed.

(** ** The statements of the properties *)
Lemma dt_file_program so M : set_order so ->
  ((exists text, generate_dt_amplitude_equations_file so M = Ok text) <-> M <= 6) /\
  (forall text, generate_dt_amplitude_equations_file so M = Ok text ->
     exists prog, python text prog /\ (forall flag, exec flag prog = dt_imports) /\ heads prog = dt_heads M /\ NoDup (heads prog)).
Proof.
  intros Hso. split; [now apply dt_total|]. intros text G. assert (K : M <= 6) by (apply (dt_total so Hso); eauto).
  exists (dt_prog so M). split; [now apply dt_program_read|]. split; [intros flag; apply dt_prog_top|]. rewrite dt_prog_heads.
  split; [reflexivity|now apply dt_heads_nodup].
Qed.
Lemma dt_file_default so M text prog flag k : set_order so ->
  generate_dt_amplitude_equations_file so M = Ok text -> python text prog -> 1 <= k <= M ->
  exists l, dt_computes prog flag k false "" (fun _ => []) l /\ is_dt_sum flag k l.
Proof.
  intros Hso G P Hk. assert (K : M <= 6) by (apply (dt_total so Hso); eauto).
  rewrite (python_functional _ _ _ P (dt_program_read so Hso M text K G)). exists (d_list so flag k).
  split; [|apply d_list_sum; (assumption || lia)]. apply dt_ok; try assumption; [discriminate|reflexivity].
Qed.
Lemma dt_file_optimized so M text prog flag : set_order so ->
  generate_dt_amplitude_equations_file so M = Ok text -> python text prog ->
  level_truncation (trunc_of flag) -> negations flag ->
  exists ep lp up, returns_epsilon_paths prog flag ep /\ returns_dt_paths prog flag false lp /\ returns_dt_paths prog flag true up /\
    forall k, 1 <= k <= M -> has_rank (trunc_of flag) k ->
      exists e pl pu l, nth_error ep (k - 1) = Some e /\ nth_error lp (k - 1) = Some pl /\ nth_error up (k - 1) = Some pu /\
        dt_computes prog flag k true e (fun un => if un then pu else pl) l /\
        dt_computes prog flag k false "" (fun _ => []) l /\ is_dt_sum flag k l.
Proof.
  intros Hso G P L Ng. assert (K : M <= 6) by (apply (dt_total so Hso); eauto).
  rewrite (python_functional _ _ _ P (dt_program_read so Hso M text K G)).
  do 3 eexists. split; [now apply eps_ok|]. split; [now apply dpaths_ok|]. split; [now apply dpaths_ok|].
  intros k Hk R. do 3 eexists. exists (d_list so flag k). split; [now apply eps_nth|]. split; [now apply dresults_nth|]. split; [now apply dresults_nth|].
  split; [|split].
  - apply dt_ok; try assumption; [reflexivity|]. intros [|] _; reflexivity.
  - apply dt_ok; try assumption; [discriminate|reflexivity].
  - apply d_list_sum; (assumption || lia).
Qed.
Lemma dt_file_callers so M text prog flag : set_order so ->
  generate_dt_amplitude_equations_file so M = Ok text -> python text prog ->
  (exists body doc, In (Block all_paths_head body) prog /\ String.prefix triple doc = true /\ exec flag body = all_paths_body doc) /\
  forall k opt, 1 <= k <= 6 ->
    ((exists body, In (Block (solve_head k opt) body) prog) <-> k <= M) /\
    forall body, In (Block (solve_head k opt) body) prog -> exists doc, String.prefix triple doc = true /\
      (flag ("not trunc." ++ rank_name k)%string = true -> exists t, raises t /\ starts_with (exec flag body) [doc; t]) /\
      (flag ("not trunc." ++ rank_name k)%string = false -> exec flag body = doc :: solve_body k opt).
Proof.
  intros Hso G P. assert (K : M <= 6) by (apply (dt_total so Hso); eauto).
  rewrite (python_functional _ _ _ P (dt_program_read so Hso M text K G)). split.
  - destruct (all_paths_exec flag) as (doc & D & E). exists all_paths_stmts, doc. split; [|auto].
    apply (din_last so M (all_paths_head, all_paths_stmts)). now left.
  - intros k opt Hk. split.
    + split; [|intros H; exists (solve_stmts k opt); apply solve_in; lia].
      intros (b & I). apply (solve_listed so M k opt Hk K). apply in_flat_map. exists (Block (solve_head k opt) b). split; [exact I|now left].
    + intros body I. assert (E : body = solve_stmts k opt).
      { apply (block_unique (dt_prog so M) (solve_head k opt)); [rewrite dt_prog_heads; now apply dt_heads_nodup|exact I|]. apply solve_in.
        split; [lia|]. assert (J : In (solve_head k opt) (heads (dt_prog so M))) by (apply in_flat_map; exists (Block (solve_head k opt) body); split; [exact I|now left]).
        now apply (solve_listed so M k opt). }
      subst body. destruct (solve_exec flag k opt Hk) as (doc & r & D & R & E). exists doc. split; [exact D|]. rewrite E. split; intros ->.
      * exists r. split; [exact R|]. eexists. reflexivity.
      * reflexivity.
Qed.
