(** The generated modules together. *)
From Coq Require Import List Arith Bool Ascii String Lia Permutation.
From Verif Require Import PyBase PyStr SpecW SpecDt SpecResidual SpecPython SpecSumText SpecEtText SpecWText SpecDtText SpecResidualText SpecSymmetrize
  SpecNames SpecModules ModelHelper ModelW ModelDt ModelResidual ModelSymmetrize
  PyBaseFacts ProofsHelper ProofsPython ProofsParse ProofsW ProofsWText ProofsDtText ProofsDtFuns ProofsResidual ProofsResidualText ProofsSymmetrize ProofsNames
  ProofsNamesChecks.
Import ListNotations.
Local Open Scope nat_scope.
Local Open Scope list_scope.

Lemma upto6 M : M <= 6 -> In M (seq 0 7).
Proof. intros H. apply in_seq. lia. Qed.
Lemma resolved_more prog a b h body : incl a b -> function_resolved prog a h body -> function_resolved prog b h body.
Proof.
  intros I H flag. eapply bound_more; [|apply H]. apply incl_app_app; [apply incl_refl|]. apply incl_app_app; [apply incl_refl|].
  apply incl_app_app; [apply incl_refl|exact I].
Qed.

Lemma w_the_prog so M text prog : set_order so -> generate_w_operator_equations_file so M = Ok text -> python text prog ->
  M <= 6 /\ prog = w_prog keep M.
Proof.
  intros Hso G P. assert (K : M <= 6) by (apply (w_total so Hso); eauto). split; [exact K|].
  rewrite (python_functional _ _ _ P (w_program_read so Hso M text K G)). now apply w_prog_same.
Qed.
Lemma dt_the_prog so M text prog : set_order so -> generate_dt_amplitude_equations_file so M = Ok text -> python text prog ->
  M <= 6 /\ prog = dt_prog keep M.
Proof.
  intros Hso G P. assert (K : M <= 6) by (apply (dt_total so Hso); eauto). split; [exact K|].
  rewrite (python_functional _ _ _ P (dt_program_read so Hso M text K G)). now apply dt_prog_same.
Qed.

Lemma w_names so M text prog : set_order so -> generate_w_operator_equations_file so M = Ok text -> python text prog ->
  (forall head body, In (Block head body) prog ->
     function_resolved prog (w_functions_above M) head body /\
     (head <> compute_w_head false -> head <> compute_w_head true -> function_resolved prog [] head body)) /\
  calls_match prog /\ (names_resolved prog <-> M = 6).
Proof.
  intros Hso G P. destruct (w_the_prog so M text prog Hso G P) as [K ->]. clear text G P.
  pose proof w_checks as W. rewrite forallb_forall in W. specialize (W M (upto6 M K)). cbv zeta in W.
  apply andb_true_iff in W. destruct W as [W F]. apply andb_true_iff in W. destruct W as [N C]. apply eqb_prop in F.
  assert (A : forall head body, In (Block head body) (w_prog keep M) ->
     function_resolved (w_prog keep M) (w_functions_above M) head body /\
     (head <> compute_w_head false -> head <> compute_w_head true -> function_resolved (w_prog keep M) [] head body)).
  { intros h b I. unfold w_names_ok in N. rewrite forallb_forall in N. specialize (N _ I). cbv beta iota in N.
    destruct (existsb _ _) eqn:E.
    - split; [now apply function_checked|]. intros H1 H2. exfalso. cbn [existsb] in E. rewrite orb_false_r in E. apply orb_true_iff in E.
      destruct E as [E|E]; apply String.eqb_eq in E; auto.
    - apply function_checked in N. split; [|auto]. apply (resolved_more _ []); [intros x []|exact N]. }
  split; [exact A|]. split; [now apply calls_checked|]. split.
  - intros R. destruct (Nat.ltb_spec M 6) as [L|L]; [exfalso|lia]. unfold w_names_fail in F. apply existsb_exists in F.
    destruct F as (s & I & F). destruct s as [t|c y n|h b]; try discriminate F. apply negb_true_iff in F.
    specialize (R h b I all_given). apply bound_ok_complete in R. congruence.
  - intros -> h b I. exact (proj1 (A h b I)).
Qed.

Lemma dt_names so M text prog : set_order so -> generate_dt_amplitude_equations_file so M = Ok text -> python text prog ->
  names_resolved prog /\ calls_match prog.
Proof.
  intros Hso G P. destruct (dt_the_prog so M text prog Hso G P) as [K ->].
  pose proof dt_checks as W. rewrite forallb_forall in W. specialize (W M (upto6 M K)). cbv zeta in W.
  apply andb_true_iff in W. destruct W as [N C]. split; [now apply names_checked|now apply calls_checked].
Qed.
Lemma residual_names M r text prog : generate_residual_equations_file M r = Ok text -> python (joined text) prog ->
  names_resolved prog /\ calls_match prog.
Proof.
  intros G P. destruct (rprog_unique M r text prog G P) as (-> & K & R).
  pose proof residual_checks as W. rewrite forallb_forall in W. specialize (W M (upto6 M K)). rewrite forallb_forall in W.
  specialize (W r ltac:(apply in_seq; lia)). cbv zeta in W.
  apply andb_true_iff in W. destruct W as [N C]. split; [now apply names_checked|now apply calls_checked].
Qed.
Lemma known_complete sigs c : In c sigs -> known sigs c = true.
Proof.
  intros H. unfold known. apply existsb_exists. exists c. split; [exact H|]. unfold sig_eqb. now rewrite String.eqb_refl, Nat.eqb_refl.
Qed.
Lemma dt_residual_calls so M text prog M' r text' prog' : set_order so ->
  generate_dt_amplitude_equations_file so M = Ok text -> python text prog ->
  generate_residual_equations_file M' r = Ok text' -> python (joined text') prog' ->
  (module_calls_match "residual_equations" prog prog' <-> M <= M').
Proof.
  intros Hso G P G' P'. destruct (dt_the_prog so M text prog Hso G P) as [K ->]. destruct (rprog_unique M' r text' prog' G' P') as (-> & K' & R).
  pose proof cross_checks as W. rewrite forallb_forall in W. specialize (W M (upto6 M K)). cbv zeta in W. rewrite forallb_forall in W.
  specialize (W M' (upto6 M' K')). rewrite forallb_forall in W. specialize (W r ltac:(apply in_seq; lia)). apply eqb_prop in W.
  split.
  - intros H. apply Nat.leb_le. rewrite <- W. apply forallb_forall. intros [f n] C. unfold module_calls in C. apply in_flat_map in C.
    destruct C as (t & T & C). apply known_complete, (H t f n T C).
  - intros L. apply module_calls_checked. rewrite W. now apply Nat.leb_le.
Qed.

(** ** The symmetriser *)
Lemma sym_signature O sprog : python (build_symmetrizing_function O) sprog -> signatures sprog = [("symmetrize_tensor"%string, 2)].
Proof. intros P. rewrite (python_functional _ _ _ P (symmetrize_read O)). vm_compute. reflexivity. Qed.
Lemma sym_calls_in p n : In n (sym_calls p) <-> exists t, In t (all_lines p) /\ In ("symmetrize_tensor"%string, n) (calls t).
Proof.
  unfold sym_calls. rewrite in_map_iff. split.
  - intros ([f m] & E & I). cbn in E. subst m. apply filter_In in I. destruct I as [I F]. cbn in F. apply String.eqb_eq in F. subst f.
    apply in_flat_map in I. exact I.
  - intros (t & T & C). exists ("symmetrize_tensor"%string, n). split; [reflexivity|]. apply filter_In. split; [|reflexivity]. apply in_flat_map. eauto.
Qed.
Lemma sym_mismatch p sprog : signatures sprog = [("symmetrize_tensor"%string, 2)] -> forallb (Nat.eqb 3) (sym_calls p) = true ->
  (imported_calls_match "symmetrize_tensor" p sprog <-> List.length (sym_calls p) = 0).
Proof.
  intros S A. rewrite forallb_forall in A. split.
  - intros H. destruct (sym_calls p) as [|n l] eqn:E; [reflexivity|exfalso].
    assert (I : In n (sym_calls p)) by (rewrite E; now left). specialize (A n (or_introl eq_refl)). apply Nat.eqb_eq in A. subst n.
    apply sym_calls_in in I. destruct I as (t & T & C). specialize (H t 3 T C). rewrite S in H. destruct H as [H|[]]. discriminate H.
  - intros L t n T C. exfalso. assert (I : In n (sym_calls p)) by (apply sym_calls_in; eauto). destruct (sym_calls p); [exact I|discriminate L].
Qed.
Lemma w_sym so M text prog O sprog : set_order so -> generate_w_operator_equations_file so M = Ok text -> python text prog ->
  python (build_symmetrizing_function O) sprog -> (imported_calls_match "symmetrize_tensor" prog sprog <-> M <= 1).
Proof.
  intros Hso G P S. destruct (w_the_prog so M text prog Hso G P) as [K ->]. apply sym_signature in S.
  pose proof sym_checks as W. apply andb_true_iff in W. destruct W as [W _]. rewrite forallb_forall in W. specialize (W M (upto6 M K)).
  rewrite !andb_true_iff in W. destruct W as (((A & L) & _) & _). apply Nat.eqb_eq in L.
  rewrite (sym_mismatch _ sprog S A), L. lia.
Qed.
Lemma dt_sym so M text prog O sprog : set_order so -> generate_dt_amplitude_equations_file so M = Ok text -> python text prog ->
  python (build_symmetrizing_function O) sprog -> (imported_calls_match "symmetrize_tensor" prog sprog <-> M = 0).
Proof.
  intros Hso G P S. destruct (dt_the_prog so M text prog Hso G P) as [K ->]. apply sym_signature in S.
  pose proof sym_checks as W. apply andb_true_iff in W. destruct W as [W _]. rewrite forallb_forall in W. specialize (W M (upto6 M K)).
  rewrite !andb_true_iff in W. destruct W as ((_ & A) & L). apply Nat.eqb_eq in L.
  rewrite (sym_mismatch _ sprog S A), L. lia.
Qed.
Lemma residual_sym M r text prog O sprog : generate_residual_equations_file M r = Ok text -> python (joined text) prog ->
  python (build_symmetrizing_function O) sprog -> imported_calls_match "symmetrize_tensor" prog sprog.
Proof.
  intros G P S. destruct (rprog_unique M r text prog G P) as (-> & K & R). apply sym_signature in S.
  pose proof sym_checks as W. apply andb_true_iff in W. destruct W as [_ W]. rewrite forallb_forall in W. specialize (W M (upto6 M K)).
  rewrite forallb_forall in W. specialize (W r ltac:(apply in_seq; lia)). apply Nat.eqb_eq in W.
  apply (sym_mismatch _ sprog S); [|exact W]. destruct (sym_calls (rprog M r)); [reflexivity|discriminate W].
Qed.

(** ** From the W operators to the residuals *)
Definition w_values (n : nat) : list string := map (fun k => ("w_" ++ str_nat k)%string) (seq 1 n) ++ repeat "None"%string (6 - n).
Lemma w_values_length n : n <= 6 -> List.length (w_values n) = 6.
Proof. intros H. unfold w_values. rewrite app_length, map_length, seq_length, repeat_length. lia. Qed.
Lemma w_values_received flag n k : receives flag (w_values n) -> 1 <= k -> k <= n -> given flag k = true.
Proof.
  intros R A B. destruct k as [|k]; [lia|]. rewrite (R k ("w_" ++ str_nat (S k))%string); [reflexivity|].
  unfold w_values. rewrite nth_error_app1 by (rewrite map_length, seq_length; lia). rewrite nth_error_map.
  replace (nth_error (seq 1 n) k) with (Some (S k)); [reflexivity|]. symmetry. rewrite (nth_error_nth' _ 0) by (rewrite seq_length; lia).
  rewrite seq_nth by lia. reflexivity.
Qed.
Lemma needed_bounds t : level_truncation t -> forall p, p <= 4 -> has_rank t (Nat.max 1 p) -> p + 2 <= needed_order t <= 6.
Proof.
  intros [H1 L] p Hp H. unfold needed_order, has_rank in *.
  pose proof (L 2 ltac:(lia) ltac:(lia)) as L2. pose proof (L 3 ltac:(lia) ltac:(lia)) as L3. cbn [rank_name] in *.
  change (rank_name 1) with "singles"%string in *. change (rank_name 2) with "doubles"%string in *. change (rank_name 3) with "triples"%string in *.
  change (rank_name 4) with "quadruples"%string in *.
  destruct (t "doubles"%string) eqn:E2; cbn [negb]; destruct (t "triples"%string) eqn:E3; cbn [negb]; destruct (t "quadruples"%string) eqn:E4; cbn [negb];
    destruct p as [|[|[|[|[|?]]]]]; try lia; cbn [Nat.max] in H; 
    repeat match goal with H : context [rank_name ?k] |- _ => progress (let x := eval vm_compute in (rank_name k) in change (rank_name k) with x in H) end;
    try congruence; try lia; try (exfalso; intuition congruence).
Qed.
Lemma in_perm {A} (l l' : list A) x : Permutation l l' -> (In x l <-> In x l').
Proof. intros P. split; apply Permutation_in; [exact P|now symmetry]. Qed.
Lemma residual_pairs_nodup r p : NoDup (residual_pairs r p).
Proof.
  unfold residual_pairs. apply NoDup_filter. generalize (seq_NoDup (S r) 0). generalize (seq 0 (S r)). intros l H.
  assert (X : forall a b : list nat, NoDup a -> NoDup b -> NoDup (list_prod a b)).
  { intros a b Ha Hb. induction Ha as [|x a N _ IH]; [constructor|]. cbn. apply NoDup_app_intro.
    - apply FinFun.Injective_map_NoDup; [|exact Hb]. intros u v E. now injection E.
    - exact IH.
    - intros [u v] I J. apply in_map_iff in I. destruct I as (w & E & _). injection E as <- <-. apply in_prod_iff in J. tauto. }
  now apply X.
Qed.
Lemma doc_stays doc : String.prefix triple doc = true -> leaves doc = false.
Proof.
  destruct doc as [|c doc]; [reflexivity|]. destruct c as [[] [] [] [] [] [] [] []]; intros D; try discriminate D; reflexivity.
Qed.
Lemma workflow so M wt wprog M' r text prog flag opt p : set_order so ->
  generate_w_operator_equations_file so M = Ok wt -> python wt wprog ->
  generate_residual_equations_file M' r = Ok text -> python (joined text) prog ->
  negations flag -> level_truncation (trunc_of flag) -> ~ has_rank (trunc_of flag) 5 -> needed_order (trunc_of flag) <= M ->
  p <= M' -> p <= 4 -> has_rank (trunc_of flag) (Nat.max 1 p) ->
  exists body vs, In (Block (compute_w_head opt) body) wprog /\ returns_values flag body vs /\ p + 2 <= List.length vs /\
    (receives flag vs ->
     exists ms ts, residual_runs prog flag p ts /\ Forall2 (adds_term p) ms ts /\ NoDup ms /\
       forall m n, In (m, n) ms <->
         m + n <= r /\ m <= p /\ (2 <= m \/ 2 <= n -> flag "truncation.quadratic"%string = true) /\ ~ (m = 2 /\ (p = 2 \/ p = 3))).
Proof.
  intros Hso GW PW G P Ng L N5 NM Hp H4 Hr.
  destruct (w_file_master so M wt wprog flag opt Hso GW PW Ng) as ((body & doc & B & D & _ & R & _) & _).
  pose proof (needed_bounds _ L p H4 Hr) as Nb. set (n := needed_order (trunc_of flag)) in *.
  specialize (R (proj1 L) N5). cbv zeta in R. fold n in R.
  exists body, (w_values n). split; [exact B|]. split; [|split].
  - exists (doc :: map (fun k => compute_w_call k opt) (seq 1 n)). split; [|exact R]. constructor.
    + now apply doc_stays.
    + apply Forall_map, Forall_forall. intros k _. reflexivity.
  - rewrite w_values_length; lia.
  - intros Rc. assert (Gv : forall k, 1 <= k -> k <= p + 2 -> given flag k = true) by (intros k A C; apply (w_values_received flag n); [exact Rc|lia|lia]).
    assert (Av : forall m k, m + k <= 2 -> w_available (given flag) (p - m + k) = true).
    { intros m k A. unfold w_available. destruct (Nat.leb_spec (p - m + k) 1); [reflexivity|]. cbn [orb]. apply Gv; lia. }
    assert (K : M' <= 6 /\ r <= 2) by (destruct (rprog_unique M' r text prog G P) as (_ & K); exact K).
    assert (T : forall m k, m + k <= r -> m <= p ->
      (term_active (flag "truncation.quadratic"%string) (given flag) p m k = true <-> (2 <= m \/ 2 <= k -> flag "truncation.quadratic"%string = true))).
    { intros m k A C. unfold term_active. rewrite (Av m k) by lia. cbn [andb]. destruct (flag "truncation.quadratic"%string); cbn [orb]; [tauto|].
      rewrite negb_true_iff, orb_false_iff, !Nat.leb_gt. split; [intros [X Y] [Z|Z]; lia|]. intros X. split.
      - destruct (le_lt_dec 2 m) as [Z|Z]; [|lia]. discriminate (X (or_introl Z)).
      - destruct (le_lt_dec 2 k) as [Z|Z]; [|lia]. discriminate (X (or_intror Z)). }
    destruct (le_lt_dec r 1) as [R1|R1]; [|destruct (Nat.eq_dec p 2) as [E2|E2]; [|destruct (Nat.eq_dec p 3) as [E3|E3]]].
    + destruct (residual_file_good M' r text prog flag p G P Hp H4 (or_introl R1)) as (ms & ts & A & F & Pm). exists ms, ts. split; [exact A|]. split; [exact F|].
      split; [apply (Permutation_NoDup (Permutation_sym Pm)), NoDup_filter, residual_pairs_nodup|]. intros m k.
      rewrite (in_perm _ _ _ Pm), filter_In, in_residual_pairs. cbn [fst snd]. split.
      * intros ((X & Y) & Z). pose proof (proj1 (T m k X Y) Z) as Z2. split; [exact X|]. split; [exact Y|]. split; [exact Z2|]. lia.
      * intros (X & Y & Z & _). split; [lia|]. exact (proj2 (T m k X Y) Z).
    + assert (E : r = 2) by lia. subst r. destruct (residual_file_h2 M' text prog flag p G P Hp (or_introl E2)) as (ms & ts & A & F & Nd & I). exists ms, ts.
      split; [exact A|]. split; [exact F|]. split; [exact Nd|]. intros m k. rewrite (I (m, k)), in_residual_pairs. cbn [fst snd]. rewrite Gv by lia.
      destruct (Nat.eqb_spec m 2) as [Em|Em]; [split; [intros (_ & _ & X); discriminate X|intros (_ & _ & _ & X); elim X; auto]|]. split.
      * intros ((X & Y) & Z). pose proof (proj1 (T m k X Y) Z) as Z2. split; [exact X|]. split; [exact Y|]. split; [exact Z2|]. lia.
      * intros (X & Y & Z & _). split; [lia|]. exact (proj2 (T m k X Y) Z).
    + assert (E : r = 2) by lia. subst r. destruct (residual_file_h2 M' text prog flag p G P Hp (or_intror E3)) as (ms & ts & A & F & Nd & I). exists ms, ts.
      split; [exact A|]. split; [exact F|]. split; [exact Nd|]. intros m k. rewrite (I (m, k)), in_residual_pairs. cbn [fst snd]. rewrite Gv by lia.
      destruct (Nat.eqb_spec m 2) as [Em|Em]; [split; [intros (_ & _ & X); discriminate X|intros (_ & _ & _ & X); elim X; auto]|]. split.
      * intros ((X & Y) & Z). pose proof (proj1 (T m k X Y) Z) as Z2. split; [exact X|]. split; [exact Y|]. split; [exact Z2|]. lia.
      * intros (X & Y & Z & _). split; [lia|]. exact (proj2 (T m k X Y) Z).
    + destruct (residual_file_good M' r text prog flag p G P Hp H4 (or_intror (conj E2 E3))) as (ms & ts & A & F & Pm). exists ms, ts. split; [exact A|]. split; [exact F|].
      split; [apply (Permutation_NoDup (Permutation_sym Pm)), NoDup_filter, residual_pairs_nodup|]. intros m k.
      rewrite (in_perm _ _ _ Pm), filter_In, in_residual_pairs. cbn [fst snd]. split.
      * intros ((X & Y) & Z). pose proof (proj1 (T m k X Y) Z) as Z2. split; [exact X|]. split; [exact Y|]. split; [exact Z2|]. lia.
      * intros (X & Y & Z & _). split; [lia|]. exact (proj2 (T m k X Y) Z).
Qed.
