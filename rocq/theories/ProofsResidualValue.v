(** Proofs about the numbers that the generated residual functions compute. *)
From Coq Require Import List Arith Bool Ascii String Lia Permutation Ring_theory Ring.
From Verif Require Import PyBase SpecPartitions SpecW SpecDt SpecResidual SpecPython SpecSumText SpecWText SpecResidualText SpecEinsum SpecFullCCValue SpecResidualValue
  ModelResidual ProofsResidual ProofsResidualText ProofsEinsum ProofsWValue ProofsFullCCValue.
Import ListNotations.
Local Open Scope nat_scope.
Local Open Scope list_scope.

Section Term.
  Variable F : scalars.
  Add Ring kring : (k_ring F).
  Variables A N : nat.
  Variable env : string -> array F.

  Lemma coefficient_value p m n num den : residual_coefficient p m n num den ->
    kmul F (of_nat F num) (one_over F den) = residual_weight F p m n.
  Proof.
    intros (D & E). unfold residual_weight. set (x := fact (p - m) * fact n * fact m). 
    assert (Ex : num * x = den) by (unfold x; rewrite <- !fact_eq; exact E). clearbody x. clear E. subst den.
    assert (num <> 0) by (intros ->; apply D; reflexivity). assert (x <> 0) by (intros ->; apply D; lia).
    rewrite (over_mul F num x) by assumption.
    transitivity (kmul F (kmul F (of_nat F num) (one_over F num)) (one_over F x)); [ring|]. rewrite over_spec by assumption. ring.
  Qed.

  Lemma term_value flag p m n t : residual_axes F A N env flag -> p <= 4 -> m <= p -> m + n <= 2 ->
    w_available (given flag) (p - m + n) = true -> adds_term p (m, n) t ->
    exists v, statement_adds F A N env p t v /\
      forall a b is, b < A -> List.length is = p -> v (a :: b :: is) = kmul F (residual_weight F p m n) (h_on_w F A N env m n is a b).
  Proof.
    intros (Ah & Aw) P4 Hm H2 Wa (num & den & w & Fr & Co & T). destruct T as [(Z & ->)|(Z & hd & wd & od & L & ->)].
    - eexists. split; [apply adds_an_array with (1 := Fr)|].
      + replace p with (m + n) by lia. now apply Ah.
      + intros a b is Lb Li. cbv beta. rewrite (coefficient_value p m n num den Co). f_equal. assert (n = 0) by lia. subst n. assert (m = p) by lia. subst m.
        unfold h_on_w. cbn [sum_modes app]. rewrite <- Li, firstn_all, skipn_all. cbn [w_series]. rewrite mprod_one by exact Lb. reflexivity.
    - destruct L as (a0 & b0 & c0 & K & I1 & I2 & E1 & E2 & E3 & Nd & LK & L1 & L2).
      apply (f_equal string_of_list_ascii) in E1, E2, E3. rewrite !string_of_list_ascii_of_string in E1, E2, E3.
      pose (vs := [K ++ I1; K ++ I2]). pose (xs := [env (h_name m n); env (w_name (p - m + n))]).
      assert (F1 : NoDup ((a0 :: [c0] ++ [b0]) ++ K ++ I1 ++ I2)).
      { eapply Permutation_NoDup; [|exact Nd]. cbn [app]. constructor. apply perm_swap. }
      assert (F3 : Forall2 (fun v x => has_axes F A N (List.length v) x) vs xs).
      { constructor; [rewrite app_length, LK, L1, (Nat.add_comm n m); now apply Ah|]. constructor; [|constructor].
        rewrite app_length, LK, L2, (Nat.add_comm n (p - m)). apply Aw; [lia|exact Wa]. }
      assert (F4 : forall c, In c (List.concat vs) <-> In c (K ++ I1 ++ I2)).
      { intros c. unfold vs. cbn [List.concat]. rewrite !in_app_iff. cbn [In]. tauto. }
      assert (Ei : map string_of_list_ascii (chain_of (a0 :: [c0] ++ [b0]) vs) = [hd; wd]) by (rewrite E1, E2; reflexivity).
      pose proof (chain_accepts F A N a0 b0 [c0] K (I1 ++ I2) vs xs F1 eq_refl F3 F4) as Ac.
      pose proof (chain_shape F A N a0 b0 [c0] K (I1 ++ I2) vs xs F1 eq_refl F3 F4) as Sh.
      pose proof (chain_einsum F A N a0 b0 [c0] K (I1 ++ I2) vs xs F1 eq_refl F3 F4) as Va.
      rewrite Ei, <- E3 in Ac, Sh, Va. assert (Lo : List.length (I1 ++ I2) = p) by (rewrite app_length; lia). rewrite Lo in Sh.
      eexists. split; [apply adds_an_einsum with (1 := Fr) (2 := Ac); exact Sh|].
      intros a b is Lb Li. cbv beta. rewrite (coefficient_value p m n num den Co). f_equal.
      etransitivity; [exact (Va a b is Lb ltac:(lia))|]. 
      destruct (nodup_split _ _ F1) as (_ & N2 & _). destruct (nodup_split _ _ N2) as (Nk & No & Dk).
      rewrite letters_modes; [|exact Nk|].
      + rewrite LK. unfold h_on_w. apply sum_modes_ext. intros s Ls. set (rho := with_values K s _).
        assert (Ek : map rho K = s) by (apply with_values_map; [exact Nk|lia]).
        assert (Eo : map rho (I1 ++ I2) = is).
        { rewrite <- (with_values_map (I1 ++ I2) is (fun _ => 0) No) by lia. apply map_ext_in. intros c I. apply with_values_other. intros J. now apply (Dk c J). }
        clearbody rho. assert (E4 : map rho I1 = firstn m is).
        { rewrite <- Eo, map_app, firstn_app, map_length, L1, Nat.sub_diag. cbn [firstn]. rewrite app_nil_r, <- L1, <- (map_length rho I1). symmetry. apply firstn_all. }
        assert (E5 : map rho I2 = skipn m is).
        { rewrite <- Eo, map_app, skipn_app, map_length, L1, Nat.sub_diag. cbn [skipn]. rewrite <- L1, <- (map_length rho I1), skipn_all. reflexivity. }
        unfold modes_of, vs, xs. cbn [combine map fst snd]. rewrite !map_app, Ek, E4, E5. unfold mprod. cbn [fold_right].
        apply mmul_ext; [reflexivity|]. intros c. rewrite mprod_one by exact Lb. unfold w_series.
        assert (Lw : List.length (s ++ skipn m is) = p - m + n) by (rewrite app_length, skipn_length; lia).
        destruct (s ++ skipn m is) eqn:Q; [cbn in Lw; lia|]. rewrite <- Lw. reflexivity.
      + intros r r' E. unfold modes_of. match goal with |- mprod _ _ ?l _ _ = mprod _ _ ?l' _ _ => assert (Q : l = l') end; [|now rewrite Q].
        apply map_ext. intros [v x]. cbn [fst snd]. f_equal. now apply map_ext.
  Qed.

  Lemma terms_value flag r p : residual_axes F A N env flag -> r <= 2 -> p <= 4 -> forall ms ts, Forall2 (adds_term p) ms ts ->
    (forall mn, In mn ms -> In mn (really_adds flag r p)) ->
    exists vs, Forall2 (statement_adds F A N env p) ts vs /\
      forall a b is, b < A -> List.length is = p -> ksum F (map (fun v => v (a :: b :: is)) vs) = residual_value F A N env ms is a b.
  Proof.
    intros Ax Hr P4 ms ts T. induction T as [|[m n] t ms ts T1 T IH]; intros In1; [exists []; split; [constructor|reflexivity]|].
    destruct IH as (vs & V1 & V2); [intros mn I; apply In1; now right|]. specialize (In1 (m, n) (or_introl eq_refl)).
    unfold really_adds in In1. apply filter_In in In1 as [I Q]. cbn [fst snd] in Q.
    unfold residual_pairs in I. apply filter_In in I as [_ I]. cbn [fst snd] in I. apply andb_true_iff in I as [I1 I2]. apply Nat.leb_le in I1, I2.
    destruct (term_value flag p m n t Ax P4 I2 ltac:(lia)) as (v & V3 & V4); [|exact T1|].
    - destruct (Nat.eqb_spec m 2) as [->|Nm]; cbn [andb] in Q; [|now apply andb_true_iff in Q].
      destruct (Nat.eqb_spec p 2) as [->|N2]; cbn [orb] in Q; [now replace n with 0 by lia|].
      destruct (Nat.eqb_spec p 3) as [->|N3]; [now replace n with 0 by lia|]. now apply andb_true_iff in Q.
    - exists (v :: vs). split; [now constructor|]. intros a b is Lb Li. cbn [map]. rewrite ksum_cons, V2, V4 by assumption. unfold residual_value. cbn [map fst snd]. rewrite ksum_cons, Li. reflexivity.
  Qed.
End Term.

Lemma residual_file_value M r text prog flag p (F : scalars) A N (env : string -> array F) :
  generate_residual_equations_file M r = Ok text -> python (joined text) prog -> p <= M -> p <= 4 -> residual_axes F A N env flag ->
  exists ts vs, residual_runs prog flag p ts /\ Forall2 (statement_adds F A N env p) ts vs /\
    forall a b is, b < A -> List.length is = p ->
      ksum F (map (fun v => v (a :: b :: is)) vs) = residual_value F A N env (really_adds flag r p) is a b.
Proof.
  intros G P Hp H4 Ax. destruct (residual_file_sums M r text prog flag p G P Hp H4) as (ms & ts & R & T & Q).
  assert (Q' : Permutation ms (really_adds flag r p)) by exact Q.
  destruct (rprog_unique M r text prog G P) as (_ & _ & Hr).
  destruct (terms_value F A N env flag r p Ax Hr H4 ms ts T) as (vs & V1 & V2); [intros mn; apply Permutation_in, Q'|].
  exists ts, vs. split; [exact R|]. split; [exact V1|]. intros a b is Lb Li. rewrite V2 by assumption. unfold residual_value. apply ksum_perm. now apply Permutation_map.
Qed.

Lemma really_should flag r p : r <= 1 \/ (p <> 2 /\ p <> 3) -> really_adds flag r p = should_add flag r p.
Proof.
  intros C. unfold really_adds, should_add. apply filter_ext_pairs. intros [m n] I. apply in_residual_pairs in I. cbn [fst snd].
  destruct (Nat.eqb_spec m 2); destruct (Nat.eqb_spec p 2); destruct (Nat.eqb_spec p 3); cbn [andb orb]; try reflexivity; lia.
Qed.

Lemma residual_file_refused M r text prog flag p (F : scalars) A N (env : string -> array F) :
  generate_residual_equations_file M r = Ok text -> python (joined text) prog -> p <= M -> 5 <= p ->
  (forall k, 1 <= k <= p + 2 -> has_axes F A N k (env (w_name k))) ->
  exists ts, residual_runs prog flag p ts /\ (given flag p = true -> ts <> []) /\
    forall t, In t ts -> exists k w hd wd od h, t = add_contraction w hd wd od h (w_name k) /\ ~ einsum_accepts F [hd; wd] od [env h; env (w_name k)].
Proof.
  intros G P Hp H5 Aw. destruct (residual_file_short_le M r text prog flag p G P Hp H5) as (ts & R & S & T). exists ts. split; [exact R|]. split; [exact S|].
  intros t I. destruct (T t I) as (k & w & hd & wd & od & h & Lk & E & L & _). exists k, w, hd, wd, od, h. split; [exact E|]. intros (F2 & _).
  inversion F2 as [|? ? ? ? _ F3]; subst. inversion F3 as [|? ? ? ? F4 _]; subst. 
  assert (Q : forall s, List.length (chars_of s) = String.length s) by (intros s; unfold chars_of; induction s as [|c s IH]; [reflexivity|]; cbn; now rewrite IH). rewrite Q in F4.
  unfold has_axes in Aw. rewrite (Aw k Lk) in F4. cbn [List.length] in F4. rewrite repeat_length in F4. lia.
Qed.

Lemma residual_misses flag p (F : scalars) A N (env : string -> array F) is a b :
  p = 2 \/ p = 3 -> flag "truncation.quadratic"%string = true -> given flag (p + 2) = true -> List.length is = p ->
  residual_value F A N env (should_add flag 2 p) is a b =
  kadd F (kmul F (residual_weight F p 2 0) (h_on_w F A N env 2 0 is a b)) (residual_value F A N env (really_adds flag 2 p) is a b).
Proof.
  intros C Q G L.
  assert (P : Permutation (should_add flag 2 p) ((2, 0) :: really_adds flag 2 p)).
  { assert (Rp : residual_pairs 2 p = [(0, 0); (0, 1); (0, 2); (1, 0); (1, 1)] ++ [(2, 0)]) by (destruct C as [->| ->]; reflexivity).
    unfold should_add, really_adds. rewrite Rp, !filter_app.
    assert (E1 : filter (fun mn => term_active (flag "truncation.quadratic"%string) (given flag) p (fst mn) (snd mn)) [(2, 0)] = [(2, 0)]) by (rewrite Q; destruct C as [->| ->]; reflexivity).
    rewrite E1. match goal with |- Permutation (?x ++ _) (_ :: ?y ++ ?z) => assert (E2 : z = []) end.
    { cbn [filter fst snd]. rewrite Q, G. destruct C as [->| ->]; reflexivity. }
    rewrite E2, app_nil_r. symmetry. etransitivity; [apply Permutation_cons_append|]. apply Permutation_app_tail. reflexivity. }
  unfold residual_value. rewrite (ksum_perm F _ _ (Permutation_map _ P)). cbn [map]. rewrite ksum_cons. cbn [fst snd]. now rewrite L.
Qed.
