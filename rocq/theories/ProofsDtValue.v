(** Proofs about the numbers that the generated functions of the time
    derivatives compute. *)
From Coq Require Import List Arith Bool Ascii String Ring_theory Ring Lia Permutation.
From Verif Require Import PyBase SpecPartitions SpecW SpecDt SpecPython SpecEtText SpecSumText SpecWText SpecDtText SpecEinsum SpecWValue SpecDtValue
  ModelHelper ModelDt ProofsDtFuns ProofsDtText ProofsEinsum ProofsWValue.
Import ListNotations.
Local Open Scope nat_scope.
Local Open Scope list_scope.

Section Dual.
  Variable F : scalars.
  Add Ring kring : (k_ring F).
  Variable A : nat.
  Notation D := (in_time F).

  Definition fm (x : matrix D) : matrix F := fun a b => fst (x a b : with_derivative F).
  Definition sm (x : matrix D) : matrix F := fun a b => snd (x a b : with_derivative F).

  Lemma fst_ksum (l : list (K D)) : fst (ksum D l : with_derivative F) = ksum F (map (fun x : K D => fst (x : with_derivative F)) l).
  Proof. induction l as [|x l IH]; [reflexivity|]. cbn [map]. rewrite !ksum_cons, <- IH. reflexivity. Qed.
  Lemma snd_ksum (l : list (K D)) : snd (ksum D l : with_derivative F) = ksum F (map (fun x : K D => snd (x : with_derivative F)) l).
  Proof. induction l as [|x l IH]; [reflexivity|]. cbn [map]. rewrite !ksum_cons, <- IH. reflexivity. Qed.
  Lemma fm_mmul (x y : matrix D) a b : fm (mmul D A x y) a b = mmul F A (fm x) (fm y) a b.
  Proof. unfold fm at 1, mmul, sum_below. rewrite fst_ksum, map_map. reflexivity. Qed.
  Lemma sm_mmul (x y : matrix D) a b : sm (mmul D A x y) a b = kadd F (mmul F A (sm x) (fm y) a b) (mmul F A (fm x) (sm y) a b).
  Proof. unfold sm at 1, mmul, sum_below. rewrite snd_ksum, map_map, <- ksum_add. reflexivity. Qed.
  Lemma fm_identity a b : fm (identity D) a b = identity F a b.
  Proof. unfold fm, identity. destruct (Nat.eqb a b); reflexivity. Qed.
  Lemma sm_identity a b : sm (identity D) a b = kzero F.
  Proof. unfold sm, identity. destruct (Nat.eqb a b); reflexivity. Qed.

  Lemma mprod_ext (l l' : list (matrix F)) : Forall2 (fun x y => forall a b, x a b = y a b) l l' -> forall a b, mprod F A l a b = mprod F A l' a b.
  Proof.
    induction 1 as [|x y l l' E _ IH]; intros a b; [reflexivity|]. change (mmul F A x (mprod F A l) a b = mmul F A y (mprod F A l') a b).
    apply mmul_ext; [intros c; apply E|intros c; apply IH].
  Qed.
  Lemma fm_mprod (l : list (matrix D)) a b : fm (mprod D A l) a b = mprod F A (map fm l) a b.
  Proof.
    revert a b. induction l as [|x l IH]; intros a b; [apply fm_identity|]. change (fm (mmul D A x (mprod D A l)) a b = mmul F A (fm x) (mprod F A (map fm l)) a b).
    rewrite fm_mmul. apply mmul_ext; [reflexivity|intros c; apply IH].
  Qed.
  Lemma mmul_sum_r {X} (x : matrix F) (y : X -> matrix F) l a b :
    mmul F A x (fun c d => ksum F (map (fun i => y i c d) l)) a b = ksum F (map (fun i => mmul F A x (y i) a b) l).
  Proof.
    unfold mmul, sum_below. rewrite (ksum_ext F _ (fun c => ksum F (map (fun i => kmul F (x a c) (y i c b)) l))) by (intros c _; symmetry; apply ksum_scale).
    rewrite ksum_swap. reflexivity.
  Qed.

  (** The product rule for products of matrices. *)
  Definition one_differentiated (l : list (matrix D)) (i : nat) : list (matrix F) :=
    map fm (firstn i l) ++ map sm (firstn 1 (skipn i l)) ++ map fm (skipn (S i) l).
  Lemma sm_mprod (l : list (matrix D)) a b :
    sm (mprod D A l) a b = ksum F (map (fun i => mprod F A (one_differentiated l i) a b) (seq 0 (List.length l))).
  Proof.
    revert a b. induction l as [|x l IH]; intros a b; [apply sm_identity|]. change (sm (mmul D A x (mprod D A l)) a b = ksum F (map (fun i => mprod F A (one_differentiated (x :: l) i) a b) (seq 0 (S (List.length l))))).
    rewrite sm_mmul. cbn [seq map]. rewrite ksum_cons. f_equal.
    - change (mmul F A (sm x) (fm (mprod D A l)) a b = mmul F A (sm x) (mprod F A (map fm l)) a b). apply mmul_ext; [reflexivity|intros c; apply fm_mprod].
    - rewrite <- seq_shift, map_map. rewrite (mmul_ext F A _ (fm x) _ (fun c d => ksum F (map (fun i => mprod F A (one_differentiated l i) c d) (seq 0 (List.length l))))) by (intros; auto).
      rewrite mmul_sum_r. apply ksum_ext. intros i _. reflexivity.
  Qed.

  (** ** The value of a composition *)
  Variable N : nat.
  Variable env : string -> array F.
  Notation cl := (cluster D (env_in_time F env) (fun _ => true)).

  (** The arrays named by [names], each at its modes. *)
  Fixpoint named_modes (names : list string) (ps : list (list nat)) : list (matrix F) :=
    match names, ps with
    | s :: names', js :: ps' => at_modes F (env s) js :: named_modes names' ps'
    | _, _ => []
    end.
  Lemma named_app l l' ps ps' : List.length l = List.length ps -> named_modes (l ++ l') (ps ++ ps') = named_modes l ps ++ named_modes l' ps'.
  Proof. revert ps. induction l as [|s l IH]; intros [|js ps] E; cbn in *; try discriminate; [reflexivity|]. f_equal. apply IH. lia. Qed.

  Lemma cluster_fm k js a b : 1 <= List.length js <= k -> fm (cl 1 k js) a b = mscale F (one_over F (fact (List.length js))) (at_modes F (env (amp_name (List.length js))) js) a b.
  Proof.
    intros L. unfold cluster. replace (Nat.leb 1 _) with true by (symmetry; apply Nat.leb_le; lia). replace (Nat.leb _ k) with true by (symmetry; apply Nat.leb_le; lia). reflexivity.
  Qed.
  Lemma cluster_sm k js a b : 1 <= List.length js <= k -> sm (cl 1 k js) a b = mscale F (one_over F (fact (List.length js))) (at_modes F (env (dt_amp_name (List.length js))) js) a b.
  Proof.
    intros L. unfold cluster. replace (Nat.leb 1 _) with true by (symmetry; apply Nat.leb_le; lia). replace (Nat.leb _ k) with true by (symmetry; apply Nat.leb_le; lia).
    unfold sm, mscale, at_modes. cbn [andb]. cbn. unfold d_mul, d_const. cbn [fst snd]. unfold dt_amp_name. ring.
  Qed.

  Lemma named_scaled k ps i : Forall (fun js => 1 <= List.length js <= k) ps -> i < List.length ps -> forall a b,
    mprod F A (one_differentiated (map (cl 1 k) ps) i) a b =
    kmul F (kprod F (map (fun js => one_over F (fact (List.length js))) ps)) (mprod F A (named_modes (leibniz_term (map (@List.length nat) ps) i) ps) a b).
  Proof.
    intros B L a b.
    assert (Sp : exists ps1 js ps2, ps = ps1 ++ js :: ps2 /\ List.length ps1 = i).
    { exists (firstn i ps). destruct (skipn i ps) as [|js ps2] eqn:E; [apply (f_equal (@List.length _)) in E; rewrite skipn_length in E; cbn in E; lia|].
      exists js, ps2. split; [rewrite <- E; symmetry; apply firstn_skipn|]. rewrite firstn_length. lia. }
    destruct Sp as (ps1 & js & ps2 & -> & <-).
    apply Forall_app in B as [B1 B2]. apply Forall_cons_iff in B2 as [Bj B2].
    assert (E1 : forall {X Y} (f : X -> Y) l1 x l2, firstn (List.length l1) (map f (l1 ++ x :: l2)) = map f l1 /\ firstn 1 (skipn (List.length l1) (map f (l1 ++ x :: l2))) = [f x] /\ skipn (S (List.length l1)) (map f (l1 ++ x :: l2)) = map f l2).
    { intros X Y f l1 x l2. induction l1 as [|y l1 IH]; [repeat split|]. cbn [List.length app map firstn skipn]. destruct IH as (I1 & I2 & I3). split; [now rewrite I1|]. split; [exact I2|exact I3]. }
    unfold one_differentiated, leibniz_term. destruct (E1 _ _ (cl 1 k) ps1 js ps2) as (-> & -> & ->). destruct (E1 _ _ (@List.length nat) ps1 js ps2) as (-> & -> & ->).
    cbn [map]. 
    pose (t1 := fun q : list nat => (one_over F (fact (List.length q)), at_modes F (env (amp_name (List.length q))) q)).
    pose (t2 := fun q : list nat => (one_over F (fact (List.length q)), at_modes F (env (dt_amp_name (List.length q))) q)).
    set (l := map t1 ps1 ++ t2 js :: map t1 ps2).
    transitivity (mprod F A (map (fun kx => mscale F (fst kx) (snd kx)) l) a b).
    - apply mprod_ext. unfold l. rewrite map_app. cbn [map app].
      assert (Q : forall qs, Forall (fun q : list nat => 1 <= List.length q <= k) qs -> Forall2 (fun x y : matrix F => forall a b, x a b = y a b) (map fm (map (cl 1 k) qs)) (map (fun kx => mscale F (fst kx) (snd kx)) (map t1 qs))).
      { induction 1 as [|q qs Hq _ IH]; cbn [map]; constructor; [|exact IH]. intros; now apply cluster_fm. }
      apply Forall2_app; [now apply Q|]. constructor; [intros; now apply cluster_sm|]. now apply Q.
    - rewrite mprod_scale. f_equal.
      + f_equal. unfold l. rewrite !map_app, map_map. cbn [map fst t2]. now rewrite map_map.
      + f_equal. unfold l. rewrite named_app by now rewrite !map_length. rewrite map_app, map_map. cbn [map snd app named_modes t2]. rewrite map_map.
        assert (Q : forall qs, named_modes (map amp_name (map (@List.length nat) qs)) qs = map (fun q => snd (t1 q)) qs) by (induction qs as [|q qs IH]; [reflexivity|]; cbn [map named_modes]; now rewrite IH).
        now rewrite !Q.
  Qed.

  Definition leibniz_value (is : list nat) (a b : nat) (ci : list nat * nat) : K F :=
    kmul F (one_over F (exp_denominator (fst ci))) (mprod F A (named_modes (leibniz_term (fst ci) (snd ci)) (pieces (fst ci) is)) a b).

  Lemma snd_tval k c is a b : composition_of k c -> List.length is = k ->
    snd (tval D A (cl 1 k) is a b c : with_derivative F) = ksum F (map (fun i => leibniz_value is a b (c, i)) (seq 0 (List.length c))).
  Proof.
    intros [Cp Cs] Li. assert (Lp : map (@List.length nat) (pieces c is) = c) by (apply pieces_lengths; congruence).
    assert (B : Forall (fun js => 1 <= List.length js <= k) (pieces c is)).
    { apply Forall_forall. intros js I. assert (J : In (List.length js) c) by (rewrite <- Lp; now apply in_map). rewrite Forall_forall in Cp. specialize (Cp _ J). apply part_le in J. lia. }
    assert (Lc : List.length (pieces c is) = List.length c) by (rewrite <- Lp at 2; now rewrite map_length).
    unfold tval, term.
    transitivity (kmul F (one_over F (fact (List.length c))) (sm (mprod D A (map (cl 1 k) (pieces c is))) a b)).
    { unfold sm. cbn. unfold d_mul, d_const. cbn [fst snd]. ring. }
    rewrite sm_mprod, map_length, Lc, <- ksum_scale. apply ksum_ext. intros i I. apply in_seq in I. rewrite named_scaled; [|exact B|lia].
    unfold leibniz_value. cbn [fst snd]. rewrite over_exp, Lp.
    assert (Em : map (fun js => one_over F (fact (List.length js))) (pieces c is) = map (fun n => one_over F (fact n)) c) by (rewrite <- Lp at 2; now rewrite map_map). rewrite Em. ring.
  Qed.

  (** ** The value of a generated product *)
  Lemma named_chain k c p names is a b : fold_right Nat.add 0 c = k -> p_ops p = names -> c <> [] ->
    Forall2 (fun n s => has_axes F A N n (env s)) c names -> matrix_chain c (p_ins p) (p_out p) ->
    product_fits F A N env k p /\
    (List.length is = k -> b < A -> product_value F env p (a :: b :: is) = mprod F A (named_modes names (pieces c is)) a b).
  Proof.
    intros Cs Ops Cn Ax (inner & groups & Nd & Lg & Sb & Out).
    apply subscripts_chain in Sb as [Sb Ls]. rewrite string_of_eq in Out. unfold product_fits, product_accepted, product_value. rewrite Ops, Sb, Out.
    assert (Lv : List.length groups = S (List.length inner)) by (cbn in Ls; rewrite app_length in Ls; cbn in Ls; lia).
    assert (Fx : Forall2 (fun v x => has_axes F A N (List.length v) x) groups (map env names)).
    { rewrite <- Lg in Ax. clear - Ax. revert names Ax. induction groups as [|g gs IH]; intros names Ax; cbn in *; inversion Ax; subst; cbn; constructor; auto. }
    assert (Mv : forall x, In x (List.concat groups) <-> In x ([] ++ List.concat groups)) by (intros; reflexivity).
    assert (Lm : List.length (List.concat groups) = k).
    { rewrite <- Cs, <- Lg. clear. induction groups as [|g gs IH]; cbn; [reflexivity|]. now rewrite app_length, IH. }
    split; [split|].
    - exact (chain_accepts F A N "a"%char "b"%char inner [] (List.concat groups) groups _ Nd Lv Fx Mv).
    - unfold has_axes. rewrite <- Lm. exact (chain_shape F A N "a"%char "b"%char inner [] (List.concat groups) groups _ Nd Lv Fx Mv).
    - intros Li Lb. etransitivity; [exact (chain_einsum F A N "a"%char "b"%char inner [] (List.concat groups) groups _ Nd Lv Fx Mv a b is Lb ltac:(lia))|].
      cbn [sum_letters]. set (rho := with_values _ _ _).
      assert (Rc : pieces c is = map (map rho) groups).
      { rewrite <- Lg, <- (pieces_concat rho). f_equal. symmetry. apply with_values_map; [|lia].
        cbn in Nd. inversion Nd as [|? ? _ Nd']; subst. apply nodup_split in Nd'. apply Nd'. }
      rewrite Rc. clearbody rho. match goal with |- mprod _ _ ?l _ _ = mprod _ _ ?l' _ _ => assert (Q : l = l') end; [|now rewrite Q].
      unfold modes_of. clear - Fx. revert names Fx. induction groups as [|g gs IH]; intros [|s names] Fx; cbn in *; inversion Fx; subst; [reflexivity|]. f_equal. now apply IH.
  Qed.
End Dual.

(** ** Names *)
Fixpoint before_d (names : list string) : nat :=
  match names with [] => 0 | s :: r => if String.prefix "d" s then 0 else S (before_d r) end.
Definition rank_in (s : string) : nat := if String.prefix "d" s then String.length s - 3 else String.length s - 2.
Definition decode (names : list string) : list nat * nat := (map rank_in names, before_d names).
Lemma rank_in_amp n : n <= 8 -> rank_in (amp_name n) = n /\ rank_in (dt_amp_name n) = n.
Proof. intros H. do 9 (destruct n as [|n]; [split; reflexivity|]). lia. Qed.
Lemma decode_leibniz c i : Forall (fun n => n <= 8) c -> i < List.length c -> decode (leibniz_term c i) = (c, i).
Proof.
  intros B L. unfold decode. f_equal.
  - unfold leibniz_term. rewrite !map_app. assert (Q1 : forall l, Forall (fun n => n <= 8) l -> map rank_in (map amp_name l) = l) by (induction 1 as [|n l H _ IH]; cbn [map]; [reflexivity|]; now rewrite IH, (proj1 (rank_in_amp n H))).
    assert (Q2 : forall l, Forall (fun n => n <= 8) l -> map rank_in (map dt_amp_name l) = l) by (induction 1 as [|n l H _ IH]; cbn [map]; [reflexivity|]; now rewrite IH, (proj2 (rank_in_amp n H))).
    assert (Bi : forall l, incl l c -> Forall (fun n => n <= 8) l) by (intros l I; apply Forall_forall; intros n J; rewrite Forall_forall in B; apply B, I, J).
    rewrite !Q1, Q2.
    + rewrite <- (firstn_skipn i c) at 4. f_equal. clear - L. revert i L. induction c as [|n c IH]; intros [|i] L; cbn in *; try lia; [reflexivity|]. apply IH. lia.
    + apply Bi. intros n I. assert (J : In n (skipn i c)) by (destruct (skipn i c); [destruct I|destruct I as [->|[]]; now left]). rewrite <- (firstn_skipn i c). apply in_or_app. now right.
    + apply Bi. intros n I. rewrite <- (firstn_skipn (S i) c). apply in_or_app. now right.
    + apply Bi. intros n I. rewrite <- (firstn_skipn i c). apply in_or_app. now left.
  - unfold leibniz_term. revert i L. clear. induction c as [|n c IH]; intros i L; [cbn in L; lia|]. destruct i as [|i]; [reflexivity|]. cbn [firstn skipn map app before_d].
    change (String.prefix "d" (amp_name n)) with false. cbv iota. f_equal. apply IH. cbn in L. lia.
Qed.

Section Sum.
  Variable F : scalars.
  Add Ring kring : (k_ring F).
  Variables A N : nat.
  Variable env : string -> array F.
  Hypothesis Ax : dt_axes F A N env.

  Lemma leibniz_axes k c i : composition_of k c -> k <= 6 -> i < List.length c -> Forall2 (fun n s => has_axes F A N n (env s)) c (leibniz_term c i).
  Proof.
    intros [Cp Cs] K6 L. assert (B : Forall (fun r => 1 <= r <= 6) c) by (apply Forall_forall; intros r I; rewrite Forall_forall in Cp; specialize (Cp r I); apply part_le in I; lia).
    clear Cp Cs. destruct Ax as [Aa _].
    assert (Q : forall l, Forall (fun r => 1 <= r <= 6) l -> Forall2 (fun n s => has_axes F A N n (env s)) l (map amp_name l)) by (induction 1; cbn [map]; constructor; [now apply Aa|assumption]).
    revert i L. induction B as [|n c Hn B IH]; intros i L; [cbn in L; lia|]. destruct i as [|i]; unfold leibniz_term; cbn [firstn skipn map app].
    - constructor; [now apply Aa|]. now apply Q.
    - constructor; [now apply Aa|]. apply IH. cbn in L. lia.
  Qed.

  Lemma dt_accepted flag k l : 1 <= k <= 6 -> is_dt_sum flag k l -> Forall (fun dp => product_fits F A N env k (snd dp)) l.
  Proof.
    intros Hk (rest & -> & Ch & _ & _ & Fl). constructor.
    - cbn [snd]. apply (named_chain F A N env k [k; 0] (w_epsilon k) (p_ops (w_epsilon k)) [] 0 0); [cbn; lia|reflexivity|discriminate| |exact Ch].
      destruct Ax as [Aa Ae]. constructor; [now apply Aa|]. constructor; [exact Ae|constructor].
    - eapply Forall_impl; [|exact Fl]. intros dp (c & i & C & L & Ops & _ & Mc).
      apply (named_chain F A N env k c (snd dp) (leibniz_term c i) [] 0 0); [apply C|exact Ops|destruct c; [cbn in L; lia|discriminate]|now apply (leibniz_axes k)|exact Mc].
  Qed.

  (** The compositions of the ansatz. *)
  Definition keep_kind (kind : ansatz_kind) (c : list nat) : bool :=
    (Nat.leb 2 (List.length c) && match kind with Kind_CI => false | Kind_mixed => Nat.leb (big_parts c) 1 | Kind_CC => true end)%bool.
  Lemma keep_iff kind c : keep_kind kind c = true <-> disconnected_in kind c.
  Proof. unfold keep_kind, disconnected_in. rewrite andb_true_iff, Nat.leb_le. destruct kind; [intuition discriminate|rewrite Nat.leb_le; tauto|tauto]. Qed.

  Notation D := (in_time F).
  Lemma disconnected_compositions kind k is a b : 1 <= k -> List.length is = k ->
    exists L, NoDup L /\ (forall c, In c L <-> composition_of k c /\ disconnected_in kind c) /\
      disconnected_value D A (env_in_time F env) kind k is a b =
      ksum D (map (tval D A (cluster D (env_in_time F env) (fun _ => true) 1 k) is a b) L).
  Proof.
    intros Hk Li. destruct (exp_compositions D A (env_in_time F env) (fun _ => true) (keep_kind kind) k is a b Li) as (L & N1 & N2 & E).
    exists L. split; [exact N1|]. split.
    - intros c. rewrite N2, keep_iff. split; [tauto|]. intros [C1 C2]. split; [exact C1|]. split; [exact C2|]. unfold allowed. apply Forall_forall. reflexivity.
    - rewrite <- E. clear E N2 N1 L. unfold disconnected_value, msum. rewrite map_map.
      assert (Sq : seq 0 (S k) = [0; 1] ++ seq 2 (k - 1)) by (destruct k as [|k]; [lia|]; cbn [seq app]; now rewrite Nat.sub_succ, Nat.sub_0_r).
      rewrite Sq, map_app, ksum_app.
      assert (Z : forall j, j < 2 -> wsum D A (keep_kind kind) (cluster D (env_in_time F env) (fun _ => true) 1 k) j is a b = kzero D).
      { intros j Hj. unfold wsum. replace (filter (keep_kind kind) (comps j (List.length is))) with (@nil (list nat)); [reflexivity|]. symmetry.
        assert (Q : forall l, (forall c, In c l -> List.length c = j) -> filter (keep_kind kind) l = []).
        { induction l as [|c l IH]; intros H; [reflexivity|]. cbn [filter]. unfold keep_kind at 1. rewrite (H c) by now left.
          replace (Nat.leb 2 j) with false by (symmetry; apply Nat.leb_gt; lia). cbn [andb]. apply IH. intros d I. apply H. now right. }
        apply Q. intros c I. now apply comps_iff in I. }
      cbn [map app]. rewrite !ksum_cons, ksum_nil, !Z by lia.
      assert (W : forall j, 2 <= j -> forall (P : list nat -> bool), wsum D A (fun c => Nat.leb 2 (List.length c) && P c)%bool (cluster D (env_in_time F env) (fun _ => true) 1 k) j is a b
        = wsum D A P (cluster D (env_in_time F env) (fun _ => true) 1 k) j is a b).
      { intros j Hj P. unfold wsum. assert (Q : forall l, (forall c, In c l -> List.length c = j) -> filter (fun c => Nat.leb 2 (List.length c) && P c)%bool l = filter P l).
        { induction l as [|c l IH]; intros H; [reflexivity|]. cbn [filter]. rewrite (H c) by now left. replace (Nat.leb 2 j) with true by (symmetry; apply Nat.leb_le; lia). cbn [andb].
          rewrite IH by (intros d I; apply H; now right). reflexivity. }
        rewrite Q; [reflexivity|]. intros c I. now apply comps_iff in I. }
      match goal with |- ?x = kadd D ?y ?z => transitivity z end.
      + apply ksum_ext. intros j I. apply in_seq in I. unfold mscale. f_equal. unfold keep_kind. rewrite (W j ltac:(lia)).
        destruct kind.
        * symmetry. now apply wsum_none.
        * apply linear_wsum. lia.
        * apply power_wsum.
      + generalize (ksum D (map (fun j => kmul D (one_over D (fact j)) (wsum D A (keep_kind kind) (cluster D (env_in_time F env) (fun _ => true) 1 k) j is a b)) (seq 2 (k - 1)))) as z.
        generalize (one_over D (fact 0)) (one_over D (fact 1)). intros u v z. Add Ring dring : (k_ring D). ring.
  Qed.

  Lemma nodup_pairs L : NoDup L -> (forall c, In c L -> Forall (fun n => n <= 8) c) ->
    NoDup (map (fun ci => leibniz_term (fst ci) (snd ci)) (flat_map (fun c => map (fun i => (c, i)) (seq 0 (List.length c))) L)).
  Proof.
    intros Nd B. set (P := flat_map _ L).
    assert (Np : NoDup P).
    { unfold P. apply nodup_flat_map; [exact Nd| |].
      - intros c _. apply FinFun.Injective_map_NoDup; [intros x y E; now injection E|apply seq_NoDup].
      - intros x x' y _ _ I J. apply in_map_iff in I as (i & <- & _). apply in_map_iff in J as (j & E & _). now injection E. }
    assert (Q : forall ci, In ci P -> decode (leibniz_term (fst ci) (snd ci)) = ci).
    { intros ci I. unfold P in I. apply in_flat_map in I as (c & I & J). apply in_map_iff in J as (i & <- & J). apply in_seq in J. cbn [fst snd]. apply decode_leibniz; [now apply B|lia]. }
    clearbody P. clear - Np Q. induction Np as [|ci P N0 Np IH]; cbn [map]; constructor; [|apply IH; intros; apply Q; now right].
    intros I. apply in_map_iff in I as (cj & E & I). apply N0. rewrite <- (Q ci) by now left. rewrite <- E, Q by now right. exact I.
  Qed.

  Lemma dt_sum_value flag k l a b is : 1 <= k <= 6 -> is_dt_sum flag k l -> b < A -> List.length is = k ->
    added F env l (a :: b :: is) = subtracted_value F A env (dt_kind flag) k is a b.
  Proof.
    intros Hk (rest & -> & Ch & Nd & Iff & Fl) Lb Li. unfold added, subtracted_value. cbn [map fst snd]. rewrite ksum_cons, fact_eq. f_equal.
    - f_equal. destruct (named_chain F A N env k [k; 0] (w_epsilon k) (p_ops (w_epsilon k)) is a b) as [_ V]; [cbn; lia|reflexivity|discriminate| |exact Ch|].
      + destruct Ax as [Aa Ae]. constructor; [now apply Aa|]. constructor; [exact Ae|constructor].
      + rewrite (V Li Lb). cbn [pieces w_epsilon p_ops named_modes].
        change (mmul F A (at_modes F (env (w_name k)) (firstn k is)) (mmul F A (at_modes F (env "epsilon"%string) []) (identity F)) a b = mmul F A (at_modes F (env (w_name k)) is) (at_modes F (env "epsilon"%string) []) a b).
        apply mmul_ext; [intros c; rewrite <- Li, firstn_all; reflexivity|]. intros c. now apply mprod_one.
    - destruct (disconnected_compositions (dt_kind flag) k is a b) as (L & N1 & N2 & ->); [lia|exact Li|].
      rewrite snd_ksum, map_map.
      rewrite (ksum_ext F _ (fun c => ksum F (map (fun i => leibniz_value F A env is a b (c, i)) (seq 0 (List.length c))))) by (intros c I; apply snd_tval; [apply N2, I|exact Li]).
      assert (B8 : forall c, composition_of k c -> Forall (fun n => n <= 8) c) by (intros c [_ Cs]; apply Forall_forall; intros r J; apply part_le in J; lia).
      set (P := flat_map (fun c => map (fun i => (c, i)) (seq 0 (List.length c))) L).
      transitivity (ksum F (map (leibniz_value F A env is a b) P)).
      + assert (Pm : Permutation (map (fun dp => p_ops (snd dp)) rest) (map (fun ci => leibniz_term (fst ci) (snd ci)) P)).
        { apply NoDup_Permutation; [exact Nd|apply nodup_pairs; [exact N1|intros c I; apply B8, N2, I]|]. intros ops. rewrite Iff, in_map_iff. unfold P. split.
          - intros (c & i & C1 & C2 & C3 & ->). exists (c, i). split; [reflexivity|]. apply in_flat_map. exists c. split; [apply N2; auto|]. apply in_map. apply in_seq. lia.
          - intros (ci & <- & I). apply in_flat_map in I as (c & I & J). apply in_map_iff in J as (i & <- & J). apply in_seq in J. apply N2 in I as [C1 C2]. exists c, i. split; [exact C1|]. split; [exact C2|]. split; [lia|reflexivity]. }
        assert (E : forall dp, In dp rest -> kmul F (one_over F (fst dp)) (product_value F env (snd dp) (a :: b :: is)) = leibniz_value F A env is a b (decode (p_ops (snd dp)))).
        { intros dp I. rewrite Forall_forall in Fl. destruct (Fl dp I) as (c & i & C & L1 & Ops & W & Mc). rewrite Ops, (decode_leibniz c i (B8 c C) L1), W. unfold leibniz_value. cbn [fst snd]. f_equal.
          apply (named_chain F A N env k c (snd dp) (leibniz_term c i) is a b); [apply C|exact Ops|destruct c; [cbn in L1; lia|discriminate]|apply (leibniz_axes k); auto; lia|exact Mc|exact Li|exact Lb]. }
        rewrite (ksum_ext F _ _ rest E), <- (map_map (fun dp => p_ops (snd dp)) (fun ops => leibniz_value F A env is a b (decode ops))).
        etransitivity; [apply ksum_perm, Permutation_map, Pm|]. rewrite map_map. apply ksum_ext. intros ci I. unfold P in I. apply in_flat_map in I as (c & I & J).
        apply in_map_iff in J as (i & <- & J). apply in_seq in J. cbn [fst snd]. rewrite decode_leibniz; [reflexivity|apply B8, N2, I|lia].
      + unfold P. rewrite ksum_flat_map. apply ksum_ext. intros c _. now rewrite map_map.
  Qed.
End Sum.

Theorem dt_file_value so M text prog flag k (F : scalars) A N (env : string -> array F) : set_order so ->
  generate_dt_amplitude_equations_file so M = Ok text -> python text prog -> 1 <= k <= M -> dt_axes F A N env ->
  exists l, dt_computes prog flag k false "" (fun _ => []) l /\ Forall (fun dp => product_fits F A N env k (snd dp)) l /\
    forall a b is, b < A -> List.length is = k -> added F env l (a :: b :: is) = subtracted_value F A env (dt_kind flag) k is a b.
Proof.
  intros S G P Hk Ax. assert (K : M <= 6) by (apply (dt_file_program so M S); eauto). destruct (dt_file_default so M text prog flag k S G P Hk) as (l & W & Is).
  exists l. split; [exact W|]. split; [apply (dt_accepted F A N env Ax flag k l); [lia|exact Is]|]. intros a b is Lb Li. apply (dt_sum_value F A N env Ax flag k l); auto; lia.
Qed.
Theorem dt_file_value_optimized so M text prog flag (F : scalars) A N (env : string -> array F) : set_order so ->
  generate_dt_amplitude_equations_file so M = Ok text -> python text prog ->
  level_truncation (trunc_of flag) -> negations flag -> dt_axes F A N env ->
  exists ep lp up, returns_epsilon_paths prog flag ep /\ returns_dt_paths prog flag false lp /\ returns_dt_paths prog flag true up /\
    forall k, 1 <= k <= M -> has_rank (trunc_of flag) k ->
      exists e pl pu l, nth_error ep (k - 1) = Some e /\ nth_error lp (k - 1) = Some pl /\ nth_error up (k - 1) = Some pu /\
        dt_computes prog flag k true e (fun un => if un then pu else pl) l /\ Forall (fun dp => product_fits F A N env k (snd dp)) l /\
        forall a b is, b < A -> List.length is = k -> added F env l (a :: b :: is) = subtracted_value F A env (dt_kind flag) k is a b.
Proof.
  intros S G P Lt Ng Ax. assert (K : M <= 6) by (apply (dt_file_program so M S); eauto).
  destruct (dt_file_optimized so M text prog flag S G P Lt Ng) as (ep & lp & up & R1 & R2 & R3 & H). exists ep, lp, up. split; [exact R1|]. split; [exact R2|]. split; [exact R3|].
  intros k Hk Hr. destruct (H k Hk Hr) as (e & pl & pu & l & E1 & E2 & E3 & W & _ & Is). exists e, pl, pu, l. split; [exact E1|]. split; [exact E2|]. split; [exact E3|]. split; [exact W|].
  split; [apply (dt_accepted F A N env Ax flag k l); [lia|exact Is]|]. intros a b is Lb Li. apply (dt_sum_value F A N env Ax flag k l); auto; lia.
Qed.

(** ** The disconnected terms are W without the connected one *)
Section WithoutConnected.
  Variable F : scalars.
  Add Ring kring2 : (k_ring F).
  Variable A : nat.
  Variable env : string -> array F.

  Lemma wsum_series keep T T' j is a b : (forall js, List.length js <= List.length is -> T js = T' js) -> wsum F A keep T j is a b = wsum F A keep T' j is a b.
  Proof.
    intros E. unfold wsum. apply ksum_ext. intros c I. apply filter_In in I as [I _]. apply comps_iff in I as [_ Cs]. unfold term.
    match goal with |- mprod _ _ ?l _ _ = mprod _ _ ?l' _ _ => assert (Q : l = l') end; [|now rewrite Q].
    apply map_ext_in. intros js J. apply E. assert (Jl : In (List.length js) c) by (rewrite <- (pieces_lengths c is Cs); now apply in_map). apply part_le in Jl. lia.
  Qed.
  Lemma cluster_all tr k js : (forall r, 1 <= r <= k -> has_rank tr r) -> List.length js <= k -> cluster F env tr 1 k js = cluster F env (fun _ => true) 1 k js.
  Proof.
    intros H L. unfold cluster. destruct (Nat.leb 1 (List.length js)) eqn:E; cbn [andb]; [|reflexivity]. apply Nat.leb_le in E. 
    rewrite (H (List.length js)) by lia. reflexivity.
  Qed.

  Lemma wsum_zero keep T is a b : is <> [] -> wsum F A keep T 0 is a b = kzero F.
  Proof. intros H. destruct is; [contradiction|reflexivity]. Qed.
  Lemma wsum_one keep T is a b : b < A -> keep [List.length is] = true -> (forall a b, T [] a b = kzero F) -> is <> [] -> wsum F A keep T 1 is a b = T is a b.
  Proof.
    intros Lb H Z Ne. rewrite wsum_S. set (n := List.length is) in *. assert (Sq : seq 0 (S n) = seq 0 n ++ [n]) by (apply seq_S). rewrite Sq, map_app, ksum_app. cbn [map]. rewrite ksum_cons, ksum_nil.
    rewrite (ksum_zero F).
    - assert (Eq : mmul F A (T (firstn n is)) (wsum F A (fun c => keep (n :: c)) T 0 (skipn n is)) a b = T is a b); [|rewrite Eq; ring].
      unfold n. rewrite firstn_all, skipn_all.
      etransitivity; [|exact (mprod_one F A (T is) a b Lb)]. apply mmul_ext; [reflexivity|]. intros c. rewrite wsum_O; [reflexivity|exact H].
    - intros p I. apply in_seq in I. apply mmul_zero_r. intros c. apply wsum_zero. intros E. apply (f_equal (@List.length nat)) in E. rewrite skipn_length in E. cbn in E. fold n in E. lia.
  Qed.

  Lemma w_without_connected flag kind k is a b : 1 <= k -> List.length is = k -> b < A -> (forall r, 1 <= r <= k -> has_rank (trunc_of flag) r) ->
    kind = (if flag "ansatz.VE_MIXED"%string then Kind_mixed else if flag "ansatz.VECC"%string then Kind_CC else Kind_CI) ->
    w_value F A env flag k is a b = kadd F (disconnected_value F A env kind k is a b) (kmul F (one_over F (fact k)) (entry (env (amp_name k)) (a :: b :: is))).
  Proof.
    intros Hk Li Lb Hr ->. assert (Ne : is <> []) by (intros ->; cbn in Li; lia).
    assert (Tk : cluster F env (fun _ => true) 1 k is a b = kmul F (one_over F (fact k)) (entry (env (amp_name k)) (a :: b :: is))).
    { unfold cluster. rewrite Li. replace (Nat.leb 1 k) with true by (symmetry; apply Nat.leb_le; lia). rewrite Nat.leb_refl. reflexivity. }
    rewrite <- Tk.
    assert (Sq : seq 0 (S k) = [0; 1] ++ seq 2 (k - 1)) by (destruct k as [|k']; [lia|]; cbn [seq app]; now rewrite Nat.sub_succ, Nat.sub_0_r).
    assert (Cl : forall js, List.length js <= List.length is -> cluster F env (trunc_of flag) 1 k js = cluster F env (fun _ => true) 1 k js) by (intros js L; apply cluster_all; [exact Hr|lia]).
    assert (Z : forall a b, cluster F env (fun _ => true) 1 k [] a b = kzero F) by reflexivity.
    unfold w_value, disconnected_value. destruct (flag "ansatz.VE_MIXED"%string); [|destruct (flag "ansatz.VECC"%string)].
    - unfold exp_linear, msum. rewrite !map_map, Sq, map_app, ksum_app. cbn [map]. rewrite !ksum_cons, ksum_nil. unfold mscale.
      rewrite !(linear_wsum F A env (trunc_of flag) k) by lia.
      rewrite !(wsum_series _ _ _ _ _ _ _ Cl). rewrite wsum_zero by exact Ne. rewrite wsum_one; [|exact Lb| |exact Z|exact Ne].
      + rewrite (ksum_ext F _ (fun j => kmul F (one_over F (fact j)) (power_linear F A (cluster F env (fun _ => true) 1 1) (cluster F env (fun _ => true) 2 k) j is a b)) (seq 2 (k - 1))).
        * change (fact 1) with 1. rewrite !over_one. cbv beta. ring.
        * intros j _. rewrite !(linear_wsum F A env _ k) by lia. now rewrite (wsum_series _ _ _ _ _ _ _ Cl).
      + unfold big_parts. destruct (List.length is) as [|[|n]]; reflexivity.
    - unfold series_exp, msum. rewrite !map_map, Sq, map_app, ksum_app. cbn [map]. rewrite !ksum_cons, ksum_nil. unfold mscale.
      rewrite !power_wsum, !(wsum_series _ _ _ _ _ _ _ Cl). rewrite wsum_zero by exact Ne. rewrite wsum_one by (auto; reflexivity).
      rewrite (ksum_ext F _ (fun j => kmul F (one_over F (fact j)) (series_power F A (cluster F env (fun _ => true) 1 k) j is a b)) (seq 2 (k - 1))).
      + change (fact 1) with 1. rewrite !over_one. ring.
      + intros j _. rewrite !power_wsum. now rewrite (wsum_series _ _ _ _ _ _ _ Cl).
    - rewrite (Cl is) by lia. unfold msum. rewrite map_map, (ksum_zero F); [ring|]. intros j _. unfold mscale. ring.
  Qed.
End WithoutConnected.

Section Derivative.
Variable F : scalars.
Add Ring kring3 : (k_ring F).
Lemma w_derivative A (env : string -> array F) flag k is a b : 1 <= k -> List.length is = k -> b < A -> (forall r, 1 <= r <= k -> has_rank (trunc_of flag) r) ->
  dt_kind flag = (if flag "ansatz.VE_MIXED"%string then Kind_mixed else if flag "ansatz.VECC"%string then Kind_CC else Kind_CI) ->
  subtracted_value F A env (dt_kind flag) k is a b =
  kadd F (kmul F (one_over F (fact k)) (mmul F A (at_modes F (env (w_name k)) is) (at_modes F (env "epsilon"%string) []) a b))
    (ksub F (snd (w_value (in_time F) A (env_in_time F env) flag k is a b : with_derivative F)) (kmul F (one_over F (fact k)) (entry (env (dt_amp_name k)) (a :: b :: is)))).
Proof.
  intros Hk Li Lb Hr Kd. unfold subtracted_value. f_equal. rewrite (w_without_connected (in_time F) A (env_in_time F env) flag (dt_kind flag) k is a b Hk Li Lb Hr Kd).
  cbn [kadd kmul one_over in_time]. unfold d_add, d_mul, d_const. cbn [fst snd entry env_in_time].
  unfold dt_amp_name.
  generalize (snd (disconnected_value (in_time F) A (env_in_time F env) (dt_kind flag) k is a b : with_derivative F)). intros u. cbn in u |- *.
  ring.
Qed.
End Derivative.
