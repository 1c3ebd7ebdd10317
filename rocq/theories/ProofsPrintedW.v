(** Proofs: the typeset equations of the W operators and the generated functions
    compute the same numbers. *)
From Coq Require Import List Arith Bool Ascii String Ring_theory Ring Lia Permutation Sorted.
From Verif Require Import PyBase PyBaseFacts SpecPartitions SpecW SpecLatexW SpecTexW SpecPython SpecSumText SpecWText SpecEinsum SpecWValue SpecFullCCValue SpecSymmetrizeValue SpecSymmetricW SpecPrintedW
  ModelHelper ModelW ModelLatexW ProofsHelper ProofsEinsum ProofsWValue ProofsDtValue ProofsFullCCValue ProofsSymmetrizeValue ProofsSymmetricW ProofsMotion ProofsTex ProofsTexGround.
Import ListNotations.
Local Open Scope nat_scope.
Local Open Scope list_scope.

Section Printed.
  Variable F : scalars.
  Add Ring kring : (k_ring F).
  Notation ksum := (ksum F).

  (** ** Dealing to three *)
  Lemma deals_sum {X} (f : list X * list X -> K F) x l :
    ksum (map f (deals (x :: l))) = kadd F (ksum (map (fun uv => f (x :: fst uv, snd uv)) (deals l))) (ksum (map (fun uv => f (fst uv, x :: snd uv)) (deals l))).
  Proof.
    cbn [deals]. rewrite ksum_flat_map, <- ksum_add. apply ksum_ext. intros uv _. cbn [map]. unfold SpecEinsum.ksum. cbn [fold_right]. ring.
  Qed.
  Lemma deals_swap {X} (l : list X) : forall g : list X -> list X -> list X -> K F,
    ksum (map (fun uv => ksum (map (fun ab => g (fst uv) (fst ab) (snd ab)) (deals (snd uv)))) (deals l)) =
    ksum (map (fun uv => ksum (map (fun ab => g (fst ab) (fst uv) (snd ab)) (deals (snd uv)))) (deals l)).
  Proof.
    induction l as [|x l IH]; intros g; [reflexivity|]. rewrite !deals_sum. cbn [fst snd].
    rewrite (ksum_ext F _ _ _ (fun uv _ => deals_sum (fun ab => g (fst uv) (fst ab) (snd ab)) x (snd uv))).
    rewrite (ksum_ext F (fun uv => ksum (map (fun ab => g (fst ab) (fst uv) (snd ab)) (deals (x :: snd uv)))) _ _ (fun uv _ => deals_sum (fun ab => g (fst ab) (fst uv) (snd ab)) x (snd uv))).
    rewrite !ksum_add. cbn [fst snd].
    rewrite (IH (fun u => g (x :: u))), (IH (fun u v => g u (x :: v))), (IH (fun u v w => g u v (x :: w))). ring.
  Qed.
  Lemma deals_length {X} (l : list X) u v : In (u, v) (deals l) -> List.length u + List.length v = List.length l.
  Proof.
    revert u v. induction l as [|x l IH]; intros u v I; [destruct I as [[= <- <-]|[]]; reflexivity|]. cbn [deals] in I. apply in_flat_map in I as ([u' v'] & I & J). specialize (IH _ _ I).
    destruct J as [[= <- <-]|[[= <- <-]|[]]]; cbn; lia.
  Qed.

  Variable A : nat.
  Notation mmul := (mmul F A).
  Lemma mmul_in (x x' y y' : matrix F) a b : (forall c, c < A -> x a c = x' a c) -> (forall c, c < A -> y c b = y' c b) -> mmul x y a b = mmul x' y' a b.
  Proof. intros H H'. apply sum_below_ext. intros c L. now rewrite H, H'. Qed.
  Lemma mmul_assoc (x y z : matrix F) a b : mmul x (mmul y z) a b = mmul (mmul x y) z a b.
  Proof.
    unfold SpecEinsum.mmul, sum_below. rewrite (ksum_ext F _ (fun c => ksum (map (fun d => kmul F (x a c) (kmul F (y c d) (z d b))) (seq 0 A)))) by (intros c _; symmetry; apply ksum_scale).
    rewrite ksum_swap. apply ksum_ext. intros d _. rewrite <- ksum_scale_r. apply ksum_ext. intros c _. ring.
  Qed.

  (** ** Products dealt out *)
  Variable T : tensor_series F.
  Definition only (r : nat) : tensor_series F := fun u => if Nat.eqb (List.length u) r then T u else fun _ _ => kzero F.
  Fixpoint dist (c : list nat) : tensor_series F :=
    match c with [] => unit_series F | r :: c' => deal_mul F A (only r) (dist c') end.

  Lemma power_dist j : forall is a b, deal_power F A T j is a b = ksum (map (fun c => dist c is a b) (comps j (List.length is))).
  Proof.
    induction j as [|j IH]; intros is a b.
    - cbn [deal_power comps]. destruct is as [|i is]; cbn; [unfold SpecEinsum.ksum; cbn; ring|reflexivity].
    - cbn [deal_power comps]. rewrite ksum_flat_map.
      rewrite (ksum_ext F _ (fun p => ksum (map (fun uv => ksum (map (fun c => mmul (only p (fst uv)) (dist c (snd uv)) a b) (comps j (List.length is - p)))) (deals is)))).
      2:{ intros p _. rewrite map_map, ksum_swap. apply ksum_ext. intros c _. cbn [dist]. unfold deal_mul, msum. rewrite map_map. reflexivity. }
      rewrite ksum_swap. unfold deal_mul at 1, msum. rewrite map_map. apply ksum_ext. intros [u v] I. cbn [fst snd]. pose proof (deals_length is u v I) as Lu.
      change (mmul (T u) (deal_power F A T j v) a b = sum_below F (S (List.length is)) (fun p => ksum (map (fun c => mmul (only p u) (dist c v) a b) (comps j (List.length is - p))))).
      rewrite (ksum_single F _ _ (List.length u)); [|lia|].
      + unfold only. rewrite Nat.eqb_refl. replace (List.length is - List.length u) with (List.length v) by lia.
        rewrite <- mmul_sum_r. apply mmul_ext; [reflexivity|]. intros c. apply IH.
      + intros p _ Np. apply ksum_zero. intros c _. apply mmul_zero_l. intros d. unfold only. destruct (Nat.eqb_spec (List.length u) p); [congruence|reflexivity].
  Qed.

  Hypothesis T_commutes : forall u v a b, a < A -> b < A -> mmul (T u) (T v) a b = mmul (T v) (T u) a b.
  Hypothesis T_empty : forall a b, T [] a b = kzero F.

  Lemma only_commutes r s u v a b : a < A -> b < A -> mmul (only r u) (only s v) a b = mmul (only s v) (only r u) a b.
  Proof.
    intros La Lb. unfold only. destruct (Nat.eqb (List.length u) r).
    - destruct (Nat.eqb (List.length v) s); [now apply T_commutes|]. rewrite (mmul_zero_r F A (T u)), (mmul_zero_l F A _ (T u)) by reflexivity. reflexivity.
    - set (y := if Nat.eqb (List.length v) s then T v else fun _ _ => kzero F). rewrite (mmul_zero_l F A _ y), (mmul_zero_r F A y) by reflexivity. reflexivity.
  Qed.
  Lemma dist_swap r s c is a b : a < A -> b < A -> dist (r :: s :: c) is a b = dist (s :: r :: c) is a b.
  Proof.
    intros La Lb. cbn [dist]. unfold deal_mul at 1 3, msum. rewrite !map_map.
    assert (E : forall r s, ksum (map (fun uv => mmul (only r (fst uv)) (deal_mul F A (only s) (dist c) (snd uv)) a b) (deals is)) =
      ksum (map (fun uv => ksum (map (fun xy => mmul (only r (fst uv)) (mmul (only s (fst xy)) (dist c (snd xy))) a b) (deals (snd uv)))) (deals is))).
    { intros r' s'. apply ksum_ext. intros uv _. rewrite <- mmul_sum_r. apply mmul_ext; [reflexivity|]. intros d. unfold deal_mul, msum. now rewrite map_map. }
    rewrite !E, (deals_swap is (fun x y z => mmul (only s x) (mmul (only r y) (dist c z)) a b)). apply ksum_ext. intros uv _. apply ksum_ext. intros xy _.
    rewrite !mmul_assoc. apply mmul_in; [|reflexivity]. intros d Ld. now apply only_commutes.
  Qed.
  Lemma dist_perm c c' : Permutation c c' -> forall is a b, a < A -> b < A -> dist c is a b = dist c' is a b.
  Proof.
    induction 1 as [|r c c' P IH|r s c|c c' c'' P IH P' IH']; intros is a b La Lb; [reflexivity| |now apply dist_swap|now rewrite IH, IH'].
    cbn [dist]. unfold deal_mul, msum. rewrite !map_map. apply ksum_ext. intros uv _. apply mmul_in; [reflexivity|]. intros d Ld. now apply IH.
  Qed.
  Lemma dist_zero c : In 0 c -> forall is a b, dist c is a b = kzero F.
  Proof.
    induction c as [|r c IH]; intros I is a b; [contradiction|]. cbn [dist]. unfold deal_mul, msum. rewrite map_map. apply ksum_zero. intros uv _. destruct I as [->|I].
    - apply mmul_zero_l. intros d. unfold only. destruct (fst uv); [apply T_empty|reflexivity].
    - apply mmul_zero_r. intros d. now apply IH.
  Qed.

  (** ** Compositions grouped by partitions *)
  Definition positive (c : list nat) : bool := forallb (Nat.leb 1) c.
  Definition ordered (k : nat) : list (list nat) := filter positive (flat_map (fun j => comps j k) (seq 0 (S k))).
  Lemma positive_iff c : positive c = true <-> Forall (fun x => 1 <= x) c.
  Proof. unfold positive. rewrite forallb_forall, Forall_forall. split; intros H x I; apply Nat.leb_le, H, I. Qed.
  Lemma positive_short c : Forall (fun x => 1 <= x) c -> List.length c <= fold_right Nat.add 0 c.
  Proof. induction 1; cbn; lia. Qed.
  Lemma in_ordered k c : In c (ordered k) <-> composition_of k c.
  Proof.
    unfold ordered. rewrite filter_In, positive_iff, in_flat_map. split.
    - intros [(j & _ & I) P]. apply comps_iff in I as [_ E]. now split.
    - intros [P E]. split; [|exact P]. exists (List.length c). split; [|now apply comps_iff]. apply in_seq. pose proof (positive_short c P). lia.
  Qed.
  Lemma nodup_ordered k : NoDup (ordered k).
  Proof.
    apply NoDup_filter, nodup_flat_map; [apply seq_NoDup|intros; apply comps_nodup|]. intros j j' c _ _ I I'. apply comps_iff in I as [<- _]. now apply comps_iff in I' as [-> _].
  Qed.
  Definition key (c : list nat) : list nat := isort geb c.
  Definition same (p c : list nat) : bool := if list_eq_dec Nat.eq_dec (key c) p then true else false.

  Lemma ksum_pick {X} (dec : forall x y : X, {x = y} + {x <> y}) (v : K F) x l : NoDup l -> In x l -> ksum (map (fun y => if dec x y then v else kzero F) l) = v.
  Proof.
    induction 1 as [|y l Ny Nl IH]; intros I; [contradiction|]. cbn [map]. rewrite ksum_cons. destruct (dec x y) as [->|Ne].
    - rewrite ksum_zero; [ring|]. intros z Iz. destruct (dec y z) as [->|]; [contradiction|reflexivity].
    - destruct I as [->|I]; [contradiction|]. rewrite IH by exact I. ring.
  Qed.
  Lemma grouped (g : list nat -> K F) k ps : NoDup ps -> (forall p, In p ps <-> partition_of k p) ->
    ksum (map g (ordered k)) = ksum (map (fun p => ksum (map g (filter (same p) (ordered k)))) ps).
  Proof.
    intros Nd Ps. rewrite (ksum_ext F (fun p => ksum (map g (filter (same p) (ordered k)))) (fun p => ksum (map (fun c => if list_eq_dec Nat.eq_dec (key c) p then g c else kzero F) (ordered k)))).
    - rewrite ksum_swap. apply ksum_ext. intros c I. symmetry. apply (ksum_pick (list_eq_dec Nat.eq_dec)); [exact Nd|]. apply Ps, isort_geb_partition, in_ordered, I.
    - intros p _. symmetry. rewrite (ksum_filter F _ (same p)).
      + apply ksum_ext. intros c I. apply filter_In in I as [_ S]. unfold same in S. now destruct (list_eq_dec Nat.eq_dec (key c) p).
      + intros c _ S. unfold same in S. now destruct (list_eq_dec Nat.eq_dec (key c) p).
  Qed.
  Lemma same_iff k p c : partition_of k p -> In c (filter (same p) (ordered k)) <-> Permutation c p.
  Proof.
    intros Pp. rewrite filter_In, in_ordered. unfold same, key. destruct (list_eq_dec Nat.eq_dec (isort geb c) p) as [E|E]; split.
    - intros _. rewrite <- E. apply isort_perm.
    - intros P. split; [|reflexivity]. destruct Pp as [[Po Su] _]. split; [eapply Permutation_Forall; [symmetry; exact P|exact Po]|].
      rewrite <- Su. clear -P. induction P; cbn in *; lia.
    - intros [_ X]. discriminate X.
    - intros P. exfalso. apply E. rewrite <- (partition_isort k p Pp). now apply isort_ext; [apply geb_total|apply geb_trans|apply geb_antisym|].
  Qed.

  Lemma of_nat_sum {X} (v : K F) (l : list X) : ksum (map (fun _ => v) l) = kmul F (of_nat F (List.length l)) v.
  Proof. induction l as [|x l IH]; [unfold of_nat; cbn; ring|]. cbn [map List.length]. rewrite ksum_cons, IH, of_nat_S. ring. Qed.

  Lemma exp_dist k ps is a b : NoDup ps -> (forall p, In p ps <-> partition_of k p) -> List.length is = k -> a < A -> b < A ->
    forall den, (forall p, In p ps -> orderings_over_factorial p (den p)) ->
    deal_exp F A k T is a b = ksum (map (fun p => kmul F (one_over F (den p)) (dist p is a b)) ps).
  Proof.
    intros Nd Ps Li La Lb den Hd. unfold deal_exp, msum, mscale. rewrite map_map.
    rewrite (ksum_ext F _ (fun j => ksum (map (fun c => kmul F (one_over F (fact (List.length c))) (dist c is a b)) (comps j k)))).
    2:{ intros j _. rewrite power_dist, Li, <- ksum_scale. apply ksum_ext. intros c I. apply comps_iff in I as [-> _]. reflexivity. }
    rewrite <- (ksum_flat_map F (fun c => kmul F (one_over F (fact (List.length c))) (dist c is a b)) (fun j => comps j k)).
    rewrite (ksum_filter F _ positive).
    2:{ intros c _ P. rewrite dist_zero; [ring|]. clear -P. induction c as [|x c IH]; [discriminate P|]. cbn in P. destruct x; [now left|right; now apply IH]. }
    change (filter positive _) with (ordered k). rewrite (grouped _ k ps Nd Ps). apply ksum_ext. intros p I. pose proof (proj1 (Ps p) I) as Pp.
    rewrite (ksum_ext F _ (fun _ => kmul F (one_over F (fact (List.length p))) (dist p is a b))).
    - rewrite of_nat_sum. assert (E := Hd p I (filter (same p) (ordered k)) (NoDup_filter _ (nodup_ordered k)) (fun c => same_iff k p c Pp)).
      rewrite fact_eq in E. rewrite <- E. set (n := List.length (filter (same p) (ordered k))) in *.
      assert (n <> 0 /\ den p <> 0) as [N1 N2] by (pose proof (fact_neq_0 (List.length p)); nia).
      rewrite over_mul by assumption. transitivity (kmul F (kmul F (of_nat F n) (one_over F n)) (kmul F (one_over F (den p)) (dist p is a b))); [ring|].
      rewrite over_spec by exact N1. ring.
    - intros c J. apply (same_iff k p c Pp) in J. now rewrite (Permutation_length J), (dist_perm c p J is a b La Lb).
  Qed.
End Printed.

Section PrintedW.
  Variable F : scalars.
  Add Ring kring2 : (k_ring F).
  Variable A : nat.
  Variable env : string -> array F.
  Variable tr : string -> bool.
  Variable k : nat.
  Notation T := (amplitudes_at F env tr 1 k).

  Lemma amplitudes_in u : 1 <= List.length u <= k -> T u = printed_amplitude F env tr (List.length u) u.
  Proof.
    intros [L1 L2]. unfold amplitudes_at, printed_amplitude. apply Nat.leb_le in L2. rewrite L2. apply Nat.leb_le in L1. rewrite L1. reflexivity.
  Qed.
  Lemma amplitudes_out u : ~ 1 <= List.length u <= k -> T u = fun _ _ => kzero F.
  Proof.
    intros L. unfold amplitudes_at. destruct (Nat.leb_spec 1 (List.length u)); [|reflexivity]. destruct (Nat.leb_spec (List.length u) k); [|now rewrite andb_false_r]. exfalso. apply L. lia.
  Qed.
  Lemma amplitudes_commuting : amplitudes_commute F A env k -> forall u v a b, a < A -> b < A -> mmul F A (T u) (T v) a b = mmul F A (T v) (T u) a b.
  Proof.
    intros C u v a b La Lb. assert (D : forall w : list nat, 1 <= List.length w <= k \/ ~ 1 <= List.length w <= k) by (intros; lia).
    destruct (D u) as [Lu|Lu]; [destruct (D v) as [Lv|Lv]|].
    - rewrite !amplitudes_in by assumption. unfold printed_amplitude. destruct (tr (rank_name (List.length u))).
      + destruct (tr (rank_name (List.length v))); [now apply C|]. rewrite (mmul_zero_r F A (at_modes F _ u)), (mmul_zero_l F A _ (at_modes F _ u)) by reflexivity. reflexivity.
      + set (y := if tr (rank_name (List.length v)) then _ else _). rewrite (mmul_zero_l F A _ y), (mmul_zero_r F A y) by reflexivity. reflexivity.
    - rewrite (amplitudes_out v Lv). rewrite (mmul_zero_r F A (T u)), (mmul_zero_l F A _ (T u)) by reflexivity. reflexivity.
    - rewrite (amplitudes_out u Lu). rewrite (mmul_zero_l F A _ (T v)), (mmul_zero_r F A (T v)) by reflexivity. reflexivity.
  Qed.
  Lemma dealt_dist c : Forall (fun r => 1 <= r <= k) c -> forall is a b, dealt_product F A env tr c is a b = dist F A T c is a b.
  Proof.
    induction 1 as [|r c R _ IH]; intros is a b; [reflexivity|]. cbn [dealt_product dist]. unfold deal_mul, msum. rewrite !map_map.
    rewrite (ksum_filter F (fun uv => mmul F A (only F T r (fst uv)) (dist F A T c (snd uv)) a b) (fun uv => Nat.eqb (List.length (fst uv)) r)).
    - apply ksum_ext. intros uv I. apply filter_In in I as [_ E]. apply mmul_ext; intros d; [|apply IH]. unfold only. rewrite E. apply Nat.eqb_eq in E. now rewrite amplitudes_in, E by lia.
    - intros uv _ E. apply mmul_zero_l. intros d. unfold only. now rewrite E.
  Qed.

  Lemma ksum_forall2 {X Y} (P : X -> Y -> Prop) (f : X -> K F) (g : Y -> K F) l l' : Forall2 P l l' -> (forall x y, In x l -> P x y -> f x = g y) -> ksum F (map f l) = ksum F (map g l').
  Proof.
    induction 1 as [|x y l l' Pxy _ IH]; intros E; [reflexivity|]. cbn [map]. rewrite !ksum_cons, (E x y) by (now left || exact Pxy). rewrite IH; [reflexivity|]. intros u v I. apply E. now right.
  Qed.
  Lemma dens {X} (P : list nat -> X -> Prop) (den : X -> nat) ps l : NoDup ps -> Forall2 P ps l ->
    exists d, Forall2 (fun p x => P p x /\ d p = den x) ps l.
  Proof.
    intros Nd H. induction H as [|p x ps l Px _ IH]; [exists (fun _ => 0); constructor|]. inversion Nd as [|? ? Np Nps]; subst. destruct (IH Nps) as (d & D).
    exists (fun q => if list_eq_dec Nat.eq_dec q p then den x else d q). constructor.
    - split; [exact Px|]. now destruct (list_eq_dec Nat.eq_dec p p).
    - clear -D Np. induction D as [|q y ps l [Py E] _ IH]; constructor.
      + split; [exact Py|]. destruct (list_eq_dec Nat.eq_dec q p) as [->|]; [exfalso; apply Np; now left|exact E].
      + apply IH. intros I. apply Np. now right.
  Qed.
  Lemma forall2_in {X Y} (P : X -> Y -> Prop) l l' : Forall2 P l l' -> forall x, In x l -> exists y, P x y.
  Proof. induction 1 as [|x y l l' Pxy _ IH]; intros z I; [contradiction|]. destruct I as [<-|I]; eauto. Qed.
  Lemma parts_small n p : composition_of n p -> Forall (fun r => 1 <= r <= n) p.
  Proof.
    intros [Po Su]. rewrite Forall_forall in *. intros x I. split; [now apply Po|]. subst n. clear Po. induction p as [|y p IH]; [contradiction|]. cbn. destruct I as [->|I]; [lia|]. specialize (IH I). lia.
  Qed.

  Lemma printed_exp ps products is a b : amplitudes_commute F A env k -> NoDup ps -> (forall p, In p ps <-> partition_of k p) ->
    Forall2 (fun p pr => written_with_powers (map (fun r => (r, 0)) p) (snd pr) /\ orderings_over_factorial p (product_of_factorials (fst pr))) ps products ->
    List.length is = k -> a < A -> b < A ->
    printed_sum F A env tr products is a b = deal_exp F A k T is a b.
  Proof.
    intros C Nd Ps H Li La Lb. destruct (dens _ (fun pr => product_of_factorials (fst pr)) ps products Nd H) as (d & D).
    rewrite (exp_dist F A T (amplitudes_commuting C)) with (ps := ps) (den := d).
    - unfold printed_sum, msum, mscale. rewrite map_map. symmetry. apply (ksum_forall2 _ _ _ _ _ D). intros p pr I [[[_ [_ W]] _] E]. rewrite E. f_equal.
      assert (W' : Permutation p (map fst (multiply_out (snd pr)))) by (apply (Permutation_map fst) in W; rewrite map_map, map_id in W; now symmetry).
      pose proof (parts_small k p (proj1 (proj1 (Ps p) I))) as Sm.
      rewrite dealt_dist by (eapply Permutation_Forall; [exact W'|exact Sm]). apply (dist_perm F A T (amplitudes_commuting C)); assumption.
    - intros c e. unfold amplitudes_at. reflexivity.
    - exact Nd.
    - exact Ps.
    - exact Li.
    - exact La.
    - exact Lb.
    - intros p I. destruct (forall2_in _ _ _ D p I) as (pr & [_ O] & E). now rewrite E.
  Qed.
End PrintedW.

Lemma forall2_nth {X Y} (P : X -> Y -> Prop) l l' i x : Forall2 P l l' -> nth_error l i = Some x -> exists y, nth_error l' i = Some y /\ P x y.
Proof. intros H. revert i. induction H as [|u v l l' Puv _ IH]; intros [|i] E; try discriminate E; [injection E as <-; now exists v|now apply IH]. Qed.

(** The row of order k of the typeset equations. *)
Lemma printed_row so max eqs k : set_order so -> w_equations (ground_state_w_equations_latex so max) eqs -> 1 <= k <= max ->
  exists products, nth_error eqs k = Some (k, if Nat.eqb k 1 then Sum products else Symmetrised products) /\
    forall (F : scalars) A env flag is a b, flag "ansatz.VE_MIXED"%string = false -> flag "ansatz.VECC"%string = true -> amplitudes_commute F A env k ->
      List.length is = k -> a < A -> b < A ->
      printed_sum F A env (trunc_of flag) products is a b = w_symmetric F A env flag k is a b.
Proof.
  intros So E Hk. assert (M9 : max <= 9) by (apply (ground_typeset_iff so max So); eauto). destruct (ground_typeset so max So M9) as (rows & W & R).
  rewrite (w_equations_unique _ _ _ E W). assert (S : nth_error (seq 1 max) (k - 1) = Some k) by (rewrite (nth_error_nth' _ 0) by (rewrite seq_length; lia); rewrite seq_nth by lia; f_equal; lia).
  destruct (forall2_nth _ _ _ _ _ R S) as (row & Er & ps & products & -> & Nd & Ps & Fp). exists products. split.
  - destruct k as [|k']; [lia|]. cbn [nth_error]. rewrite <- Er. f_equal. lia.
  - intros F A env flag is a b V1 V2 C Li La Lb. unfold w_symmetric. rewrite V1, V2. now apply (printed_exp F A env (trunc_of flag) k ps).
Qed.

Lemma printed_file so max eqs so' M text prog flag k (F : scalars) A N (env : string -> array F) : set_order so -> set_order so' ->
  w_equations (ground_state_w_equations_latex so max) eqs ->
  generate_w_operator_equations_file so' M = Ok text -> python text prog ->
  level_truncation (trunc_of flag) -> flag "ansatz.VE_MIXED"%string = false -> flag "ansatz.VECC"%string = true -> 1 <= k <= max -> k <= M ->
  amplitude_axes F A N env -> (forall r, 1 <= r <= k -> symmetric F r (env (amp_name r))) -> amplitudes_commute F A env k ->
  exists l products, w_adds prog flag k false (fun _ => []) l /\ Forall (fun dp => product_accepted F env (snd dp)) l /\
    nth_error eqs k = Some (k, if Nat.eqb k 1 then Sum products else Symmetrised products) /\
    forall a b is, a < A -> b < A -> List.length is = k ->
      ksum F (map (fun js => SpecWValue.added F env l (a :: b :: js)) (orders_of is)) = printed_sum F A env (trunc_of flag) products is a b.
Proof.
  intros So So' E G P Lt V1 V2 Hk HM Ax Sy C. destruct (w_file_symmetric so' M text prog flag k F A N env So' G P Lt ltac:(lia) Ax Sy) as (l & L1 & L2 & L3).
  destruct (printed_row so max eqs k So E Hk) as (products & R & V). exists l, products. split; [exact L1|]. split; [exact L2|]. split; [exact R|].
  intros a b is La Lb Li. rewrite (L3 a b is Lb Li). symmetry. now apply V.
Qed.
Lemma printed_file_optimized so max eqs so' M text prog flag (F : scalars) A N (env : string -> array F) : set_order so -> set_order so' ->
  w_equations (ground_state_w_equations_latex so max) eqs ->
  generate_w_operator_equations_file so' M = Ok text -> python text prog ->
  level_truncation (trunc_of flag) -> negations flag -> flag "ansatz.VE_MIXED"%string = false -> flag "ansatz.VECC"%string = true -> amplitude_axes F A N env ->
  exists vx vc, returns_paths prog flag "vemx" vx /\ returns_paths prog flag "vecc" vc /\
    forall k, 1 <= k <= max -> k <= M -> (forall r, 1 <= r <= k -> symmetric F r (env (amp_name r))) -> amplitudes_commute F A env k ->
      exists px pc l products, nth_error vx (k - 1) = Some px /\ nth_error vc (k - 1) = Some pc /\
        w_adds prog flag k true (choose px pc) l /\ Forall (fun dp => product_accepted F env (snd dp)) l /\
        nth_error eqs k = Some (k, if Nat.eqb k 1 then Sum products else Symmetrised products) /\
        forall a b is, a < A -> b < A -> List.length is = k ->
          ksum F (map (fun js => SpecWValue.added F env l (a :: b :: js)) (orders_of is)) = printed_sum F A env (trunc_of flag) products is a b.
Proof.
  intros So So' E G P Lt Ng V1 V2 Ax. destruct (w_file_symmetric_optimized so' M text prog flag F A N env So' G P Lt Ng Ax) as (vx & vc & R1 & R2 & V).
  exists vx, vc. split; [exact R1|]. split; [exact R2|]. intros k Hk HM Sy C. destruct (V k ltac:(lia) Sy) as (px & pc & l & E1 & E2 & L1 & L2 & L3).
  destruct (printed_row so max eqs k So E Hk) as (products & R & W). exists px, pc, l, products. do 5 (split; [assumption|]).
  intros a b is La Lb Li. rewrite (L3 a b is Lb Li). symmetry. now apply W.
Qed.
