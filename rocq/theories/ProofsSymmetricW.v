(** Proofs about the W operators after symmetrisation. *)
From Coq Require Import List Arith Bool Ascii String Ring_theory Ring Lia Permutation.
From Verif Require Import PyBase SpecPartitions SpecW SpecDt SpecResidual SpecPython SpecSumText SpecWText SpecDtText SpecEinsum SpecWValue SpecDtValue SpecFullCCValue
  SpecResidualText SpecResidualValue SpecSymmetrizeValue SpecSymmetricW ProofsEinsum ProofsWValue ProofsDtValue ProofsFullCCValue ProofsSymmetrizeValue.
Import ListNotations.
Local Open Scope nat_scope.
Local Open Scope list_scope.

Fixpoint cuts {X} (l : list X) : list (list X * list X) :=
  match l with
  | [] => [([], [])]
  | x :: r => ([], l) :: map (fun uv => (x :: fst uv, snd uv)) (cuts r)
  end.
Lemma cuts_eq {X} (l : list X) : cuts l = map (fun p => (firstn p l, skipn p l)) (seq 0 (S (List.length l))).
Proof.
  induction l as [|x l IH]; [reflexivity|]. cbn [cuts List.length]. rewrite IH, map_map.
  change (seq 0 (S (S (List.length l)))) with (0 :: seq 1 (S (List.length l))). rewrite <- seq_shift. cbn [map]. rewrite !map_map. reflexivity.
Qed.

Section Orders.
  Variable F : scalars.
  Add Ring kring : (k_ring F).
  Notation ksum := (ksum F). Notation "0" := (kzero F). Infix "+" := (kadd F).

  Lemma cuts_insertions {X} (f : list X * list X -> K F) x w :
    ksum (map (fun w' => ksum (map f (cuts w'))) (insertions x w)) =
    ksum (map (fun uv => ksum (map (fun u => f (u, snd uv)) (insertions x (fst uv))) + ksum (map (fun v => f (fst uv, v)) (insertions x (snd uv)))) (cuts w)).
  Proof.
    revert f. induction w as [|y r IH]; intros f.
    - cbn. ring.
    - cbn [insertions map cuts]. rewrite !ksum_cons. cbn [fst snd insertions map]. rewrite !ksum_cons, !ksum_nil, !map_map.
      rewrite (ksum_ext F (fun w' => ksum (map f (cuts (y :: w')))) (fun w' => f ([], y :: w') + ksum (map (fun uv => f (y :: fst uv, snd uv)) (cuts w')))).
      2:{ intros w' _. cbn [cuts map]. rewrite ksum_cons, map_map. reflexivity. }
      rewrite ksum_add, (IH (fun uv => f (y :: fst uv, snd uv))). cbn [fst snd].
      rewrite (ksum_ext F (fun uv => ksum (map (fun u => f (u, snd uv)) (insertions x (y :: fst uv))) + ksum (map (fun v => f (y :: fst uv, v)) (insertions x (snd uv))))
        (fun uv => f (x :: y :: fst uv, snd uv) + (ksum (map (fun u => f (y :: u, snd uv)) (insertions x (fst uv))) + ksum (map (fun v => f (y :: fst uv, v)) (insertions x (snd uv)))))).
      2:{ intros uv _. cbn [insertions map]. rewrite ksum_cons, map_map. ring. }
      rewrite !ksum_add. ring.
  Qed.

  Lemma cuts_orders {X} (l : list X) : forall f : list X * list X -> K F,
    ksum (map (fun w => ksum (map f (cuts w))) (orders_of l)) =
    ksum (map (fun uv => ksum (map (fun u => ksum (map (fun v => f (u, v)) (orders_of (snd uv)))) (orders_of (fst uv)))) (deals l)).
  Proof.
    induction l as [|x l IH]; intros f.
    - cbn. ring.
    - cbn [orders_of deals]. rewrite !ksum_flat_map.
      rewrite (ksum_ext F _ _ _ (fun w _ => cuts_insertions f x w)).
      rewrite (IH (fun uv => ksum (map (fun u => f (u, snd uv)) (insertions x (fst uv))) + ksum (map (fun v => f (fst uv, v)) (insertions x (snd uv))))).
      apply ksum_ext. intros [u v] _. cbn [fst snd map orders_of]. rewrite !ksum_cons, ksum_nil. cbn [fst snd orders_of].
      rewrite (ksum_ext F _ (fun u' => ksum (map (fun v' => ksum (map (fun u0 => f (u0, v')) (insertions x u'))) (orders_of v)) + ksum (map (fun v' => ksum (map (fun v0 => f (u', v0)) (insertions x v'))) (orders_of v))) (orders_of u)).
      2:{ intros u' _. apply ksum_add. }
      rewrite ksum_add, !ksum_flat_map.
      rewrite (ksum_ext F (fun u' => ksum (map (fun v' => ksum (map (fun u0 => f (u0, v')) (insertions x u'))) (orders_of v))) (fun u' => ksum (map (fun u0 => ksum (map (fun v' => f (u0, v')) (orders_of v))) (insertions x u')))).
      2:{ intros u' _. apply (ksum_swap F (fun v' u0 => f (u0, v'))). }
      rewrite (ksum_ext F (fun u' => ksum (map (fun v' => ksum (map (fun v0 => f (u', v0)) (insertions x v'))) (orders_of v))) (fun u' => ksum (map (fun v0 => f (u', v0)) (flat_map (insertions x) (orders_of v))))).
      2:{ intros u' _. symmetry. apply ksum_flat_map. }
      ring.
  Qed.

  Variable A : nat.
  Notation mmul := (mmul F A).

  Definition all_orders (x : tensor_series F) : tensor_series F := fun is a b => ksum (map (fun js => x js a b) (orders_of is)).

  Lemma mmul_sum_l {X} (x : X -> matrix F) (y : matrix F) l a b :
    mmul (fun c d => ksum (map (fun i => x i c d) l)) y a b = ksum (map (fun i => mmul (x i) y a b) l).
  Proof.
    unfold SpecEinsum.mmul, sum_below. rewrite (ksum_ext F _ (fun c => ksum (map (fun i => kmul F (x i a c) (y c b)) l))) by (intros c _; symmetry; apply ksum_scale_r).
    rewrite ksum_swap. reflexivity.
  Qed.
  Lemma mmul_scale_l k (x y : matrix F) a b : mmul (mscale F k x) y a b = kmul F k (mmul x y a b).
  Proof. unfold SpecEinsum.mmul, sum_below, mscale. rewrite <- ksum_scale. apply ksum_ext. intros c _. ring. Qed.

  Lemma all_orders_ext x y is a b : (forall js, Permutation js is -> x js a b = y js a b) -> all_orders x is a b = all_orders y is a b.
  Proof. intros H. apply ksum_ext. intros js I. apply H. now apply in_orders. Qed.

  Lemma all_orders_mul x y is a b : all_orders (series_mul F A x y) is a b = deal_mul F A (all_orders x) (all_orders y) is a b.
  Proof.
    unfold all_orders at 1, series_mul, msum.
    rewrite (ksum_ext F _ (fun js => ksum (map (fun uv => mmul (x (fst uv)) (y (snd uv)) a b) (cuts js)))).
    2:{ intros js _. rewrite cuts_eq, !map_map. reflexivity. }
    rewrite (cuts_orders is (fun uv => mmul (x (fst uv)) (y (snd uv)) a b)). unfold deal_mul, msum. rewrite map_map. apply ksum_ext. intros [u v] _. cbn [fst snd].
    unfold all_orders. rewrite mmul_sum_l. apply ksum_ext. intros u' _. symmetry. apply mmul_sum_r.
  Qed.
  Lemma deal_mul_ext x x' y y' is a b : (forall js a b, x js a b = x' js a b) -> (forall js a b, y js a b = y' js a b) ->
    deal_mul F A x y is a b = deal_mul F A x' y' is a b.
  Proof. intros H H'. unfold deal_mul, msum. rewrite !map_map. apply ksum_ext. intros uv _. apply mmul_ext; intros c; auto. Qed.
  Lemma all_orders_unit is a b : all_orders (unit_series F) is a b = unit_series F is a b.
  Proof.
    destruct is as [|i is]; [unfold all_orders; cbn; ring|]. unfold all_orders. apply ksum_zero. intros js I. apply in_orders in I.
    destruct js; [now apply Permutation_nil in I|reflexivity].
  Qed.
  Lemma all_orders_power x j : forall is a b, all_orders (series_power F A x j) is a b = deal_power F A (all_orders x) j is a b.
  Proof.
    induction j as [|j IH]; intros is a b; cbn [series_power deal_power]; [apply all_orders_unit|]. rewrite all_orders_mul. apply deal_mul_ext; auto.
  Qed.
  Lemma all_orders_linear x y j : forall is a b, all_orders (power_linear F A x y j) is a b = deal_power_linear F A (all_orders x) (all_orders y) j is a b.
  Proof.
    induction j as [|j IH]; intros is a b; cbn [power_linear deal_power_linear]; [apply all_orders_unit|].
    unfold msum. cbn [map]. rewrite !ksum_cons, ksum_nil.
    rewrite <- (deal_mul_ext (all_orders x) _ (all_orders (power_linear F A x y j)) _ is a b (fun _ _ _ => eq_refl) IH), <- all_orders_mul.
    rewrite <- (deal_mul_ext (all_orders y) _ (all_orders (series_power F A x j)) _ is a b (fun _ _ _ => eq_refl) (all_orders_power x j)), <- all_orders_mul.
    unfold all_orders.
    transitivity (ksum (map (fun js => series_mul F A x (power_linear F A x y j) js a b + series_mul F A y (series_power F A x j) js a b) (orders_of is))).
    - apply ksum_ext. intros js _. rewrite !ksum_cons, ksum_nil. ring.
    - rewrite ksum_add. ring.
  Qed.
  Lemma all_orders_weighted (g : nat -> K F) (x : nat -> tensor_series F) l is a b :
    all_orders (fun js => msum F (map (fun j => mscale F (g j) (x j js)) l)) is a b = ksum (map (fun j => kmul F (g j) (all_orders (x j) is a b)) l).
  Proof.
    unfold all_orders, msum, mscale. rewrite (ksum_ext F _ (fun js => ksum (map (fun j => kmul F (g j) (x j js a b)) l))) by (intros js _; now rewrite map_map).
    rewrite ksum_swap. apply ksum_ext. intros j _. apply ksum_scale.
  Qed.
  Lemma all_orders_exp n x is a b : all_orders (series_exp F A n x) is a b = deal_exp F A n (all_orders x) is a b.
  Proof.
    unfold series_exp. rewrite all_orders_weighted. unfold deal_exp, msum, mscale. rewrite map_map. apply ksum_ext. intros j _. now rewrite all_orders_power.
  Qed.
  Lemma all_orders_exp_linear n x y is a b : all_orders (exp_linear F A n x y) is a b = deal_exp_linear F A n (all_orders x) (all_orders y) is a b.
  Proof.
    unfold exp_linear. rewrite all_orders_weighted. unfold deal_exp_linear, msum, mscale. rewrite map_map. apply ksum_ext. intros j _. now rewrite all_orders_linear.
  Qed.
  Lemma deal_power_ext x x' j : (forall js a b, x js a b = x' js a b) -> forall is a b, deal_power F A x j is a b = deal_power F A x' j is a b.
  Proof. intros H. induction j as [|j IH]; intros is a b; cbn [deal_power]; [reflexivity|]. now apply deal_mul_ext. Qed.
  Lemma deal_linear_ext x x' y y' j : (forall js a b, x js a b = x' js a b) -> (forall js a b, y js a b = y' js a b) -> forall is a b,
    deal_power_linear F A x y j is a b = deal_power_linear F A x' y' j is a b.
  Proof.
    intros H H'. induction j as [|j IH]; intros is a b; cbn [deal_power_linear]; [reflexivity|]. unfold msum. cbn [map]. rewrite !ksum_cons, ksum_nil. f_equal; [|f_equal].
    - now apply deal_mul_ext.
    - apply deal_mul_ext; [exact H'|]. now apply deal_power_ext.
  Qed.

  (** The sum over the orders of something symmetric, over the factorial. *)
  Lemma sum_orders_same (f : list nat -> K F) is : (forall js, Permutation js is -> f js = f is) ->
    ksum (map (fun js => kmul F (one_over F (fact (List.length js))) (f js)) (orders_of is)) = f is.
  Proof.
    intros H. rewrite (sum_same F _ (kmul F (one_over F (fact (List.length is))) (f is))).
    - rewrite orders_length. pose proof (over_spec F (fact (List.length is)) (fact_neq_0 _)) as E.
      transitivity (kmul F (kmul F (of_nat F (fact (List.length is))) (one_over F (fact (List.length is)))) (f is)); [ring|]. rewrite E. ring.
    - intros js I. apply in_orders in I. now rewrite (Permutation_length I), H.
  Qed.

  Variable env : string -> array F.
  Lemma all_orders_cluster tr from to is a b : (forall r, 1 <= r <= to -> symmetric F r (env (amp_name r))) ->
    all_orders (cluster F env tr from to) is a b = amplitudes_at F env tr from to is a b.
  Proof.
    intros Sy. unfold all_orders. 
    destruct (Nat.leb 1 (List.length is) && Nat.leb from (List.length is) && Nat.leb (List.length is) to && tr (rank_name (List.length is)))%bool eqn:E.
    - unfold amplitudes_at. rewrite E. etransitivity; [|apply (sum_orders_same (fun js => SpecEinsum.entry (env (amp_name (List.length is))) (a :: b :: js)) is)].
      + apply ksum_ext. intros js I. apply in_orders in I. unfold cluster. rewrite (Permutation_length I), E. reflexivity.
      + intros js P. apply Sy; [|reflexivity|exact P]. apply andb_prop in E as [E _]. apply andb_prop in E as [E L]. apply andb_prop in E as [L' _].
        apply Nat.leb_le in L. apply Nat.leb_le in L'. lia.
    - unfold amplitudes_at. rewrite E. apply ksum_zero. intros js I. apply in_orders in I. unfold cluster. now rewrite (Permutation_length I), E.
  Qed.

  Lemma all_orders_w flag k is a b : 1 <= k -> (forall r, 1 <= r <= k -> symmetric F r (env (amp_name r))) ->
    all_orders (w_value F A env flag k) is a b = w_symmetric F A env flag k is a b.
  Proof.
    intros Hk Sy. assert (S1 : forall r, 1 <= r <= 1 -> symmetric F r (env (amp_name r))) by (intros r L; apply Sy; lia).
    unfold w_value, w_symmetric. destruct (flag "ansatz.VE_MIXED"%string); [|destruct (flag "ansatz.VECC"%string)].
    - rewrite all_orders_exp_linear. unfold deal_exp_linear, msum, mscale. rewrite !map_map. apply ksum_ext. intros j _. f_equal.
      apply deal_linear_ext; intros js c d; apply all_orders_cluster; assumption.
    - rewrite all_orders_exp. unfold deal_exp, msum, mscale. rewrite !map_map. apply ksum_ext. intros j _. f_equal.
      apply deal_power_ext; intros js c d; apply all_orders_cluster; assumption.
    - now apply all_orders_cluster.
  Qed.
  Lemma all_orders_symmetric x is js a b : Permutation js is -> all_orders x js a b = all_orders x is a b.
  Proof. intros P. apply ksum_perm. apply Permutation_map. now apply orders_perm. Qed.
End Orders.
