(** Proofs about the equation of motion of the W operators. *)
From Coq Require Import List Arith Bool Ascii String Ring_theory Ring Lia Permutation.
From Verif Require Import PyBase SpecPartitions SpecW SpecDt SpecResidual SpecPython SpecEtText SpecSumText SpecWText SpecDtText SpecEinsum SpecWValue SpecDtValue SpecFullCCValue
  SpecResidualText SpecResidualValue SpecSymmetrize SpecSymmetrizeValue SpecSymmetricW ModelHelper ModelW ModelDt ModelResidual ModelSymmetrize
  ProofsEinsum ProofsWValue ProofsDtValue ProofsFullCCValue ProofsResidualText ProofsResidualValue ProofsSymmetrizeValue ProofsSymmetricW.
Import ListNotations.
Local Open Scope nat_scope.
Local Open Scope list_scope.

Section Acts.
  Variable F : scalars.
  Add Ring kring : (k_ring F).
  Variables A N : nat.
  Variable env : string -> array F.

  Lemma sum_modes_ksum {X} (l : list X) n : forall g : X -> list nat -> K F,
    ksum F (map (fun x => sum_modes F N n (g x)) l) = sum_modes F N n (fun s => ksum F (map (fun x => g x s) l)).
  Proof.
    induction n as [|n IH]; intros g; cbn [sum_modes]; [reflexivity|]. unfold sum_below. rewrite ksum_swap. apply ksum_ext. intros i _. apply (IH (fun x r => g x (i :: r))).
  Qed.
  Lemma sum_modes_scale c n : forall g : list nat -> K F, sum_modes F N n (fun s => kmul F c (g s)) = kmul F c (sum_modes F N n g).
  Proof.
    induction n as [|n IH]; intros g; cbn [sum_modes]; [reflexivity|]. unfold sum_below. rewrite <- ksum_scale. apply ksum_ext. intros i _. apply IH.
  Qed.

  (** Both factors symmetric: the orders of the modes are the ways to deal them out. *)
  Lemma cut_orders (H W : list nat -> matrix F) m is a b : m <= List.length is ->
    (forall u u' a b, List.length u = m -> Permutation u' u -> H u' a b = H u a b) ->
    (forall v v' a b, List.length v = List.length is - m -> Permutation v' v -> W v' a b = W v a b) ->
    ksum F (map (fun js => kmul F (one_over F (fact (List.length is - m) * fact m)) (mmul F A (H (firstn m js)) (W (skipn m js)) a b)) (orders_of is)) =
    ksum F (map (fun uv => mmul F A (H (fst uv)) (W (snd uv)) a b) (filter (fun uv => Nat.eqb (List.length (fst uv)) m) (deals is))).
  Proof.
    intros Hm SH SW. set (p := List.length is).
    pose (X := fun u : list nat => if Nat.eqb (List.length u) m then mscale F (one_over F (fact (List.length u))) (H u) else fun _ _ => kzero F).
    pose (Y := fun v : list nat => if Nat.eqb (List.length v) (p - m) then mscale F (one_over F (fact (List.length v))) (W v) else fun _ _ => kzero F).
    transitivity (all_orders F (series_mul F A X Y) is a b).
    - apply ksum_ext. intros js I. apply in_orders in I. apply Permutation_length in I. fold p in I.
      unfold series_mul, msum. rewrite map_map.
      change (ksum F (map (fun q => mmul F A (X (firstn q js)) (Y (skipn q js)) a b) (seq 0 (S (List.length js))))) with
        (sum_below F (S (List.length js)) (fun q => mmul F A (X (firstn q js)) (Y (skipn q js)) a b)).
      rewrite (ksum_single F _ _ m).
      + unfold X, Y. rewrite firstn_length_le, skipn_length, I, !Nat.eqb_refl by (unfold p in *; lia).
        rewrite over_mul by apply fact_neq_0. unfold mmul, sum_below. rewrite <- ksum_scale. apply ksum_ext. intros c _. unfold mscale. ring.
      + unfold p in *. lia.
      + intros q Lq Nq. apply mmul_zero_l. intros c. unfold X. rewrite firstn_length_le by lia. destruct (Nat.eqb_spec q m); [contradiction|reflexivity].
    - rewrite all_orders_mul. unfold deal_mul, msum. rewrite map_map.
      assert (Dl : forall uv, In uv (deals is) -> List.length (fst uv) + List.length (snd uv) = p).
      { unfold p. clear. induction is as [|x is IH]; cbn; [intros uv [<-|[]]; reflexivity|]. intros uv I. apply in_flat_map in I as ([u v] & I1 & I2). apply IH in I1. cbn in I1, I2.
        destruct I2 as [<-|[<-|[]]]; cbn; lia. }
      assert (AX : forall u c, all_orders F X u a c = (if Nat.eqb (List.length u) m then H u a c else kzero F)).
      { intros u c. unfold all_orders. destruct (Nat.eqb_spec (List.length u) m) as [E|E].
        - etransitivity; [|apply (sum_orders_same F (fun js => H js a c) u)].
          + apply ksum_ext. intros js I. apply in_orders in I. apply Permutation_length in I. unfold X. rewrite I, E, Nat.eqb_refl. reflexivity.
          + intros js P. now apply SH.
        - apply ksum_zero. intros js I. apply in_orders in I. apply Permutation_length in I. unfold X. rewrite I. destruct (Nat.eqb_spec (List.length u) m); [contradiction|reflexivity]. }
      assert (AY : forall v c, List.length v = p - m -> all_orders F Y v c b = W v c b).
      { intros v c E. unfold all_orders. etransitivity; [|apply (sum_orders_same F (fun js => W js c b) v)].
        - apply ksum_ext. intros js I. apply in_orders in I. apply Permutation_length in I. unfold Y. rewrite I, E, Nat.eqb_refl. reflexivity.
        - intros js P. now apply SW. }
      rewrite (ksum_filter F _ (fun uv => Nat.eqb (List.length (fst uv)) m)).
      + apply ksum_ext. intros uv I. apply filter_In in I as [I E]. apply Dl in I. apply mmul_ext; intros c; [rewrite AX, E; reflexivity|]. apply AY. apply Nat.eqb_eq in E. lia.
      + intros uv _ E. apply mmul_zero_l. intros c. now rewrite AX, E.
  Qed.

  Lemma w_series_symmetric k v v' a b : (k <> 0 -> symmetric F k (env (w_name k))) -> List.length v = k -> Permutation v' v -> w_series F env v' a b = w_series F env v a b.
  Proof.
    intros Sy L P. pose proof (Permutation_length P) as L'. unfold w_series. destruct v as [|i v]; destruct v' as [|i' v']; try discriminate; [reflexivity|].
    unfold at_modes. rewrite L', L. apply Sy; [cbn in L; lia|exact L|exact P].
  Qed.

  Lemma h_on_w_orders m n is a b : m <= List.length is -> m + n <= 2 -> symmetric_hamiltonian F env ->
    (List.length is - m + n <> 0 -> symmetric F (List.length is - m + n) (env (w_name (List.length is - m + n)))) ->
    ksum F (map (fun js => kmul F (residual_weight F (List.length js) m n) (h_on_w F A N env m n js a b)) (orders_of is)) = h_acts F A N env m n is a b.
  Proof.
    intros Hm Hmn SH SW. unfold h_acts.
    rewrite (ksum_ext F _ (fun js => kmul F (one_over F (fact n)) (sum_modes F N n (fun s => kmul F (one_over F (fact (List.length is - m) * fact m))
      (mmul F A (at_modes F (env (h_name m n)) (s ++ firstn m js)) (w_series F env (s ++ skipn m js)) a b))))).
    - rewrite ksum_scale. f_equal. rewrite !sum_modes_ksum. apply sum_modes_ext. intros s Ls.
      apply (cut_orders (fun u => at_modes F (env (h_name m n)) (s ++ u)) (fun v => w_series F env (s ++ v))); [exact Hm| |].
      + intros u u' a' b' Lu P. destruct m as [|[|[|m]]].
        * destruct u; [|discriminate]. apply Permutation_sym, Permutation_nil in P. now subst.
        * destruct u as [|x [|y u]]; try discriminate. apply Permutation_sym, Permutation_length_1_inv in P. now subst.
        * assert (n = 0) by lia. subst n. destruct s; [|discriminate]. cbn [app]. apply SH; assumption.
        * lia.
      + intros v v' a' b' Lv P. apply (w_series_symmetric (List.length is - m + n)); [exact SW|rewrite app_length; lia|]. now apply Permutation_app_head.
    - intros js I. apply in_orders in I. apply Permutation_length in I. rewrite I, sum_modes_scale. unfold residual_weight, h_on_w.
      replace (fact (List.length is - m) * fact n * fact m) with (fact n * (fact (List.length is - m) * fact m)) by lia.
      rewrite (over_mul F (fact n)); [ring|apply fact_neq_0|]. pose proof (fact_neq_0 (List.length is - m)). pose proof (fact_neq_0 m). lia.
  Qed.

  Lemma really_adds_facts flag r p m n : r <= 2 -> In (m, n) (really_adds flag r p) -> m + n <= 2 /\ m <= p /\ w_available (given flag) (p - m + n) = true.
  Proof.
    intros Hr I. unfold really_adds in I. apply filter_In in I as [I Q]. cbn [fst snd] in Q.
    unfold residual_pairs in I. apply filter_In in I as [_ I]. cbn [fst snd] in I. apply andb_true_iff in I as [I1 I2]. apply Nat.leb_le in I1, I2.
    split; [lia|]. split; [lia|]. destruct (Nat.eqb_spec m 2) as [->|Nm]; cbn [andb] in Q; [|now apply andb_true_iff in Q].
    destruct (Nat.eqb_spec p 2) as [->|N2]; cbn [orb] in Q; [now replace n with 0 by lia|].
    destruct (Nat.eqb_spec p 3) as [->|N3]; [now replace n with 0 by lia|]. now apply andb_true_iff in Q.
  Qed.

  Lemma residual_orders flag r is a b : r <= 2 -> List.length is <= 4 -> symmetric_hamiltonian F env ->
    (forall k, 1 <= k <= 6 -> w_available (given flag) k = true -> symmetric F k (env (w_name k))) ->
    ksum F (map (fun js => residual_value F A N env (really_adds flag r (List.length is)) js a b) (orders_of is)) = hamiltonian_acts F A N env (really_adds flag r (List.length is)) is a b.
  Proof.
    intros Hr L4 SH SW. unfold residual_value, hamiltonian_acts. rewrite ksum_swap. apply ksum_ext. intros [m n] I. cbn [fst snd].
    apply really_adds_facts in I as (I1 & I2 & I3); [|exact Hr]. apply h_on_w_orders; [exact I2|exact I1|exact SH|]. intros Z. apply SW; [lia|exact I3].
  Qed.

  Lemma subtracted_orders flag k is a b : 1 <= k -> List.length is = k -> b < A -> (forall r, 1 <= r <= k -> has_rank (trunc_of flag) r) ->
    dt_kind flag = (if flag "ansatz.VE_MIXED"%string then Kind_mixed else if flag "ansatz.VECC"%string then Kind_CC else Kind_CI) ->
    (forall r, 1 <= r <= k -> symmetric F r (env (amp_name r)) /\ symmetric F r (env (dt_amp_name r))) -> symmetric F k (env (w_name k)) ->
    ksum F (map (fun js => subtracted_value F A env (dt_kind flag) k js a b) (orders_of is)) =
    kadd F (mmul F A (at_modes F (env (w_name k)) is) (at_modes F (env "epsilon"%string) []) a b)
      (ksub F (snd (w_symmetric (in_time F) A (env_in_time F env) flag k is a b : with_derivative F)) (SpecEinsum.entry (env (dt_amp_name k)) (a :: b :: is))).
  Proof.
    intros Hk Li Lb Hr Kd Sy SW.
    rewrite <- (all_orders_w (in_time F) A (env_in_time F env) flag k is a b Hk).
    2:{ intros r L a' b' u u' Lu P. destruct (Sy r L) as [S1 S2]. cbn [SpecEinsum.entry env_in_time]. f_equal; [now apply S1|]. now apply S2. }
    unfold all_orders. rewrite snd_ksum, map_map.
    rewrite (ksum_ext F _ (fun js => kadd F (kmul F (one_over F (fact (List.length js))) (mmul F A (at_modes F (env (w_name k)) js) (at_modes F (env "epsilon"%string) []) a b))
      (kadd F (snd (w_value (in_time F) A (env_in_time F env) flag k js a b : with_derivative F))
              (kmul F (kopp F (kone F)) (kmul F (one_over F (fact (List.length js))) (SpecEinsum.entry (env (dt_amp_name k)) (a :: b :: js))))))).
    - rewrite !ksum_add, ksum_scale.
      rewrite (sum_orders_same F (fun js => mmul F A (at_modes F (env (w_name k)) js) (at_modes F (env "epsilon"%string) []) a b)).
      2:{ intros js P. apply mmul_ext; [|reflexivity]. intros c. apply SW; [exact Li|exact P]. }
      rewrite (sum_orders_same F (fun js => SpecEinsum.entry (env (dt_amp_name k)) (a :: b :: js))).
      2:{ intros js P. apply (Sy k); [lia|exact Li|exact P]. }
      generalize (ksum F (map (fun js => snd (w_value (in_time F) A (env_in_time F env) flag k js a b : with_derivative F)) (orders_of is))). intros z. ring.
    - intros js I. apply in_orders in I. pose proof (Permutation_length I) as Lj. rewrite Li in Lj. rewrite (w_derivative F A env flag k js a b Hk Lj Lb Hr Kd), Lj.
      generalize (snd (w_value (in_time F) A (env_in_time F env) flag k js a b : with_derivative F)). intros z. cbn in z |- *. ring.
  Qed.
End Acts.

Lemma w_file_symmetric so M text prog flag k (F : scalars) A N (env : string -> array F) : set_order so ->
  generate_w_operator_equations_file so M = Ok text -> python text prog ->
  level_truncation (trunc_of flag) -> 1 <= k <= M -> amplitude_axes F A N env -> (forall r, 1 <= r <= k -> symmetric F r (env (amp_name r))) ->
  exists l, w_adds prog flag k false (fun _ => []) l /\ Forall (fun dp => product_accepted F env (snd dp)) l /\
    forall a b is, b < A -> List.length is = k ->
      ksum F (map (fun js => SpecWValue.added F env l (a :: b :: js)) (orders_of is)) = w_symmetric F A env flag k is a b.
Proof.
  intros So G P Lt Hk Ax Sy. destruct (w_file_value so M text prog flag k F A N env So G P Lt Hk Ax) as (l & L1 & L2 & L3).
  exists l. split; [exact L1|]. split; [exact L2|]. intros a b is Lb Li. rewrite <- (all_orders_w F A env flag k is a b) by (assumption || lia).
  apply ksum_ext. intros js I. apply in_orders in I. apply L3; [exact Lb|]. now rewrite (Permutation_length I).
Qed.

Lemma w_file_symmetric_optimized so M text prog flag (F : scalars) A N (env : string -> array F) : set_order so ->
  generate_w_operator_equations_file so M = Ok text -> python text prog ->
  level_truncation (trunc_of flag) -> negations flag -> amplitude_axes F A N env ->
  exists vx vc, returns_paths prog flag "vemx" vx /\ returns_paths prog flag "vecc" vc /\
    forall k, 1 <= k <= M -> (forall r, 1 <= r <= k -> symmetric F r (env (amp_name r))) ->
      exists px pc l, nth_error vx (k - 1) = Some px /\ nth_error vc (k - 1) = Some pc /\
        w_adds prog flag k true (choose px pc) l /\ Forall (fun dp => product_accepted F env (snd dp)) l /\
        forall a b is, b < A -> List.length is = k ->
          ksum F (map (fun js => SpecWValue.added F env l (a :: b :: js)) (orders_of is)) = w_symmetric F A env flag k is a b.
Proof.
  intros So G P Lt Ng Ax. destruct (w_file_value_optimized so M text prog flag F A N env So G P Lt Ng Ax) as (vx & vc & R1 & R2 & V).
  exists vx, vc. split; [exact R1|]. split; [exact R2|]. intros k Hk Sy. destruct (V k Hk) as (px & pc & l & E1 & E2 & L1 & L2 & L3).
  exists px, pc, l. do 4 (split; [assumption|]). intros a b is Lb Li. rewrite <- (all_orders_w F A env flag k is a b) by (assumption || lia).
  apply ksum_ext. intros js I. apply in_orders in I. apply L3; [exact Lb|]. now rewrite (Permutation_length I).
Qed.

Lemma w_symmetrized so M text prog flag k (F : scalars) A N (env : string -> array F) Ms sprog : set_order so ->
  generate_w_operator_equations_file so M = Ok text -> python text prog ->
  level_truncation (trunc_of flag) -> k <= M -> amplitude_axes F A N env -> (forall r, 1 <= r <= k -> symmetric F r (env (amp_name r))) ->
  python (build_symmetrizing_function Ms) sprog -> 2 <= k <= Ms ->
  exists l body, w_adds prog flag k false (fun _ => []) l /\ Forall (fun dp => product_accepted F env (snd dp)) l /\
    sprog = [Block symmetrize_head body] /\
    forall order_flag, order_is order_flag k ->
      exists doc axes, String.prefix "'''" doc = true /\
        exec order_flag body = [doc; "X = np.zeros_like(tensor, dtype=complex)"%string] ++ map add_transposed axes ++ ["return X"%string] /\
        forall x, has_axes F A N k x ->
          (forall a b js, b < A -> List.length js = k -> SpecEinsum.entry x (a :: b :: js) = SpecWValue.added F env l (a :: b :: js)) ->
          Forall (fun ax => transpose_accepts F ax x /\ shape (transposed F ax x) = shape x) axes /\
          forall a b is, b < A -> List.length is = k -> sum_transposed F axes x (a :: b :: is) = w_symmetric F A env flag k is a b.
Proof.
  intros So G P Lt Hk Ax Sy Ps Hs. destruct (w_file_symmetric so M text prog flag k F A N env So G P Lt ltac:(lia) Ax Sy) as (l & L1 & L2 & L3).
  destruct (symmetrize_value Ms sprog Ps) as (body & B1 & B2). exists l, body. split; [exact L1|]. split; [exact L2|]. split; [exact B1|].
  intros oflag O. destruct (B2 oflag k O Hs) as (doc & axes & D1 & D2 & D3). exists doc, axes. split; [exact D1|]. split; [exact D2|].
  intros x Hx Ex. destruct (D3 F A N x Hx) as [T V]. split; [exact T|]. intros a b is Lb Li. destruct (V a b is Li) as [V1 _]. rewrite V1, <- (L3 a b is Lb Li).
  apply ksum_ext. intros js I. apply in_orders in I. apply Ex; [exact Lb|]. now rewrite (Permutation_length I).
Qed.

Lemma residual_symmetrized M r text prog flag p (F : scalars) A N (env : string -> array F) :
  generate_residual_equations_file M r = Ok text -> python (joined text) prog -> p <= M -> p <= 4 -> residual_axes F A N env flag ->
  symmetric_hamiltonian F env -> (forall k, 1 <= k <= 6 -> w_available (given flag) k = true -> symmetric F k (env (w_name k))) ->
  exists ts vs, residual_runs prog flag p ts /\ Forall2 (statement_adds F A N env p) ts vs /\
    forall a b is, b < A -> List.length is = p ->
      ksum F (map (fun js => ksum F (map (fun v => v (a :: b :: js)) vs)) (orders_of is)) = hamiltonian_acts F A N env (really_adds flag r p) is a b.
Proof.
  intros G P Hp H4 Ax SH SW. destruct (residual_file_value M r text prog flag p F A N env G P Hp H4 Ax) as (ts & vs & T & V & E).
  exists ts, vs. split; [exact T|]. split; [exact V|]. intros a b is Lb Li. destruct (rprog_unique M r text prog G P) as (_ & _ & Hr).
  subst p. rewrite <- (residual_orders F A N env flag r is a b Hr H4 SH SW). apply ksum_ext. intros js I. apply in_orders in I. apply E; [exact Lb|]. now rewrite (Permutation_length I).
Qed.

Section Motion.
Variable F : scalars.
Add Ring kring : (k_ring F).
Lemma motion_equivalence r flag k A N (env : string -> array F) vs l a b is : 1 <= k <= 6 -> b < A -> List.length is = k ->
  (forall j, 1 <= j <= k -> has_rank (trunc_of flag) j) ->
  dt_kind flag = (if flag "ansatz.VE_MIXED"%string then Kind_mixed else if flag "ansatz.VECC"%string then Kind_CC else Kind_CI) ->
  (forall j, 1 <= j <= k -> symmetric F j (env (amp_name j)) /\ symmetric F j (env (dt_amp_name j))) ->
  (forall j, 1 <= j <= 6 -> (w_available (given flag) j = true \/ j = k) -> symmetric F j (env (w_name j))) ->
  ksum F (map (fun js => ksum F (map (fun v => v (a :: b :: js)) vs)) (orders_of is)) = hamiltonian_acts F A N env (really_adds flag r k) is a b ->
  (forall a b is, b < A -> List.length is = k -> SpecWValue.added F env l (a :: b :: is) = subtracted_value F A env (dt_kind flag) k is a b) ->
  (SpecEinsum.entry (env (dt_amp_name k)) (a :: b :: is) =
       ksum F (map (fun js => ksub F (ksum F (map (fun v => v (a :: b :: js)) vs)) (SpecWValue.added F env l (a :: b :: js))) (orders_of is)) <->
       snd (w_symmetric (in_time F) A (env_in_time F env) flag k is a b : with_derivative F) =
       ksub F (hamiltonian_acts F A N env (really_adds flag r k) is a b)
              (mmul F A (at_modes F (env (w_name k)) is) (at_modes F (env "epsilon"%string) []) a b)).
Proof.
  intros Hk Lb Li Rk Kd Sy SW Ev L3.
  assert (Es : ksum F (map (fun js => SpecWValue.added F env l (a :: b :: js)) (orders_of is)) =
    kadd F (mmul F A (at_modes F (env (w_name k)) is) (at_modes F (env "epsilon"%string) []) a b)
      (ksub F (snd (w_symmetric (in_time F) A (env_in_time F env) flag k is a b : with_derivative F)) (SpecEinsum.entry (env (dt_amp_name k)) (a :: b :: is)))).
  { rewrite <- subtracted_orders; [|lia|exact Li|exact Lb|exact Rk|exact Kd|exact Sy|apply SW; [lia|now right]].
    apply ksum_ext. intros js I. apply in_orders in I. apply L3; [exact Lb|]. now rewrite (Permutation_length I). }
  assert (Ed : ksum F (map (fun js => ksub F (ksum F (map (fun v => v (a :: b :: js)) vs)) (SpecWValue.added F env l (a :: b :: js))) (orders_of is)) =
    ksub F (hamiltonian_acts F A N env (really_adds flag r k) is a b) (ksum F (map (fun js => SpecWValue.added F env l (a :: b :: js)) (orders_of is)))).
  { rewrite <- Ev. rewrite (ksum_ext F _ (fun js => kadd F (ksum F (map (fun v => v (a :: b :: js)) vs)) (kmul F (kopp F (kone F)) (SpecWValue.added F env l (a :: b :: js))))) by (intros; ring).
    rewrite ksum_add, ksum_scale. ring. }
  rewrite Ed, Es. clear Ed Es Ev L3.
  generalize (snd (w_symmetric (in_time F) A (env_in_time F env) flag k is a b : with_derivative F)). intros z. cbn in z |- *.
  generalize (mmul F A (at_modes F (env (w_name k)) is) (at_modes F (env "epsilon"%string) []) a b). intros w.
  generalize (hamiltonian_acts F A N env (really_adds flag r k) is a b). intros h.
  generalize (SpecEinsum.entry (env (dt_amp_name k)) (a :: b :: is)). intros d. split; intros E.
  - transitivity (ksub F (kadd F (kadd F z (kopp F d)) d) (kzero F)); [ring|]. rewrite E at 2. ring.
  - rewrite E. ring.
Qed.

Lemma equation_of_motion so M text prog Mr r rtext rprog flag k A N (env : string -> array F) : set_order so ->
  generate_dt_amplitude_equations_file so M = Ok text -> python text prog ->
  generate_residual_equations_file Mr r = Ok rtext -> python (joined rtext) rprog ->
  1 <= k <= M -> k <= Mr -> k <= 4 ->
  dt_axes F A N env -> residual_axes F A N env flag ->
  (forall j, 1 <= j <= k -> has_rank (trunc_of flag) j) ->
  dt_kind flag = (if flag "ansatz.VE_MIXED"%string then Kind_mixed else if flag "ansatz.VECC"%string then Kind_CC else Kind_CI) ->
  (forall j, 1 <= j <= k -> symmetric F j (env (amp_name j)) /\ symmetric F j (env (dt_amp_name j))) ->
  (forall j, 1 <= j <= 6 -> (w_available (given flag) j = true \/ j = k) -> symmetric F j (env (w_name j))) ->
  symmetric_hamiltonian F env ->
  exists ts vs l,
    residual_runs rprog flag k ts /\ Forall2 (statement_adds F A N env k) ts vs /\
    dt_computes prog flag k false "" (fun _ => []) l /\ Forall (fun dp => product_fits F A N env k (snd dp)) l /\
    forall a b is, b < A -> List.length is = k ->
      (SpecEinsum.entry (env (dt_amp_name k)) (a :: b :: is) =
       ksum F (map (fun js => ksub F (ksum F (map (fun v => v (a :: b :: js)) vs)) (SpecWValue.added F env l (a :: b :: js))) (orders_of is)) <->
       snd (w_symmetric (in_time F) A (env_in_time F env) flag k is a b : with_derivative F) =
       ksub F (hamiltonian_acts F A N env (really_adds flag r k) is a b)
              (mmul F A (at_modes F (env (w_name k)) is) (at_modes F (env "epsilon"%string) []) a b)).
Proof.
  intros So G P Gr Pr Hk Hr H4 Da Ra Rk Kd Sy SW SH.
  destruct (residual_symmetrized Mr r rtext rprog flag k F A N env Gr Pr Hr H4 Ra SH) as (ts & vs & T & V & Ev); [intros j Lj Aj; apply SW; auto|].
  destruct (dt_file_value so M text prog flag k F A N env So G P Hk Da) as (l & L1 & L2 & L3).
  exists ts, vs, l. split; [exact T|]. split; [exact V|]. split; [exact L1|]. split; [exact L2|]. intros a b is Lb Li.
  apply motion_equivalence; auto; lia.
Qed.

Lemma equation_of_motion_optimized so M text prog Mr r rtext rprog flag A N (env : string -> array F) : set_order so ->
  generate_dt_amplitude_equations_file so M = Ok text -> python text prog ->
  generate_residual_equations_file Mr r = Ok rtext -> python (joined rtext) rprog ->
  level_truncation (trunc_of flag) -> negations flag -> dt_axes F A N env -> residual_axes F A N env flag -> symmetric_hamiltonian F env ->
  exists ep lp up, returns_epsilon_paths prog flag ep /\ returns_dt_paths prog flag false lp /\ returns_dt_paths prog flag true up /\
    forall k, 1 <= k <= M -> k <= Mr -> k <= 4 ->
      (forall j, 1 <= j <= k -> has_rank (trunc_of flag) j) ->
      dt_kind flag = (if flag "ansatz.VE_MIXED"%string then Kind_mixed else if flag "ansatz.VECC"%string then Kind_CC else Kind_CI) ->
      (forall j, 1 <= j <= k -> symmetric F j (env (amp_name j)) /\ symmetric F j (env (dt_amp_name j))) ->
      (forall j, 1 <= j <= 6 -> (w_available (given flag) j = true \/ j = k) -> symmetric F j (env (w_name j))) ->
      exists e pl pu ts vs l, nth_error ep (k - 1) = Some e /\ nth_error lp (k - 1) = Some pl /\ nth_error up (k - 1) = Some pu /\
        residual_runs rprog flag k ts /\ Forall2 (statement_adds F A N env k) ts vs /\
        dt_computes prog flag k true e (fun un => if un then pu else pl) l /\ Forall (fun dp => product_fits F A N env k (snd dp)) l /\
        forall a b is, b < A -> List.length is = k ->
          (SpecEinsum.entry (env (dt_amp_name k)) (a :: b :: is) =
           ksum F (map (fun js => ksub F (ksum F (map (fun v => v (a :: b :: js)) vs)) (SpecWValue.added F env l (a :: b :: js))) (orders_of is)) <->
           snd (w_symmetric (in_time F) A (env_in_time F env) flag k is a b : with_derivative F) =
           ksub F (hamiltonian_acts F A N env (really_adds flag r k) is a b)
                  (mmul F A (at_modes F (env (w_name k)) is) (at_modes F (env "epsilon"%string) []) a b)).
Proof.
  intros So G P Gr Pr Lt Ng Da Ra SH. destruct (dt_file_value_optimized so M text prog flag F A N env So G P Lt Ng Da) as (ep & lp & up & R1 & R2 & R3 & V).
  exists ep, lp, up. split; [exact R1|]. split; [exact R2|]. split; [exact R3|]. intros k Hk Hr H4 Rk Kd Sy SW.
  destruct (residual_symmetrized Mr r rtext rprog flag k F A N env Gr Pr Hr H4 Ra SH) as (ts & vs & T & Vs & Ev); [intros j Lj Aj; apply SW; auto|].
  destruct (V k Hk (Rk k ltac:(lia))) as (e & pl & pu & l & E1 & E2 & E3 & L1 & L2 & L3).
  exists e, pl, pu, ts, vs, l. do 7 (split; [assumption|]). intros a b is Lb Li. apply motion_equivalence; auto; lia.
Qed.
End Motion.
