(** Proofs: the equation of the e^T ansatz is that of displaced operators. *)
From Coq Require Import List Arith Bool Ascii String Ring_theory Ring Lia Permutation.
From Verif Require Import PyBase PyBaseFacts ModelFullCC ModelEt ModelEtPy SpecEt SpecEtPy SpecEtLatex SpecPython SpecEtText SpecEinsum SpecFullCCValue
  SpecEtValue ProofsEinsum ProofsWValue ProofsFullCCValue ProofsEtValue.
Import ListNotations.
Local Open Scope nat_scope.
Local Open Scope list_scope.

Lemma all_paired_split H p e : all_paired H p 0 e = all_paired H p 0 0 ++ all_paired H p 1 e.
Proof.
  unfold all_paired. change (S e - 1) with (e - 0). rewrite !Nat.sub_0_r.
  match goal with |- flat_map ?f _ = _ => generalize f end. intros f. cbn [seq flat_map]. now rewrite app_nil_r.
Qed.

Section Equation.
  Variable F : scalars.
  Add Ring kringq : (k_ring F).
  Variables A N : nat.
  Variable args : string -> nat * nat -> array F.

  Lemma ksum_mul {X Y} (f : X -> K F) (g : Y -> K F) l l' :
    kmul F (ksum F (map f l)) (ksum F (map g l')) = ksum F (map (fun y => ksum F (map (fun x => kmul F (f x) (g y)) l)) l').
  Proof.
    rewrite <- (ksum_scale F g). apply ksum_ext. intros y _. symmetry. apply (ksum_scale_r F f).
  Qed.

  Lemma selected_app s f l l' is a : selected_value F A N args s f (l ++ l') is a = kadd F (selected_value F A N args s f l is a) (selected_value F A N args s f l' is a).
  Proof. unfold selected_value. now rewrite map_app, ksum_app. Qed.

  (** The bare term is the only one that the two functions leave out. *)
  Lemma is_bare_paired H p k : In k (all_paired H p 0 0) -> is_bare k = true -> k = paired p 0 0 0 0.
  Proof.
    rewrite in_all_paired. unfold is_bare. rewrite !andb_true_iff, !Nat.eqb_eq. destruct k as [zp zh zt hp ht]. unfold k_t, k_up, k_down, paired.
    cbn [k_zp k_zh k_zt k_hp k_ht]. intros (E1 & _) ((E2 & E3) & E4). f_equal; lia.
  Qed.
  Lemma bare_in H p : In (paired p 0 0 0 0) (all_paired H p 0 0).
  Proof. apply in_all_paired. unfold paired, k_t, k_down. cbn. lia. Qed.
  Lemma bare_weighted s p is a : weighted_value F A N args s (paired p 0 0 0 0) is a = bare_value F A args s p is a.
  Proof.
    unfold weighted_value, paired_value, bare_value. set (b := paired p 0 0 0 0).
    assert (E : k_zt b = 0 /\ k_ht b = 0 /\ k_zh b = 0 /\ k_hp b = 0 /\ k_zp b = p) by (cbn; lia). destruct E as (E1 & E2 & E3 & E4 & E5).
    rewrite E1, E2, E3, E4, E5. cbn [sum_modes firstn skipn app]. change (fact 0) with 1. rewrite !Nat.mul_1_r.
    unfold t_product. cbn [map]. change (kprod F []) with (kone F). ring.
  Qed.
  Lemma equation_total s H CC p e flag is a : p <= CC -> allowed flag (paired p 0 0 0 0) = true ->
    kadd F (kadd F (selected_value F A N args s (fun k => has_operators s H CC k && negb (is_bare k) && allowed flag k) (all_paired H p 0 0) is a)
                   (selected_value F A N args s (fun k => has_operators s H CC k && allowed flag k) (all_paired H p 1 e) is a))
           (bare_value F A args s p is a)
    = selected_value F A N args s (fun k => has_operators s H CC k && allowed flag k) (all_paired H p 0 e) is a.
  Proof.
    intros L Al. rewrite (all_paired_split H p e), selected_app.
    assert (E : selected_value F A N args s (fun k => has_operators s H CC k && allowed flag k) (all_paired H p 0 0) is a =
                kadd F (selected_value F A N args s (fun k => has_operators s H CC k && negb (is_bare k) && allowed flag k) (all_paired H p 0 0) is a) (bare_value F A args s p is a)); [|rewrite E; ring].
    pose proof (nodup_all_paired H p 0 0) as Nd. destruct (in_split _ _ (bare_in H p)) as (l1 & l2 & El).
    unfold selected_value. rewrite El in *. rewrite !map_app, !ksum_app. cbn [map]. rewrite !ksum_cons.
    assert (Hb : has_operators s H CC (paired p 0 0 0 0) = true).
    { apply has_operators_iff. unfold h_of_ansatz, allowed_on, paired, k_up, k_down, k_z. cbn [k_zp k_zh k_zt k_hp k_ht]. repeat split; lia. }
    rewrite Hb, Al. assert (Bb : is_bare (paired p 0 0 0 0) = true) by reflexivity. rewrite Bb. cbn [negb andb]. rewrite bare_weighted.
    assert (R : forall l, (forall k, In k l -> In k (l1 ++ l2)) ->
      map (fun k => if has_operators s H CC k && allowed flag k then weighted_value F A N args s k is a else kzero F) l =
      map (fun k => if has_operators s H CC k && negb (is_bare k) && allowed flag k then weighted_value F A N args s k is a else kzero F) l).
    { intros l Hl. apply map_ext_in. intros k I. destruct (is_bare k) eqn:B; [|now rewrite andb_true_r].
      exfalso. apply NoDup_remove_2 in Nd. apply Nd. apply Hl in I. rewrite <- (is_bare_paired H p k); [exact I| |exact B].
      rewrite El. apply in_app_iff in I. apply in_app_iff. cbn. tauto. }
    rewrite (R l1), (R l2) by (intros k I; apply in_or_app; auto). ring.
  Qed.

  (** ** Sums over modes as sums over a list *)
  Fixpoint tuples (k : nat) : list (list nat) :=
    match k with O => [[]] | S k' => flat_map (fun i => map (cons i) (tuples k')) (seq 0 N) end.
  Lemma sum_tuples k : forall g, sum_modes F N k g = ksum F (map g (tuples k)).
  Proof.
    induction k as [|k IH]; intros g; cbn [sum_modes tuples map]; [rewrite ksum_cons, ksum_nil; ring|].
    rewrite ksum_flat_map. unfold sum_below. apply ksum_ext. intros i _. now rewrite IH, map_map.
  Qed.

  Variables (H CC p : nat) (is : list nat) (a : nat).
  Definition box : list pairs :=
    flat_map (fun i => flat_map (fun n => flat_map (fun x => map (fun y => paired p x y n i) (seq 0 (S H))) (seq 0 (S CC))) (seq 0 (S H))) (seq 0 (S p)).
  Lemma in_box k : In k box <-> k_zp k + k_hp k = p /\ k_zh k <= H /\ k_zt k <= CC /\ k_ht k <= H.
  Proof.
    unfold box. rewrite in_flat_map. split.
    - intros (i & I & J). apply in_seq in I. apply in_flat_map in J as (n & J1 & J). apply in_seq in J1. apply in_flat_map in J as (x & J2 & J). apply in_seq in J2.
      apply in_map_iff in J as (y & <- & J). apply in_seq in J. unfold paired. cbn. lia.
    - intros (E1 & E2 & E3 & E4). destruct k as [zp zh zt hp ht]. cbn [k_zp k_zh k_zt k_hp k_ht] in E1, E2, E3, E4.
      exists hp. split; [apply in_seq; lia|]. apply in_flat_map. exists zh. split; [apply in_seq; lia|].
      apply in_flat_map. exists zt. split; [apply in_seq; lia|]. apply in_map_iff. exists ht. split; [|apply in_seq; lia]. unfold paired. f_equal; lia.
  Qed.
  Lemma nodup_box : NoDup box.
  Proof.
    unfold box. apply NoDup_flat_map; [apply seq_NoDup| |].
    2:{ intros i i' k _ _ J J'. apply in_flat_map in J as (n & _ & J). apply in_flat_map in J as (x & _ & J). apply in_map_iff in J as (y & <- & J).
        apply in_flat_map in J' as (n' & _ & J'). apply in_flat_map in J' as (x' & _ & J'). apply in_map_iff in J' as (y' & E & J'). unfold paired in E. now injection E. }
    intros i _. apply NoDup_flat_map; [apply seq_NoDup| |].
    2:{ intros n n' k _ _ J J'. apply in_flat_map in J as (x & _ & J). apply in_map_iff in J as (y & <- & J).
        apply in_flat_map in J' as (x' & _ & J'). apply in_map_iff in J' as (y' & E & J'). unfold paired in E. now injection E. }
    intros n _. apply NoDup_flat_map; [apply seq_NoDup| |].
    2:{ intros x x' k _ _ J J'. apply in_map_iff in J as (y & <- & J). apply in_map_iff in J' as (y' & E & J'). unfold paired in E. now injection E. }
    intros x _. apply FinFun.Injective_map_NoDup; [|apply seq_NoDup]. intros y y' E. unfold paired in E. now injection E.
  Qed.

  Lemma to_box s e : H + CC <= e -> 
    selected_value F A N args s (has_operators s H CC) (all_paired H p 0 e) is a = selected_value F A N args s (has_operators s H CC) box is a.
  Proof.
    intros L. rewrite !selected_filter. apply ksum_perm, Permutation_map, NoDup_Permutation; [apply NoDup_filter, nodup_all_paired|apply NoDup_filter, nodup_box|].
    intros k. rewrite !filter_In, in_all_paired, in_box. unfold has_operators, has_h. rewrite !andb_true_iff, !Nat.leb_le.
    unfold k_t, k_up, k_down, k_z. intuition (auto; lia).
  Qed.

  Lemma term_splits x y n i :
    (if has_operators RHS H CC (paired p x y n i) then weighted_value F A N args RHS (paired p x y n i) is a else kzero F) =
    kmul F (one_over F (fact i * fact (p - i) * fact n))
      (ksum F (map (fun hz => sum_below F A (fun c =>
         kmul F (kmul F (one_over F (fact y)) (ksum F (map (fun th => kmul F (t_product F args RHS th) (h_coefficient F args H (i + y) n a c (th ++ hz ++ firstn i is))) (tuples y))))
                (kmul F (one_over F (fact x)) (ksum F (map (fun tz => kmul F (t_product F args RHS tz) (z_coefficient F args CC (p - i + n + x) c (tz ++ hz ++ skipn i is))) (tuples x))))))
        (tuples n))).
  Proof.
    pose proof (fact_neq_0 x) as Fx. pose proof (fact_neq_0 y) as Fy. pose proof (fact_neq_0 n) as Fn. pose proof (fact_neq_0 i) as Fi. pose proof (fact_neq_0 (p - i)) as Fp.
    assert (O : one_over F (fact (p - i) * fact n * fact x * fact i * fact y) = kmul F (one_over F (fact i * fact (p - i) * fact n)) (kmul F (one_over F (fact y)) (one_over F (fact x)))).
    { clear - Fx Fy Fn Fi Fp. revert Fx Fy Fn Fi Fp. generalize (fact x) (fact y) (fact n) (fact i) (fact (p - i)). intros u v w r t Hu Hv Hw Hr Ht.
      rewrite (over_mul F (t * w * u * r) v), (over_mul F (t * w * u) r), (over_mul F (t * w) u), (over_mul F t w), (over_mul F (r * t) w), (over_mul F r t) by nia. ring. }
    transitivity (kmul F (one_over F (fact (p - i) * fact n * fact x * fact i * fact y))
      (ksum F (map (fun tz => ksum F (map (fun th => ksum F (map (fun hz => sum_below F A (fun c =>
         kmul F (kmul F (t_product F args RHS tz) (t_product F args RHS th))
           (kmul F (h_coefficient F args H (i + y) n a c (th ++ hz ++ firstn i is)) (z_coefficient F args CC (p - i + n + x) c (tz ++ hz ++ skipn i is)))))
         (tuples n))) (tuples y))) (tuples x)))).
    - unfold has_operators, h_coefficient, z_coefficient, k_z, k_up, k_down. cbn [paired k_zp k_zh k_zt k_hp k_ht]. rewrite andb_true_r.
      destruct (has_h H (i + y) n) eqn:E1; cbn [andb]; [destruct (Nat.leb (p - i + n + x) CC) eqn:E2; cbn [andb]|].
      + unfold weighted_value, paired_value. cbn [paired k_zp k_zh k_zt k_hp k_ht]. f_equal. rewrite sum_tuples. apply ksum_ext. intros tz _.
        rewrite sum_tuples. apply ksum_ext. intros th _. rewrite sum_tuples. apply ksum_ext. intros hz _.
        unfold h_on_z, k_z, k_up, k_down. cbn [paired k_zp k_zh k_zt k_hp k_ht]. unfold sum_below. symmetry. apply ksum_scale.
      + rewrite (ksum_zero F); [ring|]. intros tz _. apply ksum_zero. intros th _. apply ksum_zero. intros hz _. unfold sum_below. apply ksum_zero. intros c _. ring.
      + rewrite (ksum_zero F); [ring|]. intros tz _. apply ksum_zero. intros th _. apply ksum_zero. intros hz _. unfold sum_below. apply ksum_zero. intros c _. ring.
    - rewrite O. transitivity (kmul F (one_over F (fact i * fact (p - i) * fact n)) (kmul F (kmul F (one_over F (fact y)) (one_over F (fact x)))
        (ksum F (map (fun hz => sum_below F A (fun c => 
          kmul F (ksum F (map (fun th => kmul F (t_product F args RHS th) (h_coefficient F args H (i + y) n a c (th ++ hz ++ firstn i is))) (tuples y)))
                 (ksum F (map (fun tz => kmul F (t_product F args RHS tz) (z_coefficient F args CC (p - i + n + x) c (tz ++ hz ++ skipn i is))) (tuples x))))) (tuples n))))).
      + set (o := one_over F (fact i * fact (p - i) * fact n)). set (o' := kmul F (one_over F (fact y)) (one_over F (fact x))). 
        match goal with |- kmul F (kmul F o o') ?u = kmul F o (kmul F o' ?v) => assert (E : u = v); [|rewrite E; ring] end.
        transitivity (ksum F (map (fun tz => ksum F (map (fun hz => ksum F (map (fun th => sum_below F A (fun c =>
         kmul F (kmul F (t_product F args RHS tz) (t_product F args RHS th))
           (kmul F (h_coefficient F args H (i + y) n a c (th ++ hz ++ firstn i is)) (z_coefficient F args CC (p - i + n + x) c (tz ++ hz ++ skipn i is)))))
         (tuples y))) (tuples n))) (tuples x))); [apply ksum_ext; intros tz _; apply ksum_swap|].
        rewrite ksum_swap. apply ksum_ext. intros hz _. unfold sum_below.
        rewrite (ksum_ext F _ (fun c => ksum F (map (fun tz => ksum F (map (fun th => kmul F (kmul F (t_product F args RHS th) (h_coefficient F args H (i + y) n a c (th ++ hz ++ firstn i is)))
           (kmul F (t_product F args RHS tz) (z_coefficient F args CC (p - i + n + x) c (tz ++ hz ++ skipn i is)))) (tuples y))) (tuples x))) (seq 0 A)) by (intros c _; apply ksum_mul).
        rewrite (ksum_swap F _ (seq 0 A)). apply ksum_ext. intros tz _. rewrite (ksum_swap F _ (tuples y)). apply ksum_ext. intros c _. apply ksum_ext. intros th _. ring.
      + f_equal. rewrite <- ksum_scale. apply ksum_ext. intros hz _. unfold sum_below. rewrite <- ksum_scale. apply ksum_ext. intros c _. ring.
  Qed.

  Lemma box_is_displaced : selected_value F A N args RHS (has_operators RHS H CC) box is a = displaced_product F A N args H CC p is a.
  Proof.
    unfold selected_value, displaced_product, box. rewrite ksum_flat_map. apply ksum_ext. intros i _. rewrite ksum_flat_map. apply ksum_ext. intros n _.
    rewrite ksum_flat_map. rewrite sum_tuples.
    rewrite (ksum_ext F _ (fun x => ksum F (map (fun y => kmul F (one_over F (fact i * fact (p - i) * fact n))
      (ksum F (map (fun hz => sum_below F A (fun c =>
         kmul F (kmul F (one_over F (fact y)) (ksum F (map (fun th => kmul F (t_product F args RHS th) (h_coefficient F args H (i + y) n a c (th ++ hz ++ firstn i is))) (tuples y))))
                (kmul F (one_over F (fact x)) (ksum F (map (fun tz => kmul F (t_product F args RHS tz) (z_coefficient F args CC (p - i + n + x) c (tz ++ hz ++ skipn i is))) (tuples x))))))
        (tuples n)))) (seq 0 (S H)))) (seq 0 (S CC))).
    2:{ intros x _. rewrite map_map. apply ksum_ext. intros y _. apply term_splits. }
    rewrite (ksum_ext F _ (fun x => kmul F (one_over F (fact i * fact (p - i) * fact n)) (ksum F (map (fun y =>
      (ksum F (map (fun hz => sum_below F A (fun c =>
         kmul F (kmul F (one_over F (fact y)) (ksum F (map (fun th => kmul F (t_product F args RHS th) (h_coefficient F args H (i + y) n a c (th ++ hz ++ firstn i is))) (tuples y))))
                (kmul F (one_over F (fact x)) (ksum F (map (fun tz => kmul F (t_product F args RHS tz) (z_coefficient F args CC (p - i + n + x) c (tz ++ hz ++ skipn i is))) (tuples x))))))
        (tuples n)))) (seq 0 (S H))))) (seq 0 (S CC))) by (intros x _; apply ksum_scale).
    rewrite ksum_scale. f_equal. 
    rewrite (ksum_ext F _ (fun x => ksum F (map (fun hz => ksum F (map (fun y => sum_below F A (fun c =>
         kmul F (kmul F (one_over F (fact y)) (ksum F (map (fun th => kmul F (t_product F args RHS th) (h_coefficient F args H (i + y) n a c (th ++ hz ++ firstn i is))) (tuples y))))
                (kmul F (one_over F (fact x)) (ksum F (map (fun tz => kmul F (t_product F args RHS tz) (z_coefficient F args CC (p - i + n + x) c (tz ++ hz ++ skipn i is))) (tuples x))))))
        (seq 0 (S H)))) (tuples n))) (seq 0 (S CC))) by (intros x _; apply ksum_swap).
    rewrite (ksum_swap F _ (seq 0 (S CC))). apply ksum_ext. intros hz _. unfold sum_below.
    assert (D : forall c, kmul F (displaced_h F N args H i n a c (hz ++ firstn i is)) (displaced_z F N args CC (p - i + n) c (hz ++ skipn i is)) =
      ksum F (map (fun x => ksum F (map (fun y => kmul F (kmul F (one_over F (fact y)) (ksum F (map (fun th => kmul F (t_product F args RHS th) (h_coefficient F args H (i + y) n a c (th ++ hz ++ firstn i is))) (tuples y))))
                (kmul F (one_over F (fact x)) (ksum F (map (fun tz => kmul F (t_product F args RHS tz) (z_coefficient F args CC (p - i + n + x) c (tz ++ hz ++ skipn i is))) (tuples x))))) (seq 0 (S H)))) (seq 0 (S CC)))).
    { intros c. rewrite <- ksum_mul. unfold displaced_h, displaced_z. f_equal; apply ksum_ext; intros u _; now rewrite sum_tuples. }
    rewrite (ksum_ext F (fun c => kmul F (displaced_h F N args H i n a c (hz ++ firstn i is)) (displaced_z F N args CC (p - i + n) c (hz ++ skipn i is))) _ (seq 0 A) (fun c _ => D c)).
    rewrite (ksum_swap F _ (seq 0 A)). apply ksum_ext. intros x _. apply ksum_swap.
  Qed.
End Equation.

(** ** The functions of a file together *)
Lemma file_total s ground H CC e P text prog : 1 <= CC <= 8 -> generate_eT_zhz_python s ground H CC 1 e P = Ok text -> python text prog ->
  forall p opt, p <= CC -> p <= P ->
    exists b1 b2, ground_branch prog (terms_head s p "HZ" opt) b1 /\ ground_branch prog (terms_head s p "eT_HZ" opt) b2 /\
      forall flag, allowed flag (paired p 0 0 0 0) = true ->
        exists l1 l2, body_runs s flag b1 l1 /\ body_runs s flag b2 l2 /\
          forall F A N args, eT_axes F A N args -> forall a is, List.length is = p ->
            kadd F (kadd F (eT_added F args l1 (a :: is)) (eT_added F args l2 (a :: is))) (bare_value F A args s p is a) =
            selected_value F A N args s (fun k => has_operators s H CC k && allowed flag k) (all_paired H p 0 e) is a.
Proof.
  intros HC G Py p opt L1 L2. destruct (file_value s ground H CC e P text prog HC G Py p opt L1 L2) as ((d1 & b1 & o1 & I1 & _ & V1) & (d2 & b2 & o2 & I2 & _ & V2) & _).
  exists b1, b2. split; [exists d1, o1; exact I1|]. split; [exists d2, o2; exact I2|]. intros flag Al.
  destruct (V1 flag) as (l1 & R1 & W1). destruct (V2 flag) as (l2 & R2 & W2). exists l1, l2. split; [exact R1|]. split; [exact R2|].
  intros F A N args Ax a is Li. destruct (W1 F A N args Ax) as [_ E1]. destruct (W2 F A N args Ax) as [_ E2]. rewrite (E1 a is Li), (E2 a is Li).
  now apply equation_total.
Qed.

Lemma all_allowed flag k : (forall c, flag c = true) -> allowed flag k = true.
Proof. intros T. unfold allowed. now rewrite !T, !orb_true_r. Qed.

Lemma file_displaced ground H CC e P text prog : 1 <= CC <= 8 -> H + CC <= e -> generate_eT_zhz_python RHS ground H CC 1 e P = Ok text -> python text prog ->
  forall p opt, p <= CC -> p <= P ->
    exists b1 b2, ground_branch prog (terms_head RHS p "HZ" opt) b1 /\ ground_branch prog (terms_head RHS p "eT_HZ" opt) b2 /\
      forall flag, (forall c, flag c = true) ->
        exists l1 l2, body_runs RHS flag b1 l1 /\ body_runs RHS flag b2 l2 /\
          forall F A N args, eT_axes F A N args -> forall a is, List.length is = p ->
            kadd F (kadd F (eT_added F args l1 (a :: is)) (eT_added F args l2 (a :: is))) (bare_value F A args RHS p is a) =
            displaced_product F A N args H CC p is a.
Proof.
  intros HC Le G Py p opt L1 L2. destruct (file_total RHS ground H CC e P text prog HC G Py p opt L1 L2) as (b1 & b2 & B1 & B2 & V).
  exists b1, b2. split; [exact B1|]. split; [exact B2|]. intros flag T. destruct (V flag (all_allowed _ _ T)) as (l1 & l2 & R1 & R2 & W). exists l1, l2.
  split; [exact R1|]. split; [exact R2|]. intros F A N args Ax a is Li. rewrite (W F A N args Ax a is Li), <- (box_is_displaced F A N args H CC p is a), <- (to_box F A N args H CC p is a RHS e Le).
  unfold selected_value. apply ksum_ext. intros k _. now rewrite (all_allowed flag k T), andb_true_r.
Qed.
