(** Proofs: the left hand side of the e^T ansatz is the derivative of displaced
    operators. *)
From Coq Require Import List Arith Bool Ascii String Ring_theory Ring Lia Permutation.
From Verif Require Import PyBase PyBaseFacts ModelFullCC ModelEt ModelEtPy SpecEt SpecEtPy SpecEtLatex SpecPython SpecEtText SpecEinsum SpecFullCCValue
  SpecEtValue SpecEtLeft ProofsEinsum ProofsWValue ProofsFullCCValue ProofsEtValue ProofsEtShift.
Import ListNotations.
Local Open Scope nat_scope.
Local Open Scope list_scope.

Section Left.
  Variable F : scalars.
  Add Ring kring : (k_ring F).
  Variables A N : nat.
  Variable args : string -> nat * nat -> array F.
  Variables (H CC p : nat) (is : list nat) (a : nat).

  Definition taylor_term (coefficient : nat -> list nat -> K F) (k : nat) (modes : list nat) (x : nat) : K F :=
    kmul F (one_over F (fact x)) (sum_modes F N x (fun ts => kmul F (t_product F args LHS ts) (coefficient (k + x) (ts ++ modes)))).

  Lemma sum_modes_zero k g : (forall s, g s = kzero F) -> sum_modes F N k g = kzero F.
  Proof. intros Z. rewrite sum_tuples. apply ksum_zero. intros s _. apply Z. Qed.

  Lemma left_down x y n i : n <> 0 -> has_operators LHS H CC (paired p x y n i) = false.
  Proof. intros Z. unfold has_operators, k_down. cbn [paired k_zh]. destruct (Nat.eqb_spec n 0); [contradiction|]. now rewrite andb_false_r. Qed.

  Lemma head_only (f : nat -> K F) h : (forall n, n <> 0 -> f n = kzero F) -> ksum F (map f (seq 0 (S h))) = f 0.
  Proof. intros Z. change (sum_below F (S h) f = f 0). rewrite (ksum_single F _ _ 0); [reflexivity|lia|]. intros c _. apply Z. Qed.

  Lemma left_term x y i :
    (if has_operators LHS H CC (paired p x y 0 i) then weighted_value F A N args LHS (paired p x y 0 i) is a else kzero F) =
    kadd F (if Nat.eqb (i + y) 0 then kmul F (one_over F (fact p)) (taylor_term (state_coefficient F args "dz_args" CC a) p is x) else kzero F)
      (kmul F (one_over F (fact i * fact (p - i)))
        (kmul F (taylor_term (dT_coefficient F args H) i (firstn i is) y) (taylor_term (state_coefficient F args "z_args" CC a) (p - i) (skipn i is) x))).
  Proof.
    unfold taylor_term. rewrite !sum_tuples. unfold has_operators, state_coefficient, dT_coefficient, k_z, k_up, k_down. cbn [paired k_zp k_zh k_zt k_hp k_ht].
    rewrite Nat.eqb_refl, andb_true_r, Nat.add_0_r. destruct (Nat.eqb_spec (i + y) 0) as [E|E].
    - assert (i = 0) by lia. assert (y = 0) by lia. subst i y. change (has_h H (0 + 0) 0) with true. cbn [andb negb]. rewrite Nat.sub_0_r.
      rewrite (ksum_zero F (fun x0 => kmul F (t_product F args LHS x0) (kzero F)) (tuples N 0)) by (intros s _; ring).
      destruct (Nat.leb (p + x) CC).
      + transitivity (kmul F (one_over F (fact p)) (kmul F (one_over F (fact x)) (ksum F (map (fun s => kmul F (t_product F args LHS s) (SpecEinsum.entry (args "dz_args"%string (p + x, 0)) (a :: s ++ is))) (tuples N x))))); [|ring].
        unfold weighted_value, paired_value, h_on_z, k_z, k_up. cbn [paired k_zp k_zh k_zt k_hp k_ht sum_modes Nat.add firstn skipn app Nat.eqb]. rewrite Nat.sub_0_r, Nat.add_0_r. change (fact 0) with 1. rewrite !Nat.mul_1_r.
        rewrite over_mul by apply fact_neq_0. rewrite sum_tuples.
        rewrite (ksum_ext F _ (fun s => kmul F (t_product F args LHS s) (SpecEinsum.entry (args "dz_args"%string (p + x, 0)) (a :: s ++ is)))); [ring|].
        intros s _. unfold t_product at 2. cbn [map]. change (kprod F []) with (kone F). ring.
      + rewrite (ksum_zero F (fun ts => kmul F (t_product F args LHS ts) (kzero F)) (tuples N x)) by (intros s _; ring). ring.
    - cbn [negb]. rewrite ?andb_true_r.
      destruct (has_h H (i + y) 0); cbn [andb].
      2:{ rewrite (ksum_zero F (fun ts => kmul F (t_product F args LHS ts) (kzero F)) (tuples N y)) by (intros s _; ring). ring. }
      destruct (Nat.leb (p - i + x) CC).
      2:{ rewrite (ksum_zero F (fun ts => kmul F (t_product F args LHS ts) (kzero F)) (tuples N x)) by (intros s _; ring). ring. }
      unfold weighted_value, paired_value, h_on_z, k_z, k_up. cbn [paired k_zp k_zh k_zt k_hp k_ht sum_modes app]. rewrite Nat.add_0_r. change (fact 0) with 1. rewrite Nat.mul_1_r.
      destruct (Nat.eqb_spec (i + y) 0) as [E'|_]; [contradiction|].
      assert (O : one_over F (fact (p - i) * fact x * fact i * fact y) = kmul F (one_over F (fact i * fact (p - i))) (kmul F (one_over F (fact y)) (one_over F (fact x)))).
      { pose proof (fact_neq_0 x) as Fx. pose proof (fact_neq_0 y) as Fy. pose proof (fact_neq_0 i) as Fi. pose proof (fact_neq_0 (p - i)) as Fp.
        revert Fx Fy Fi Fp. generalize (fact x) (fact y) (fact i) (fact (p - i)). intros u v r t Hu Hv Hr Ht.
        rewrite (over_mul F (t * u * r) v), (over_mul F (t * u) r), (over_mul F t u), (over_mul F r t) by nia. ring. }
      rewrite O, sum_tuples. 
      rewrite (ksum_ext F _ (fun tz => ksum F (map (fun th => kmul F (kmul F (t_product F args LHS th) (SpecEinsum.entry (args "dT"%string (i + y, 0)) (th ++ firstn i is)))
         (kmul F (t_product F args LHS tz) (SpecEinsum.entry (args "z_args"%string (p - i + x, 0)) (a :: tz ++ skipn i is)))) (tuples N y))) (tuples N x)).
      2:{ intros tz _. rewrite sum_tuples. apply ksum_ext. intros th _. ring. }
      rewrite <- ksum_mul. ring.
  Qed.

  Lemma box_is_derivative : selected_value F A N args LHS (has_operators LHS H CC) (box H CC p) is a = displaced_derivative F N args H CC p is a.
  Proof.
    unfold selected_value, box. rewrite ksum_flat_map.
    rewrite (ksum_ext F _ (fun i => kadd F (if Nat.eqb i 0 then kmul F (one_over F (fact p)) (taylor F N args CC (state_coefficient F args "dz_args" CC a) p is) else kzero F)
      (kmul F (one_over F (fact i * fact (p - i)))
        (kmul F (taylor F N args H (dT_coefficient F args H) i (firstn i is)) (taylor F N args CC (state_coefficient F args "z_args" CC a) (p - i) (skipn i is)))))).
    - rewrite ksum_add. unfold displaced_derivative. f_equal.
      change (sum_below F (S p) (fun i => if Nat.eqb i 0 then kmul F (one_over F (fact p)) (taylor F N args CC (state_coefficient F args "dz_args" CC a) p is) else kzero F) =
              kmul F (one_over F (fact p)) (taylor F N args CC (state_coefficient F args "dz_args" CC a) p is)).
      rewrite (ksum_single F _ _ 0); [reflexivity|lia|]. intros c _ Nc. destruct c; [contradiction|reflexivity].
    - intros i _. rewrite ksum_flat_map. rewrite head_only.
      2:{ intros n Nn. rewrite ksum_flat_map. apply ksum_zero. intros x _. rewrite map_map. apply ksum_zero. intros y _. now rewrite left_down. }
      rewrite ksum_flat_map.
      rewrite (ksum_ext F _ (fun x => kadd F (if Nat.eqb i 0 then kmul F (one_over F (fact p)) (taylor_term (state_coefficient F args "dz_args" CC a) p is x) else kzero F)
        (kmul F (one_over F (fact i * fact (p - i))) (ksum F (map (fun y =>
          kmul F (taylor_term (dT_coefficient F args H) i (firstn i is) y) (taylor_term (state_coefficient F args "z_args" CC a) (p - i) (skipn i is) x)) (seq 0 (S H))))))).
      + rewrite ksum_add, ksum_scale, <- ksum_mul.
        assert (E : forall c k m, ksum F (map (fun x => taylor_term c k m x) (seq 0 (S CC))) = taylor F N args CC c k m) by reflexivity.
        change (ksum F (map (fun x => taylor_term (state_coefficient F args "z_args" CC a) (p - i) (skipn i is) x) (seq 0 (S CC)))) with (taylor F N args CC (state_coefficient F args "z_args" CC a) (p - i) (skipn i is)).
        change (ksum F (map (fun y => taylor_term (dT_coefficient F args H) i (firstn i is) y) (seq 0 (S H)))) with (taylor F N args H (dT_coefficient F args H) i (firstn i is)).
        destruct (Nat.eqb i 0).
        * rewrite ksum_scale, E. reflexivity.
        * rewrite (ksum_zero F (fun _ => kzero F)) by reflexivity. reflexivity.
      + intros x _. rewrite map_map. rewrite (ksum_ext F _ _ _ (fun y _ => left_term x y i)), ksum_add, ksum_scale. f_equal.
        destruct (Nat.eqb_spec i 0) as [->|Ni].
        * change (sum_below F (S H) (fun y => if Nat.eqb (0 + y) 0 then kmul F (one_over F (fact p)) (taylor_term (state_coefficient F args "dz_args" CC a) p is x) else kzero F) =
            kmul F (one_over F (fact p)) (taylor_term (state_coefficient F args "dz_args" CC a) p is x)).
          rewrite (ksum_single F _ _ 0); [reflexivity|lia|]. intros c _ Nc. destruct c; [contradiction|reflexivity].
        * apply ksum_zero. intros y _. destruct (Nat.eqb_spec (i + y) 0); [lia|reflexivity].
  Qed.
End Left.

Lemma file_derivative ground H CC e P text prog : 1 <= CC <= 8 -> H + CC <= e -> generate_eT_zhz_python LHS ground H CC 1 e P = Ok text -> python text prog ->
  forall p opt, p <= CC -> p <= P ->
    exists b1 b2, ground_branch prog (terms_head LHS p "HZ" opt) b1 /\ ground_branch prog (terms_head LHS p "eT_HZ" opt) b2 /\
      forall flag, (forall c, flag c = true) ->
        exists l1 l2, body_runs LHS flag b1 l1 /\ body_runs LHS flag b2 l2 /\
          forall F A N args, eT_axes F A N args -> forall a is, List.length is = p ->
            kadd F (kadd F (eT_added F args l1 (a :: is)) (eT_added F args l2 (a :: is))) (bare_value F A args LHS p is a) =
            displaced_derivative F N args H CC p is a.
Proof.
  intros HC Le G Py p opt L1 L2. destruct (file_total LHS ground H CC e P text prog HC G Py p opt L1 L2) as (b1 & b2 & B1 & B2 & V).
  exists b1, b2. split; [exact B1|]. split; [exact B2|]. intros flag T. destruct (V flag (all_allowed _ _ T)) as (l1 & l2 & R1 & R2 & W). exists l1, l2.
  split; [exact R1|]. split; [exact R2|]. intros F A N args Ax a is Li. rewrite (W F A N args Ax a is Li), <- (box_is_derivative F A N args H CC p is a), <- (to_box F A N args H CC p is a LHS e Le).
  unfold selected_value. apply ksum_ext. intros k _. now rewrite (all_allowed flag k T), andb_true_r.
Qed.
