(** Specification vocabulary for the numbers that the generated functions of the
    time derivatives compute: numbers with a time derivative. *)
From Coq Require Import List Arith Bool Ascii String Ring_theory Ring.
From Verif Require Import PyBase SpecPartitions SpecW SpecDt SpecSumText SpecWText SpecDtText SpecEinsum SpecWValue.
Import ListNotations.

Section Dual.
  Variable F : scalars.
  Add Ring dual_base : (k_ring F).

  (** A number with its time derivative; products by the product rule. *)
  Definition with_derivative : Type := (K F * K F)%type.
  Definition d_add (x y : with_derivative) : with_derivative := (kadd F (fst x) (fst y), kadd F (snd x) (snd y)).
  Definition d_mul (x y : with_derivative) : with_derivative :=
    (kmul F (fst x) (fst y), kadd F (kmul F (snd x) (fst y)) (kmul F (fst x) (snd y))).
  Definition d_opp (x : with_derivative) : with_derivative := (kopp F (fst x), kopp F (snd x)).
  Definition d_sub (x y : with_derivative) : with_derivative := (ksub F (fst x) (fst y), ksub F (snd x) (snd y)).
  (** Constants do not depend on time. *)
  Definition d_const (x : K F) : with_derivative := (x, kzero F).

  Lemma d_ring : ring_theory (d_const (kzero F)) (d_const (kone F)) d_add d_mul d_sub d_opp eq.
  Proof.
    constructor; intros; unfold d_add, d_mul, d_sub, d_opp, d_const; repeat match goal with x : with_derivative |- _ => destruct x end; cbn [fst snd];
      first [f_equal; ring | idtac].
  Qed.
  Lemma d_of_nat n s : fold_right (fun _ r => d_add (d_const (kone F)) r) (d_const (kzero F)) (seq s n) = d_const (fold_right (fun _ r => kadd F (kone F) r) (kzero F) (seq s n)).
  Proof. revert s. induction n as [|n IH]; intros s; [reflexivity|]. cbn [seq fold_right]. rewrite IH. unfold d_add, d_const. cbn [fst snd]. f_equal. ring. Qed.
  Lemma d_over n : d_mul (fold_right (fun _ r => d_add (d_const (kone F)) r) (d_const (kzero F)) (seq 0 (S n))) (d_const (one_over F (S n))) = d_const (kone F).
  Proof. rewrite d_of_nat. unfold d_mul, d_const. cbn [fst snd]. rewrite (k_over F n). f_equal. ring. Qed.

  (** The numbers of [F] that depend on time. *)
  Definition in_time : scalars :=
    mkscalars with_derivative (d_const (kzero F)) (d_const (kone F)) d_add d_mul d_sub d_opp (fun n => d_const (one_over F n)) d_ring d_over.
End Dual.

Section DtValue.
  Variable F : scalars.
  Variables A N : nat.
  Variable env : string -> array F.

  (** The array of each name with its time derivative: the array named "d" and
      this name. *)
  Definition env_in_time (s : string) : array (in_time F) :=
    mkarray (F := in_time F) (shape (env s)) (fun idx => (entry (env s) idx, entry (env (String "d" s)) idx)).

  (** Amplitudes, their derivatives, W operators and epsilon have the shapes the
      program expects. *)
  Definition dt_axes : Prop :=
    (forall r, 1 <= r <= 6 -> has_axes F A N r (env (amp_name r)) /\ has_axes F A N r (env (dt_amp_name r)) /\ has_axes F A N r (env (w_name r))) /\
    has_axes F A N 0 (env "epsilon"%string).

  (** The product is accepted by numpy and has [k] axes of modes. *)
  Definition product_fits (k : nat) (p : product) : Prop :=
    product_accepted F env p /\ has_axes F A N k (einsum_array F (p_ins p) (p_out p) (map env (p_ops p))).
End DtValue.

Section Disconnected.
  Variable F : scalars.
  Variable A : nat.
  Variable env : string -> array F.

  (** The terms of exp(T) with two and more factors that the ansatz keeps: all;
      those that are at most linear in the amplitudes of rank two and more; none. *)
  Definition disconnected_value (kind : ansatz_kind) (k : nat) : tensor_series F :=
    let T := cluster F env (fun _ => true) in
    fun is => msum F (map (fun j => mscale F (one_over F (fact j))
      (match kind with
       | Kind_CI => fun _ _ => kzero F
       | Kind_mixed => power_linear F A (T 1 1) (T 2 k) j is
       | Kind_CC => series_power F A (T 1 k) j is
       end)) (seq 2 (k - 1))).
End Disconnected.

(** What is subtracted from the residual of order [k]: W times epsilon over k!,
    and the time derivative of the disconnected terms. *)
Definition subtracted_value (F : scalars) (A : nat) (env : string -> array F) (kind : ansatz_kind) (k : nat) (is : list nat) (a b : nat) : K F :=
  kadd F (kmul F (one_over F (fact k)) (mmul F A (at_modes F (env (w_name k)) is) (at_modes F (env "epsilon"%string) []) a b))
         (snd (disconnected_value (in_time F) A (env_in_time F env) kind k is a b)).
