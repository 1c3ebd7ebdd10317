(** Specification vocabulary: the numbers that a reader of the typeset equations of
    the W operators computes. *)
From Coq Require Import List Arith Bool Ascii String.
From Verif Require Import SpecPartitions SpecW SpecLatexW SpecTexW SpecSumText SpecWText SpecEinsum SpecWValue SpecSymmetricW.
Import ListNotations.

Section Printed.
  Variable F : scalars.
  Variable A : nat.
  Variable env : string -> array F.

  (** The amplitude of rank r; those outside the truncation are zero. *)
  Definition printed_amplitude (trunc : string -> bool) (r : nat) : tensor_series F :=
    fun is => if trunc (rank_name r) then at_modes F (env (amp_name r)) is else fun _ _ => kzero F.

  (** A symmetrised product of amplitudes: the sum over all ways to deal the modes out
      to the factors, of the products in the order they are printed in. *)
  Fixpoint dealt_product (trunc : string -> bool) (ranks : list nat) : tensor_series F :=
    match ranks with
    | [] => unit_series F
    | r :: rest => fun is => msum F (map (fun uv => mmul F A (printed_amplitude trunc r (fst uv)) (dealt_product trunc rest (snd uv)))
        (filter (fun uv => Nat.eqb (List.length (fst uv)) r) (deals is)))
    end.

  (** The right hand side of a row: each product with one over its factorials, its
      powers multiplied out. *)
  Definition printed_sum (trunc : string -> bool) (products : list (list nat * list ((nat * nat) * nat))) : tensor_series F :=
    fun is => msum F (map (fun pr => mscale F (one_over F (product_of_factorials (fst pr)))
      (dealt_product trunc (map fst (multiply_out (snd pr))) is)) products).

  (** The amplitudes commute as matrices. *)
  Definition amplitudes_commute (k : nat) : Prop :=
    forall r s is js a b, 1 <= r <= k -> 1 <= s <= k -> List.length is = r -> List.length js = s -> a < A -> b < A ->
      mmul F A (at_modes F (env (amp_name r)) is) (at_modes F (env (amp_name s)) js) a b =
      mmul F A (at_modes F (env (amp_name s)) js) (at_modes F (env (amp_name r)) is) a b.
End Printed.
