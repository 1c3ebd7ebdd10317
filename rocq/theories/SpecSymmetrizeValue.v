(** Specification vocabulary for the numbers that the generated symmetriser
    computes: numpy.transpose. *)
From Coq Require Import List Arith Permutation.
From Verif Require Import SpecEinsum.
Import ListNotations.

Section Transpose.
  Variable F : scalars.

  (** Where [j] stands in the list (its length if nowhere). *)
  Fixpoint position (j : nat) (l : list nat) : nat :=
    match l with [] => 0 | i :: r => if Nat.eqb i j then 0 else S (position j r) end.

  (** numpy.transpose(x, axes) raises no exception. *)
  Definition transpose_accepts (axes : list nat) (x : array F) : Prop := Permutation axes (seq 0 (List.length (shape x))).
  (** Axis i of the result is axis axes[i] of x. *)
  Definition transposed (axes : list nat) (x : array F) : array F :=
    mkarray (map (fun ax => nth ax (shape x) 0) axes)
            (fun idx => entry x (map (fun j => nth (position j axes) idx 0) (seq 0 (List.length axes)))).

  (** The sum of the transposed arrays. *)
  Definition sum_transposed (axes : list (list nat)) (x : array F) (idx : list nat) : K F :=
    ksum F (map (fun ax => entry (transposed ax x) idx) axes).
End Transpose.
