(** Specification vocabulary for the text of the symmetriser. *)
From Coq Require Import List Arith Ascii String Permutation.
From Verif Require Import PyBase SpecPython SpecSumText.
Import ListNotations.
Local Open Scope string_scope.

Definition symmetrize_head : string := "def symmetrize_tensor(tensor, order):".

(** The statement that adds the tensor with its axes in the order [ax]. *)
Definition add_transposed (ax : list nat) : string := "X += np.transpose(tensor, (" ++ commas (map str_nat ax) ++ "))".

(** The order handed to the function, seen through its conditions. *)
Definition order_is (flag : string -> bool) (k : nat) : Prop := forall n, flag ("order == " ++ str_nat n) = Nat.eqb n k.

(** The axes with the first two (the surfaces) in place and the [k] axes of the
    modes in any order, each once. *)
Definition mode_orders (k : nat) (axes : list (list nat)) : Prop :=
  NoDup axes /\ forall ax, In ax axes <-> exists p, ax = 0 :: 1 :: p /\ Permutation p (seq 2 k).
