(** Specification vocabulary for partitions and compositions, independent of
    the model. *)
From Coq Require Import List Arith Permutation Sorted.
Import ListNotations.

(** A composition of [n]: a sequence of positive integers summing to [n]. *)
Definition composition_of (n : nat) (c : list nat) : Prop :=
  Forall (fun x => 1 <= x) c /\ fold_right Nat.add 0 c = n.

(** A partition of [n]: a composition listed in non-increasing order. *)
Definition partition_of (n : nat) (p : list nat) : Prop :=
  composition_of n p /\ Sorted (fun a b => b <= a) p.

(** Number of entries greater than one. *)
Definition big_parts (p : list nat) : nat := List.length (filter (fun x => Nat.ltb 1 x) p).

(** The three kinds of wave-operator contribution, by shape of the partition. *)
Definition connected_shape (p : list nat) : Prop := exists n, p = [n].
Definition linked_shape (p : list nat) : Prop := 2 <= List.length p /\ big_parts p <= 1.
Definition unlinked_shape (p : list nat) : Prop := 2 <= big_parts p.

(** "listed from largest to smallest, each once" for a list of tuples, in
    python's tuple order: strictly decreasing for the lexicographic order. *)
Inductive lex_lt : list nat -> list nat -> Prop :=
| lex_nil b y : lex_lt [] (b :: y)
| lex_head a b x y : a < b -> lex_lt (a :: x) (b :: y)
| lex_tail a x y : lex_lt x y -> lex_lt (a :: x) (a :: y).

Definition strictly_decreasing (l : list (list nat)) : Prop :=
  StronglySorted (fun x y => lex_lt y x) l.
Definition strictly_increasing (l : list (list nat)) : Prop :=
  StronglySorted lex_lt l.
