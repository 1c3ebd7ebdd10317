(** Specification of the cancellation of common factors, independent of the
    model. *)
From Coq Require Import List Arith Permutation Sorted.
Import ListNotations.

(** The value of a list of factors under any meaning of the factors. *)
Definition value {A} (w : A -> nat) (l : list A) : nat := fold_right (fun x r => w x * r) 1 l.

(** num / den and num' / den' are the same fraction. *)
Definition same_fraction {A} (w : A -> nat) (num den num' den' : list A) : Prop :=
  value w num * value w den' = value w num' * value w den.

(** The two lists share no factor. *)
Definition no_common_factor {A} (num den : list A) : Prop := forall k, In k num -> In k den -> False.

(** Cancelling once: the same factors are taken out of both lists. *)
Definition cancelled {A} (num den num' den' : list A) : Prop :=
  exists common, Permutation num (common ++ num') /\ Permutation den (common ++ den').
