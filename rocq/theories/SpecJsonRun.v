(** Specification vocabulary: truncation files that say the same. *)
From Coq Require Import List ZArith String.
From Verif Require Import PyBase ModelTrunc SpecTrunc SpecJson.

(** The text is a layout of items which are the truncations of the ansatz, each within
    its bounds. *)
Definition good_file (t : ktype) (l : list (tkey * Z)) (text : string) : Prop :=
  object_layout l text /\
  (forall k v, In (k, v) l -> exists top, In (k, top) (documented t)) /\
  (forall k top, In (k, top) (documented t) -> exists v, last_value l k v /\ (1 <= v <= top)%Z).
