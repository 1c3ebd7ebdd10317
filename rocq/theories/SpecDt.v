(** Specification vocabulary for the derivative equations, independent of the
    model: the Leibniz rule for ordered products. *)
From Coq Require Import List Arith String Ascii.
From Verif Require Import SpecPartitions SpecW.
Import ListNotations.

(** The factors of the product [c] with factor number [i] differentiated. *)
Definition leibniz_term (c : list nat) (i : nat) : list string :=
  map amp_name (firstn i c) ++ map dt_amp_name (firstn 1 (skipn i c)) ++ map amp_name (skipn (S i) c).

(** The W operator of order [n] is named w_ij.. with [n] letters. *)
Definition w_name (n : nat) : string := String "w" (String "_" (string_of (firstn n mode_letters))).

(** Which products an ansatz keeps beside the connected one. *)
Inductive ansatz_kind := Kind_CI | Kind_mixed | Kind_CC.
Definition disconnected_in (k : ansatz_kind) (c : list nat) : Prop :=
  2 <= List.length c /\
  match k with
  | Kind_CI => False
  | Kind_mixed => big_parts c <= 1
  | Kind_CC => True
  end.
