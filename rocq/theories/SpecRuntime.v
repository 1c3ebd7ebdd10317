(** Specification vocabulary: a generated file of the e^T ansatz that is run
    with smaller truncations than it was generated for. *)
From Coq Require Import List Arith String.
From Verif Require Import PyBase ModelEt ModelEtPy SpecEt SpecEtPy SpecPython SpecEtText.
Import ListNotations.
Local Open Scope string_scope.

(** The conditions of a caller who asks for a Hamiltonian up to rank H0 and z up
    to rank CC0, with amplitudes t_1. *)
Definition asks_for (flag : string -> bool) (H0 CC0 : nat) : Prop :=
  (forall i, 1 <= i <= 5 -> flag (h_condition i) = Nat.leb i H0) /\
  flag (t_condition 1) = true /\
  (forall k, 1 <= k <= 5 -> flag (z_condition k) = Nat.leb k CC0).

(** When [flag] says which conditions hold, the ground state branch of the
    function with first line [head] adds exactly the contractions of [good]. *)
Definition adds_under (s : side) (prog : list stmt) (head : string) (flag : string -> bool)
    (good : nat -> nat -> nat -> nat -> contraction -> Prop) : Prop :=
  exists doc ours others l,
    In (Block head [Simple doc; If "ansatz.ground_state" ours others; Simple "return"]) prog /\
    ((exec flag ours = ["pass"] /\ l = []) \/ statements_add s (exec flag ours) l) /\
    exactly_adds s good l.

(** Contractions with h^1_1. *)
Definition with_h11 (s : side) (CC P q m n k : nat) (c : contraction) : Prop :=
  s = RHS /\ m = 1 /\ n = 1 /\ k <= CC /\ complete P q m n k c.
