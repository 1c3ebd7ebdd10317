(** Specification vocabulary for C108: requests whose text can change from one
    run of python to the next.  Sets of strings are iterated in an order that
    changes with the hash seed of the interpreter; sets of numbers and of tuples
    of numbers are not. *)
From Coq Require Import List Arith ZArith.
From Verif Require Import PyBase ModelTrunc SpecTrunc SpecRun.
Import ListNotations.

(** Truncations at which a prefactor of the full coupled cluster equations has
    two different factorials left after cancelling, ground state only ... *)
Definition ground_can_vary (H cc S P : nat) : Prop :=
  2 <= cc /\ 2 <= P /\ ((5 <= H /\ 2 <= S) \/ (4 <= H /\ 3 <= S /\ 4 <= cc /\ 4 <= P)).

(** ... and with excited states. *)
Definition excited_can_vary (H cc S : nat) : Prop :=
  (5 <= H /\ 2 <= S /\ 2 <= cc) \/ (4 <= H /\ 3 <= S).

(** The python code of full coupled cluster is that of the ground state whatever
    is asked for. *)
Definition can_vary (c : generator_call) : Prop :=
  gc_ansatz c = FullCC /\ acceptable Fcc (gc_trunc c) /\
  exists H cc S P, fcc_values (gc_trunc c) H cc S P /\
    match gc_kind c, gc_ground c with
    | KLatex, false => excited_can_vary H cc S
    | _, _ => ground_can_vary H cc S P
    end.
