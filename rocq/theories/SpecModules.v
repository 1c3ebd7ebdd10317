(** Specification vocabulary for the generated modules together: what one module
    takes from another one. *)
From Coq Require Import List Arith Bool Ascii String.
From Verif Require Import PyBase SpecW SpecPython SpecSumText SpecEtText SpecWText SpecResidualText SpecNames.
Import ListNotations.
Local Open Scope string_scope.

(** The functions of the W operators of the orders above [M] and up to six. *)
Definition w_functions_above (M : nat) : list string :=
  flat_map (fun opt => map (fun k => w_fun_name k opt) (seq (S M) (6 - M))) [false; true].

(** An imported function is called with as many arguments as it has parameters
    in the program [other]. *)
Definition imported_calls_match (f : string) (prog other : list stmt) : Prop :=
  forall t n, In t (all_lines prog) -> In (f, n) (calls t) -> In (f, n) (signatures other).

(** The function returns the values [vs]: before that it neither returns nor
    raises. *)
Definition returns_values (flag : string -> bool) (body : list stmt) (vs : list string) : Prop :=
  exists before, Forall (fun t => leaves t = false) before /\
    starts_with (exec flag body) (before ++ [("return " ++ commas vs)%string])%list.

(** The values [vs] are the W operators handed to a residual function. *)
Definition receives (flag : string -> bool) (vs : list string) : Prop :=
  forall k v, nth_error vs k = Some v -> given flag (S k) = negb (String.eqb v "None").
