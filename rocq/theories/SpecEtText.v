(** Specification vocabulary for the text of the generated python code of the
    e^T ansatz: what the statements add and how the conditions are named. *)
From Coq Require Import List Arith Ascii String.
From Verif Require Import PyBase ModelFullCC ModelEt ModelEtPy SpecEt SpecEtPy SpecPython.
Import ListNotations.
Local Open Scope string_scope.

(** The conditions for the rank of the Hamiltonian (or of dT), of the largest
    amplitude and of z. *)
Definition h_condition (i : nat) : string :=
  "truncation.h_at_least_" ++ nth i [""; "linear"; "quadratic"; "cubic"; "quartic"; "quintic"] "".
Definition t_condition (j : nat) : string :=
  "truncation.t_" ++ nth j [""; "singles"; "doubles"; "triples"; "quadruples"; "quintuples"; "sextuples"] "".
Definition z_condition (k : nat) : string :=
  "truncation.z_at_least_" ++ nth k [""; "linear"; "quadratic"; "cubic"; "quartic"; "quintic"] "".

(** The tensor the statements add to. *)
Definition result_name (s : side) : string := match s with RHS => "R" | LHS => "Z" end.

(** The statement [text] adds the contributions [l] (prefactor and call). *)
Definition statement_adds (s : side) (text : string) (l : list (nat * nat * ecall)) : Prop :=
  exists p calls, calls <> [] /\ l = map (pair p) calls /\
    text = result_name s ++ " += " ++ eT_prefactor_text p ++ sum_text (map call_text calls).

(** The statements [ts] add the contributions [l], in this order. *)
Definition statements_add (s : side) (ts : list string) (l : list (nat * nat * ecall)) : Prop :=
  exists ls, Forall2 (statement_adds s) ts ls /\ l = List.concat ls.

(** The body [b] of a branch: whatever the truth values of the conditions, it
    executes statements that add what the flags select, or the single statement
    [pass] if there is nothing to add under any flags. *)
Definition body_adds (s : side) (b : list stmt) (added : (nat -> bool) -> (nat -> bool) -> (nat -> bool) -> list (nat * nat * ecall)) : Prop :=
  b <> [] /\
  ((b = [Simple "pass"] /\ forall fh ft fz, added fh ft fz = []) \/
   (forall flag, statements_add s (exec flag b)
      (added (fun i => flag (h_condition i)) (fun j => flag (t_condition j)) (fun k => flag (z_condition k))))).

(** ** The program *)

(** The functions of a program, and what is executed when it is imported
    ([exec]). *)
Definition heads (prog : list stmt) : list string :=
  flat_map (fun x => match x with Block h _ => [h] | _ => [] end) prog.

Definition eT_imports : list string :=
  ["from math import factorial"; "import numpy as np"; "import opt_einsum as oe";
   "from .symmetrize import symmetrize_tensor"; "from ..log_conf import log"].

(** The parameters after the result, and the names and first lines of the
    functions for a projection with [p] annihilation operators: with [kind]
    "HZ" for the terms without amplitudes, "eT_HZ" for those with; the
    functions of the residual (the equation). *)
Definition parameters (s : side) : string :=
  match s with
  | RHS => "ansatz, truncation, t_args, h_args, z_args"
  | LHS => "ansatz, truncation, t_conj, dT, z_args, dz_args"
  end.
Definition optimized (opt : bool) : string := if opt then "_optimized" else "".
Definition terms_name (s : side) (p : nat) (kind : string) (opt : bool) : string :=
  match s with
  | RHS => "add_m0_n" ++ str_nat p ++ "_" ++ kind ++ "_terms" ++ optimized opt
  | LHS => "compute_m0_n" ++ str_nat p ++ "_" ++ kind ++ "_LHS" ++ optimized opt
  end.
Definition terms_head (s : side) (p : nat) (kind : string) (opt : bool) : string :=
  "def " ++ terms_name s p kind opt ++ "(" ++ result_name s ++ ", " ++ parameters s
  ++ (if opt then ", opt_einsum" else "") ++ "):".
Definition equation_head (s : side) (p : nat) (opt : bool) : string :=
  "def compute_m0_n" ++ str_nat p ++ "_amplitude" ++ optimized opt ++ "(A, N, " ++ parameters s
  ++ (if opt then ", opt_paths" else "") ++ "):".

(** The contribution of a contraction is enabled. *)
Definition enabled (flag : string -> bool) (q m n k : nat) : Prop :=
  (Nat.max m n = 0 \/ flag (h_condition (Nat.max m n)) = true) /\
  (q = 0 \/ flag (t_condition 1) = true) /\
  (k = 0 \/ flag (z_condition k) = true).

(** The statements [b] add exactly the enabled contractions of [good]. *)
Definition adds_exactly (s : side) (flag : string -> bool) (b : list stmt)
    (good : nat -> nat -> nat -> nat -> contraction -> Prop) : Prop :=
  exists l, ((exec flag b = ["pass"] /\ l = []) \/ statements_add s (exec flag b) l) /\
    exactly_adds s (fun q m n k c => good q m n k c /\ enabled flag q m n k) l.

(** The program has a function with first line [head] that adds exactly the
    contractions of [good] for the ground state; other states raise an
    exception in a program of the ground state and are treated in the same way
    in the other one. *)
Definition defines_terms (s : side) (ground : bool) (prog : list stmt) (head : string)
    (good : nat -> nat -> nat -> nat -> contraction -> Prop) : Prop :=
  exists doc ours others,
    In (Block head [Simple doc; If "ansatz.ground_state" ours others; Simple "return"]) prog /\
    String.prefix triple doc = true /\ (forall flag, adds_exactly s flag ours good) /\
    others = if ground then [Simple "raise NotImplementedError('Hot Band amplitudes not implemented!')"] else ours.

(** The program has the function of the residual: it checks the truncation,
    makes a tensor of the right rank and calls the two functions of the terms. *)
Definition equation_result (s : side) : string := match s with RHS => "R" | LHS => "dz" end.
Definition defines_equation (s : side) (prog : list stmt) (p : nat) (opt : bool) : Prop :=
  let r := equation_result s in
  let call kind := Simple (terms_name s p kind opt ++ "(" ++ r ++ ", " ++ parameters s
                           ++ (if opt then ", optimized_" ++ kind ++ "_paths" else "") ++ ")") in
  exists doc,
    In (Block (equation_head s p opt)
          (Simple doc
           :: map (fun x => Simple ("truncation.confirm_at_least_" ++ x ++ "()"))
                (firstn (Nat.max 1 p) ["singles"; "doubles"; "triples"; "quadruples"; "quintuples"; "sextuples"])
           ++ [Simple (r ++ " = np.zeros(shape=(A" ++ String.concat "" (repeat ", N" p) ++ "), dtype=complex)")]
           ++ (if opt then [Simple "optimized_HZ_paths, optimized_eT_HZ_paths = opt_paths"] else [])
           ++ [call "HZ"; call "eT_HZ"; Simple ("return " ++ r)])%list) prog /\
    String.prefix triple doc = true.
