(** Specification vocabulary for the text of the generated module of the
    residuals: its functions and the statements that add the terms. *)
From Coq Require Import List Arith Ascii String.
From Verif Require Import PyBase SpecPartitions SpecW SpecDt SpecResidual SpecPython SpecSumText SpecWText.
Import ListNotations.
Local Open Scope string_scope.

(** A backslash at the end of a line joins it with the next one.  (The files
    have no comment that ends with a backslash, where it would not.) *)
Fixpoint joined (s : string) : string :=
  match s with
  | "" => ""
  | String c r =>
      match r with
      | String d r' => if (Ascii.eqb c "\" && Ascii.eqb d newline)%bool then joined r' else String c (joined r)
      | "" => String c ""
      end
  end.

Definition residual_imports : list string := ["import numpy as np"; "from .symmetrize import symmetrize_tensor"].
Definition residual_head (p : nat) : string := "def calculate_order_" ++ str_nat p ++ "_residual(A, N, truncation, h_args, w_args):".

(** The text [t] is the number [num / den]. *)
Inductive fraction_text : nat -> nat -> string -> Prop :=
| fraction_one : fraction_text 1 1 "1.0"
| fraction_half : fraction_text 1 2 "0.5"
| fraction_of n d : fraction_text n d ("(" ++ str_nat n ++ "/" ++ str_nat d ++ ")")
| fraction_of_twice n d : fraction_text n (2 * d) ("(" ++ str_nat n ++ "/(2*" ++ str_nat d ++ "))").

Definition add_array (w h : string) : string := "R += " ++ w ++ " * " ++ h.
Definition add_contraction (w hd wd od h W : string) : string :=
  "R += " ++ w ++ " * np.einsum('" ++ hd ++ "," ++ wd ++ "->" ++ od ++ "', " ++ h ++ ", " ++ W ++ ")".

(** The statement [t] adds the term of h^m_n to the residual of order [p]: h
    alone when there is no W operator, otherwise its contraction with the W
    operator, in both cases over (p-m)! n! m!. *)
Definition adds_term (p : nat) (mn : nat * nat) (t : string) : Prop :=
  let (m, n) := mn in
  exists num den w, fraction_text num den w /\ residual_coefficient p m n num den /\
    ((p - m + n = 0 /\ t = add_array w (h_name m n)) \/
     (p - m + n <> 0 /\ exists hd wd od, contraction_labels p m n (list_ascii_of_string hd) (list_ascii_of_string wd) (list_ascii_of_string od) /\
        t = add_contraction w hd wd od (h_name m n) (w_name (p - m + n)))).

(** The W operator of order [k] was handed to the function. *)
Definition given (flag : string -> bool) (k : nat) : bool := flag (w_name k ++ " is not None").

(** The function of order [p] unpacks its arguments, makes an array of the shape
    of that order, asserts that the truncation has this rank, runs the statements
    [ts] and returns the array. *)
Definition residual_runs (prog : list stmt) (flag : string -> bool) (p : nat) (ts : list string) : Prop :=
  exists body doc check,
    In (Block (residual_head p) body) prog /\
    exec flag body =
      ([doc; "h_ab, h_abI, h_abi, h_abIj, h_abIJ, h_abij = h_args"; unpack_text (map w_name (seq 1 (p + 2))) "w_args";
        ("R = np.zeros(" ++ amp_shape p ++ ", dtype=complex)")%string; check] ++ ts ++ ["return R"])%list /\
    String.prefix triple doc = true /\
    String.prefix ("assert truncation." ++ rank_name (Nat.max 1 p) ++ ",") check = true.
