(** Model of the files written by [ground_state_w_equations_latex] and
    [excited_state_w_equations_latex], latex_w_equations.py. *)
From Coq Require Import List Ascii String Arith.
From Verif Require Import PyBase ModelHelper ModelLatexW ModelHeaders.
Import ListNotations.
Open Scope string_scope.

(** The first [k] lines of a text, [''.join(readlines()[0:k])]; simplified:
    lines end with a line feed only (python also ends them at carriage
    returns). *)
Fixpoint first_lines (k : nat) (s : string) : string :=
  match k, s with
  | 0, _ => ""
  | _, EmptyString => ""
  | S j, String c r => String c (if Nat.eqb (nat_of_ascii c) 10 then first_lines j r else first_lines (S j) r)
  end.

(** lines 126-131: the file is written anew, whatever was there ([old]). *)
Definition ground_state_w_file (so : list (list nat) -> list (list nat)) (old : option string) (max_w_order : nat) : string :=
  w_equations_latex_header ++ (ground_state_w_equations_latex so max_w_order ++ "\end{document}").

(** lines 246-265: the first 29 lines of the file that is there are kept; a
    new file gets the equations alone.  [Err]: an exception before anything is
    written. *)
Definition excited_state_w_file (so : list (list (nat * nat)) -> list (list (nat * nat))) (old : option string)
  (max_w_order : nat) : res string :=
  do latex_code <- excited_state_w_equations_latex so max_w_order;
  Ok (match old with
      | Some contents => first_lines 29 contents ++ (latex_code ++ "\end{document}")
      | None => latex_code
      end).

(** One run after the other on the same path. *)
Fixpoint excited_state_w_files so (old : option string) (orders : list nat) : res (option string) :=
  match orders with
  | [] => Ok old
  | n :: r => do file <- excited_state_w_file so old n; excited_state_w_files so (Some file) r
  end.
