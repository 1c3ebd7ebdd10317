(** Specification vocabulary: calls of opt_einsum.contract_expression without an
    equation.  The equation is the first argument, a string such as 'ac, cb -> ab',
    so a statement that has one has a quote. *)
From Coq Require Import List Arith Bool Ascii String.
From Verif Require Import PyBase ModelFullCC ModelFullCCPy SpecFullCCPy SpecPython SpecEtText SpecFullCCText.
Import ListNotations.

Definition quote_free (s : string) : Prop :=
  forall c, In c (list_ascii_of_string s) -> c <> "'"%char /\ c <> """"%char.
Definition mentions (piece s : string) : Prop := exists before after, s = (before ++ piece ++ after)%string.

(** The first argument is the shape of the first operand, and no argument is a
    string. *)
Definition call_without_equation (t : string) : Prop :=
  mentions "oe.contract_expression((A, A" t /\ quote_free t.

(** The function of the paths of a group against the default function of the
    group: where the default function makes no call, it does nothing; otherwise it
    runs statements, and all of them call contract_expression without an equation. *)
Definition paths_without_equation (prog : list stmt) (m n : nat) (g : string * string) : Prop :=
  exists bares what,
    defines_cc_terms prog m n false g (branch_does (sum_adds einsum_text) bares what) /\
    defines_cc_paths prog m n g (fun body => forall flag,
      let calls := what (fun i => flag (cc_h_condition i)) (fun j => flag (cc_t_condition j)) in
      (calls = [] -> exec flag body = [] \/ exec flag body = ["pass"%string]) /\
      (calls <> [] -> exec flag body <> [] /\ Forall call_without_equation (exec flag body))).

(** With all conditions true the function of the paths makes such a call. *)
Definition paths_fail (prog : list stmt) (m n : nat) (g : string * string) : Prop :=
  defines_cc_paths prog m n g (fun body => exists t, In t (exec (fun _ => true) body) /\ call_without_equation t).
