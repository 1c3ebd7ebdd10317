(** What TeX reads in the text of a formula, independent of the code that
    prints it: the tokens of the text and the math list they form (The
    TeXbook, chapters 8 and 17, with the usual category codes).

    Only what the printed formulas use is described: control sequences,
    braces, superscripts and subscripts, comments, blanks and empty lines.
    Every other character stands for itself. *)
From Coq Require Import List Ascii String Bool Arith.
Import ListNotations.
Open Scope string_scope.

(** ** Tokens *)

Inductive token :=
| Command (name : string)          (* \name, or \c for one other character *)
| Char (c : ascii)                 (* any character that stands for itself *)
| Open | Close                     (* { and } *)
| Sup | Sub                        (* ^ and _ *)
| Paragraph.                       (* an empty line *)

Definition letter (c : ascii) : bool :=
  let n := nat_of_ascii c in
  (Nat.leb 65 n && Nat.leb n 90) || (Nat.leb 97 n && Nat.leb n 122).

Definition end_of_line (c : ascii) : bool := Nat.eqb (nat_of_ascii c) 10.
Definition blank (c : ascii) : bool := Ascii.eqb c " ".

(** TeX's states: at the beginning of a line, in the middle of one, skipping
    blanks, behind a backslash, inside the name of a control word, inside a
    comment. *)
Inductive state := NewLine | Middle | Skipping | Escape | Word (name : string) | Comment.

(** A character read outside of a control sequence or comment.  Blanks inside
    a formula have no effect. *)
Definition plain_step (st : state) (c : ascii) : state * list token :=
  if end_of_line c then (NewLine, match st with NewLine => [Paragraph] | _ => [] end)
  else if blank c then (match st with NewLine => NewLine | _ => Skipping end, [])
  else if Ascii.eqb c "\" then (Escape, [])
  else if Ascii.eqb c "%" then (Comment, [])
  else if Ascii.eqb c "{" then (Middle, [Open])
  else if Ascii.eqb c "}" then (Middle, [Close])
  else if Ascii.eqb c "^" then (Middle, [Sup])
  else if Ascii.eqb c "_" then (Middle, [Sub])
  else (Middle, [Char c]).

Definition step (st : state) (c : ascii) : state * list token :=
  match st with
  | Comment => if end_of_line c then (NewLine, []) else (Comment, [])
  | Escape => if letter c then (Word (String c ""), [])
              else (Middle, [Command (String c "")])
  | Word name =>
      if letter c then (Word (name ++ String c ""), [])
      else let (st', ts) := plain_step Skipping c in (st', Command name :: ts)
  | _ => plain_step st c
  end.

Fixpoint scan (st : state) (s : string) : state * list token :=
  match s with
  | EmptyString => (st, [])
  | String c r =>
      let (st1, t1) := step st c in
      let (st2, t2) := scan st1 r in
      (st2, t1 ++ t2)
  end%list.

(** The tokens of a text that starts on a line of its own. *)
Definition tokens (s : string) : list token :=
  match scan NewLine s with
  | (Word name, ts) => ts ++ [Command name]
  | (_, ts) => ts
  end%list.

(** ** Math lists *)

(** A field is one token or a group; an atom is a field with at most one
    superscript and at most one subscript. *)
Inductive field :=
| One (t : token)
| Group (l : list atom)
with atom :=
| Atom (nucleus : field) (sup sub : option field).

Definition stands_for_itself (t : token) : Prop :=
  match t with Command _ | Char _ => True | _ => False end.

(** [field_text ts f]: the tokens [ts] are the field [f]; a script of more
    than one token must be in braces. *)
Inductive field_text : list token -> field -> Prop :=
| one_token t : stands_for_itself t -> field_text [t] (One t)
| group ts l : list_text ts l -> field_text (Open :: ts ++ [Close]) (Group l)
with atom_text : list token -> atom -> Prop :=
| no_script n f : field_text n f -> atom_text n (Atom f None None)
| sup_only n f u a : field_text n f -> field_text u a ->
    atom_text (n ++ Sup :: u) (Atom f (Some a) None)
| sub_only n f d b : field_text n f -> field_text d b ->
    atom_text (n ++ Sub :: d) (Atom f None (Some b))
| sup_sub n f u a d b : field_text n f -> field_text u a -> field_text d b ->
    atom_text (n ++ Sup :: u ++ Sub :: d) (Atom f (Some a) (Some b))
| sub_sup n f u a d b : field_text n f -> field_text u a -> field_text d b ->
    atom_text (n ++ Sub :: d ++ Sup :: u) (Atom f (Some a) (Some b))
with list_text : list token -> list atom -> Prop :=
| empty_list : list_text [] []
| one_more ts a us l : atom_text ts a -> list_text us l -> list_text (ts ++ us) (a :: l).

(** [formula s l]: TeX reads the text [s] inside a formula as the math list
    [l].  An empty line ends a formula with an error, so [Paragraph] is no
    part of any list. *)
Definition formula (s : string) (l : list atom) : Prop := list_text (tokens s) l.
