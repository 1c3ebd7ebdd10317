(** Reading the text of a generated python file: physical lines, logical lines
    and the block structure given by the indentation, and running a block under
    the truth values of its conditions.  Independent of the models. *)
From Coq Require Import List Arith Bool Ascii String.
Import ListNotations.
Local Open Scope string_scope.

(** ** Physical lines *)

Definition newline : ascii := "010".
Definition quote1 : ascii := "'".
Definition quote2 : ascii := """".

Fixpoint lines_of (s : string) : list string :=
  match s with
  | "" => [""]
  | String c r =>
      if Ascii.eqb c newline then "" :: lines_of r
      else match lines_of r with
           | [] => [String c ""]
           | l :: ls => String c l :: ls
           end
  end.

Fixpoint leading_spaces (s : string) : nat :=
  match s with String " " r => S (leading_spaces r) | _ => 0 end.
Fixpoint drop_spaces (s : string) : string :=
  match s with String " " r => drop_spaces r | _ => s end.
Fixpoint only_spaces (s : string) : bool :=
  match s with "" => true | String " " r => only_spaces r | _ => false end.
(** without the spaces at the end *)
Fixpoint trim_end (s : string) : string :=
  match s with
  | "" => ""
  | String c r => if only_spaces s then "" else String c (trim_end r)
  end.

(** ** Brackets, strings and comments on a line *)

Definition opens (c : ascii) : bool := Ascii.eqb c "(" || Ascii.eqb c "[" || Ascii.eqb c "{".
Definition closes (c : ascii) : bool := Ascii.eqb c ")" || Ascii.eqb c "]" || Ascii.eqb c "}".

(** [scan q d s]: the text of [s] before a comment and the number of open
    brackets at its end, when [d] are open at its start; [q] is the quote of
    the string literal we are in.  None for a literal that does not end on the
    line or a bracket that was not opened.  (Which bracket closes which is not
    checked; no quote is escaped.) *)
Fixpoint scan (q : option ascii) (d : nat) (s : string) : option (string * nat) :=
  let keep c x := match x with Some (t, d) => Some (String c t, d) | None => None end in
  match s with
  | "" => match q with None => Some ("", d) | Some _ => None end
  | String c r =>
      match q with
      | Some k => keep c (scan (if Ascii.eqb c k then None else q) d r)
      | None =>
          if Ascii.eqb c "#" then Some ("", d)
          else if Ascii.eqb c quote1 || Ascii.eqb c quote2 then keep c (scan (Some c) d r)
          else if opens c then keep c (scan None (S d) r)
          else if closes c then match d with 0 => None | S d' => keep c (scan None d' r) end
          else keep c (scan None d r)
      end
  end.

(** ** Logical lines *)

(** A logical line: its indentation and its text. *)
Definition lline : Type := nat * string.

(** Between logical lines, inside brackets ([d] of them open), or inside a
    documentation string. *)
Inductive lex_state :=
| Top
| InBrackets (i : nat) (t : string) (d : nat)
| InDoc (i : nat) (t : string).

Definition triple : string := """""""".
Fixpoint ends_with (e s : string) : bool :=
  String.eqb e s || match s with "" => false | String _ r => ends_with e r end.

(** One physical line.  Lines inside brackets are joined with a space. *)
Definition lex_line (st : lex_state) (l : string) : option (lex_state * list lline) :=
  let body := drop_spaces l in
  match st with
  | Top =>
      if String.prefix triple body then
        let t := trim_end body in
        if Nat.leb 6 (String.length t) && ends_with triple t then Some (Top, [(leading_spaces l, t)])
        else Some (InDoc (leading_spaces l) t, [])
      else
        match scan None 0 body with
        | None => None
        | Some (t, d) =>
            match trim_end t, d with
            | "", 0 => Some (Top, [])
            | t, 0 => Some (Top, [(leading_spaces l, t)])
            | t, _ => Some (InBrackets (leading_spaces l) t d, [])
            end
        end
  | InBrackets i t0 d0 =>
      match scan None d0 body with
      | None => None
      | Some (t, d) =>
          let t1 := match trim_end t with "" => t0 | t => t0 ++ " " ++ t end in
          match d with
          | 0 => Some (Top, [(i, t1)])
          | _ => Some (InBrackets i t1 d, [])
          end
      end
  | InDoc i t0 =>
      let t := trim_end body in
      let t1 := t0 ++ String newline t in
      if ends_with triple t then Some (Top, [(i, t1)]) else Some (InDoc i t1, [])
  end.

Fixpoint lex (st : lex_state) (ls : list string) : option (lex_state * list lline) :=
  match ls with
  | [] => Some (st, [])
  | l :: r =>
      match lex_line st l with
      | None => None
      | Some (st', out) =>
          match lex st' r with
          | None => None
          | Some (st'', out') => Some (st'', (out ++ out')%list)
          end
      end
  end.

(** The logical lines of complete text. *)
Definition logical_lines (ls : list string) (out : list lline) : Prop := lex Top ls = Some (Top, out).

(** ** Blocks *)

(** A statement on one logical line, a conditional, or another line that ends
    with a colon (a function definition) with the block below it. *)
Inductive stmt :=
| Simple (t : string)
| If (c : string) (yes no : list stmt)
| Block (head : string) (body : list stmt).

Definition is_head (t : string) : bool := ends_with ":" t.
Definition if_line (c : string) : string := "if " ++ c ++ ":".
Definition elif_line (c : string) : string := "elif " ++ c ++ ":".
Definition other_head (t : string) : bool :=
  is_head t && negb (String.prefix "if " t) && negb (String.prefix "elif " t) && negb (String.eqb t "else:").

(** [reads i ls b]: the lines [ls] are a sequence of statements [b] at
    indentation [i].  Every line that ends with a colon is followed by a block
    with at least one statement, indented further.  [elif] is [else] with an
    [if] inside. *)
Inductive reads : nat -> list lline -> list stmt -> Prop :=
| reads_nil i : reads i [] []
| reads_simple i t ls b : is_head t = false -> reads i ls b -> reads i ((i, t) :: ls) (Simple t :: b)
| reads_if i c j inner ls b1 b :
    i < j -> b1 <> [] -> reads j inner b1 -> reads i ls b ->
    reads i ((i, if_line c) :: (inner ++ ls)%list) (If c b1 [] :: b)
| reads_if_else i c j inner j' inner' ls b1 b2 b :
    i < j -> b1 <> [] -> reads j inner b1 -> i < j' -> b2 <> [] -> reads j' inner' b2 -> reads i ls b ->
    reads i ((i, if_line c) :: (inner ++ (i, "else:") :: inner' ++ ls)%list) (If c b1 b2 :: b)
| reads_elif i c j inner c' ls b1 yes no b :
    i < j -> b1 <> [] -> reads j inner b1 -> reads i ((i, if_line c') :: ls) (If c' yes no :: b) ->
    reads i ((i, if_line c) :: (inner ++ (i, elif_line c') :: ls)%list) (If c b1 [If c' yes no] :: b)
| reads_block i t j inner ls b1 b :
    other_head t = true -> i < j -> b1 <> [] -> reads j inner b1 -> reads i ls b ->
    reads i ((i, t) :: (inner ++ ls)%list) (Block t b1 :: b).

(** The program of a text. *)
Definition python (text : string) (b : list stmt) : Prop :=
  exists ls, logical_lines (lines_of text) ls /\ reads 0 ls b.

(** ** Running *)

(** The simple statements executed when [flag c] is the truth value of a
    condition [c], in order.  The body of another block is not executed.
    Statements are only recorded: a [return] does not end the list. *)
Fixpoint exec1 (flag : string -> bool) (s : stmt) : list string :=
  match s with
  | Simple t => [t]
  | If c yes no => if flag c then flat_map (exec1 flag) yes else flat_map (exec1 flag) no
  | Block _ _ => []
  end.
Definition exec (flag : string -> bool) (b : list stmt) : list string := flat_map (exec1 flag) b.

(** A sum as it is written: a single summand, or several in brackets (on
    separate lines, which the reader joins with blanks). *)
Definition sum_text (l : list string) : string :=
  match l with [c] => c | _ => "( " ++ String.concat " + " l ++ " )" end.
