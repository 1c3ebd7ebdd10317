(** Which names a generated python program reads and binds, and which functions
    it calls with how many arguments.  Independent of the models. *)
From Coq Require Import List Arith Bool Ascii String.
From Verif Require Import SpecPython.
Import ListNotations.
Local Open Scope string_scope.

(** ** Tokens *)

(** A word (a name, a keyword or a number) or another character.  String
    literals are left out, except for the fields of a literal that starts with
    f. *)
Inductive token := Word (w : string) | Sign (c : ascii).

Definition is_digit (c : ascii) : bool :=
  match c with
  | "0" | "1" | "2" | "3" | "4" | "5" | "6" | "7" | "8" | "9" => true
  | _ => false
  end%char.
Definition word_char (c : ascii) : bool :=
  match c with
  | "a" | "b" | "c" | "d" | "e" | "f" | "g" | "h" | "i" | "j" | "k" | "l" | "m"
  | "n" | "o" | "p" | "q" | "r" | "s" | "t" | "u" | "v" | "w" | "x" | "y" | "z"
  | "A" | "B" | "C" | "D" | "E" | "F" | "G" | "H" | "I" | "J" | "K" | "L" | "M"
  | "N" | "O" | "P" | "Q" | "R" | "S" | "T" | "U" | "V" | "W" | "X" | "Y" | "Z"
  | "0" | "1" | "2" | "3" | "4" | "5" | "6" | "7" | "8" | "9" | "_" => true
  | _ => false
  end%char.

(** Outside of literals, where [w] is the part of a word read so far; inside of
    a literal with quote [q]; inside of a field of such a literal. *)
Inductive token_state :=
| Code (w : string)
| Literal (q : ascii) (fields : bool)
| Field (q : ascii) (w : string).

Definition word_end (w : string) : list token := match w with "" => [] | _ => [Word w] end.
Definition sign (c : ascii) : list token := if Ascii.eqb c " " then [] else [Sign c].

Fixpoint tokens (st : token_state) (s : string) : list token :=
  match s with
  | "" => match st with Code w => word_end w | _ => [] end
  | String c r =>
      match st with
      | Code w =>
          if word_char c then tokens (Code (w ++ String c "")) r
          else if Ascii.eqb c quote1 || Ascii.eqb c quote2 then
            (if String.eqb w "f" then tokens (Literal c true) r else word_end w ++ tokens (Literal c false) r)%list
          else (word_end w ++ sign c ++ tokens (Code "") r)%list
      | Literal q fields =>
          if Ascii.eqb c q then tokens (Code "") r
          else if (fields && Ascii.eqb c "{")%bool then tokens (Field q "") r
          else tokens (Literal q fields) r
      | Field q w =>
          if word_char c then tokens (Field q (w ++ String c "")) r
          else if Ascii.eqb c "}" then (word_end w ++ tokens (Literal q true) r)%list
          else (word_end w ++ sign c ++ tokens (Field q "") r)%list
      end
  end.
Definition tokens_of (t : string) : list token := tokens (Code "") t.

(** ** Names *)

Definition keywords : list string :=
  ["and"; "as"; "assert"; "def"; "elif"; "else"; "for"; "from"; "if"; "import"; "in"; "is"; "lambda"; "not"; "or"; "pass"; "raise";
   "return"; "while"; "with"; "yield"; "None"; "True"; "False"].
Definition builtins : list string := ["Exception"; "NotImplementedError"; "complex"; "iter"; "len"; "next"; "range"].

Definition member (x : string) (l : list string) : bool := existsb (String.eqb x) l.
Definition is_name (w : string) : bool :=
  match w with String c _ => negb (is_digit c) && negb (member w keywords) | "" => false end.
Definition is_sign (c : ascii) (t : token) : bool := match t with Sign d => Ascii.eqb c d | Word _ => false end.
Definition next_is (p : token -> bool) (ts : list token) : bool := match ts with t :: _ => p t | [] => false end.
Definition open_token (t : token) : bool := match t with Sign c => opens c | Word _ => false end.
Definition close_token (t : token) : bool := match t with Sign c => closes c | Word _ => false end.
Definition deeper (t : token) (d : nat) : nat := if open_token t then S d else if close_token t then d - 1 else d.

(** The names in an expression: not the attributes (after a dot), not the
    keywords of arguments (before a single = inside brackets). *)
Fixpoint names_in (d : nat) (after_dot : bool) (ts : list token) : list string :=
  match ts with
  | [] => []
  | t :: r =>
      let rest := names_in (deeper t d) (is_sign "." t) r in
      match t with
      | Word w =>
          let argument := Nat.ltb 0 d && next_is (is_sign "=") r && negb (next_is (is_sign "=") (tl r)) in
          if is_name w && negb after_dot && negb argument then w :: rest else rest
      | Sign _ => rest
      end
  end.

(** The tokens on both sides of an = outside of brackets (not of ==). *)
Fixpoint assignment (d : nat) (ts : list token) : option (list token * list token) :=
  match ts with
  | [] => None
  | t :: r =>
      if Nat.eqb d 0 && is_sign "=" t then
        if next_is (is_sign "=") r then None else Some ([], r)
      else match assignment (deeper t d) r with Some (a, b) => Some (t :: a, b) | None => None end
  end.

(** Names separated by commas, possibly with a star. *)
Definition plain_target (t : token) : bool :=
  match t with Word w => is_name w | Sign c => Ascii.eqb c "," || Ascii.eqb c "*" end.

(** The names a line reads and the names it binds.  An assignment to something
    else than plain names (also += and -=) only reads; a documentation string
    does nothing. *)
Definition effect (t : string) : list string * list string :=
  let ts := if String.prefix triple t then [] else tokens_of t in
  match ts with
  | Word w :: _ =>
      if String.eqb w "import" || String.eqb w "from" then ([], match rev ts with Word n :: _ => [n] | _ => [] end)
      else match assignment 0 ts with
           | None => (names_in 0 false ts, [])
           | Some (lhs, rhs) =>
               if forallb plain_target lhs then (names_in 0 false rhs, names_in 0 false lhs)
               else (names_in 0 false lhs ++ names_in 0 false rhs, [])%list
           end
  | _ => (names_in 0 false ts, [])
  end.
Definition names_read (t : string) : list string := fst (effect t).
Definition names_bound (t : string) : list string := snd (effect t).

(** The name and the parameters of the head of a function (without default
    values). *)
Definition head_name (t : string) : string :=
  match tokens_of t with Word _ :: Word f :: _ => f | _ => "" end.
Definition parameters (t : string) : list string := tl (names_in 0 false (tokens_of t)).

(** ** Running *)

(** The conditions tested and the statements executed, in order, until the
    first return or exception. *)
Fixpoint visited1 (flag : string -> bool) (s : stmt) : list string :=
  match s with
  | Simple t => [t]
  | If c yes no => c :: (if flag c then flat_map (visited1 flag) yes else flat_map (visited1 flag) no)
  | Block _ _ => []
  end.
Definition leaves (t : string) : bool := String.eqb t "return" || String.prefix "return " t || String.prefix "raise " t.
Fixpoint until_left (ts : list string) : list string :=
  match ts with [] => [] | t :: r => if leaves t then [t] else t :: until_left r end.
Definition visited (flag : string -> bool) (b : list stmt) : list string := until_left (flat_map (visited1 flag) b).

(** Every name is bound when it is read, when [env] are bound at the start. *)
Fixpoint bound_when_read (env : list string) (ts : list string) : Prop :=
  match ts with
  | [] => True
  | t :: r => incl (names_read t) env /\ bound_when_read (names_bound t ++ env) r
  end.

(** The names of the module: what its imports bind, and its functions. *)
Definition module_names (prog : list stmt) : list string :=
  flat_map (fun s => match s with Simple t => names_bound t | Block h _ => [head_name h] | If _ _ _ => [] end) prog.

(** A function reads no name that is not bound, whatever the truth values of
    the conditions, when the names [more] are bound as well. *)
Definition function_resolved (prog : list stmt) (more : list string) (head : string) (body : list stmt) : Prop :=
  forall flag, bound_when_read (parameters head ++ module_names prog ++ builtins ++ more) (visited flag body).
(** All functions of the program. *)
Definition names_resolved (prog : list stmt) : Prop :=
  forall head body, In (Block head body) prog -> function_resolved prog [] head body.

(** ** Calls *)

(** The number of arguments up to the bracket that closes the call; [d] more
    brackets are open, [some] tells whether there is something since the last
    comma. *)
Fixpoint arguments (d : nat) (some : bool) (ts : list token) : nat :=
  match ts with
  | [] => 0
  | t :: r =>
      let one := if some then 1 else 0 in
      if close_token t then match d with 0 => one | S d' => arguments d' true r end
      else if open_token t then arguments (S d) true r
      else if Nat.eqb d 0 && is_sign "," t then one + arguments 0 false r
      else arguments d true r
  end.

(** The functions called by a line, with the numbers of arguments: plain names,
    and attributes of the module [m]. *)
Fixpoint calls_in (m : option string) (before : list token) (ts : list token) : list (string * nat) :=
  match ts with
  | [] => []
  | t :: r =>
      let rest := calls_in m (t :: before) r in
      let wanted := match m with
                    | None => negb (next_is (is_sign ".") before)
                    | Some x => match before with Sign "." :: Word y :: _ => String.eqb x y | _ => false end
                    end in
      match t with
      | Word f => if is_name f && wanted && next_is (is_sign "(") r then (f, arguments 0 false (tl r)) :: rest else rest
      | Sign _ => rest
      end
  end.
Definition calls (t : string) : list (string * nat) :=
  if String.prefix triple t then [] else calls_in None [] (tokens_of t).
Definition calls_of_module (m t : string) : list (string * nat) :=
  if String.prefix triple t then [] else calls_in (Some m) [] (tokens_of t).

(** All lines of a program, at any depth. *)
Fixpoint lines1 (s : stmt) : list string :=
  match s with
  | Simple t => [t]
  | If c yes no => (c :: flat_map lines1 yes ++ flat_map lines1 no)%list
  | Block h body => flat_map lines1 body
  end.
Definition all_lines (prog : list stmt) : list string := flat_map lines1 prog.

(** The signatures of the functions of a program. *)
Definition signatures (prog : list stmt) : list (string * nat) :=
  flat_map (fun s => match s with Block h _ => [(head_name h, List.length (parameters h))] | _ => [] end) prog.

(** A function of the program is only called with as many arguments as it has
    parameters. *)
Definition calls_match (prog : list stmt) : Prop :=
  forall t f n, In t (all_lines prog) -> In (f, n) (calls t) -> In f (map fst (signatures prog)) -> In (f, n) (signatures prog).

(** The functions of the module [m] a program calls exist in [other], with as
    many parameters. *)
Definition module_calls_match (m : string) (prog other : list stmt) : Prop :=
  forall t f n, In t (all_lines prog) -> In (f, n) (calls_of_module m t) -> In (f, n) (signatures other).
