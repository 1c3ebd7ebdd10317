(** Python string methods used by the code that inspects text it built
    earlier (str.split, str.count, str.replace, the in operator, int). *)
From Verif Require Import PyBase.
From Coq Require Import DecimalString.

(** [s.count(c)] for a one-character [c] *)
Fixpoint count_char (c : ascii) (s : string) : nat :=
  match s with
  | EmptyString => 0
  | String d r => (if Ascii.eqb c d then 1 else 0) + count_char c r
  end.

(** [c in s] for a one-character [c] *)
Fixpoint has_char (c : ascii) (s : string) : bool :=
  match s with
  | EmptyString => false
  | String d r => Ascii.eqb c d || has_char c r
  end.

(** [sub in s] *)
Fixpoint contains (sub s : string) : bool :=
  String.prefix sub s ||
  match s with EmptyString => false | String _ r => contains sub r end.

(** [s.replace(c, '')] *)
Fixpoint del_char (c : ascii) (s : string) : string :=
  match s with
  | EmptyString => EmptyString
  | String d r => if Ascii.eqb c d then del_char c r else String d (del_char c r)
  end.

(** [s.split(c)] for a one-character [c]; never empty. *)
Fixpoint split_char (c : ascii) (s : string) : list string :=
  match s with
  | EmptyString => [EmptyString]
  | String d r =>
      if Ascii.eqb c d then EmptyString :: split_char c r
      else match split_char c r with
           | [] => [String d EmptyString]
           | x :: xs => String d x :: xs
           end
  end.

(** [s[:-k]] for [k > 0] *)
Definition sdrop_end (k : nat) (s : string) : string :=
  of_chars (rev (skipn k (rev (chars s)))).

(** [int(s)] for a string of decimal digits.  Python also accepts blanks,
    signs and underscores; none occurs in the strings passed here, and such
    text is reported as [ValueErr]. *)
Definition py_int (s : string) : res nat :=
  match NilZero.uint_of_string s with
  | Some d => Ok (Nat.of_uint d)
  | None => Err ValueErr
  end.
