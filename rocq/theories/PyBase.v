(** Python run-time vocabulary used by every model file.

    Nothing here is specific to termfactory: it fixes how the python
    constructs that the modelled code uses are read in Gallina. *)

From Coq Require Export List Arith Lia Bool Permutation String Ascii.
From Coq Require Import DecimalString.
Export ListNotations.
Open Scope nat_scope.
Open Scope list_scope.

(** Exceptions as values.  One constructor per python exception class raised
    (explicitly, or by the interpreter) in the modelled code. *)
Inductive pyexc : Type :=
| NotImplementedErr
| GenericException
| AssertionErr
| IndexErr
| KeyErr
| TypeErr
| ValueErr
| UnboundLocalErr
| SyntaxErr.      (* the generated text is not a python program *)

Inductive res (A : Type) : Type :=
| Ok (a : A)
| Err (e : pyexc).
Arguments Ok {A} a.
Arguments Err {A} e.

Definition bind {A B} (x : res A) (f : A -> res B) : res B :=
  match x with Ok a => f a | Err e => Err e end.

Declare Scope res_scope.
Notation "'do' x <- e ; f" := (bind e (fun x => f))
  (at level 200, x binder, e at level 100, f at level 200) : res_scope.
Open Scope res_scope.

(** [[f(x) for x in l]] where [f] may raise. *)
Fixpoint mapM {A B} (f : A -> res B) (l : list A) : res (list B) :=
  match l with
  | [] => Ok []
  | x :: xs => do y <- f x; do ys <- mapM f xs; Ok (y :: ys)
  end.

(** [range(a, b)] *)
Definition range (a b : nat) : list nat := seq a (b - a).

(** [l[a:b]] for non-negative [a], [b] (python slices truncate silently). *)
Definition slice {A} (a b : nat) (l : list A) : list A := firstn (b - a) (skipn a l).

(** [s[a:b]] for strings. *)
Definition sslice (a b : nat) (s : string) : string := String.substring a (b - a) s.

(** [l[i]] with [IndexError]. *)
Definition py_nth {A} (l : list A) (i : nat) : res A :=
  match nth_error l i with Some x => Ok x | None => Err IndexErr end.

(** [str(n)] for a non-negative integer. *)
Definition str_nat (n : nat) : string := NilEmpty.string_of_uint (Nat.to_uint n).

Infix "+++" := String.append (right associativity, at level 60).

(** ["sep".join(l)] *)
Fixpoint join (sep : string) (l : list string) : string :=
  match l with
  | [] => ""
  | [x] => x
  | x :: xs => (x ++ sep ++ join sep xs)%string
  end.

(** ["".join(l)] *)
Definition concat_str (l : list string) : string := fold_right String.append ""%string l.

(** [s * n] for a string *)
Fixpoint str_repeat (s : string) (n : nat) : string :=
  match n with O => ""%string | S k => (s ++ str_repeat s k)%string end.

Definition nl : string := String (ascii_of_nat 10) EmptyString.
Definition tab : string := "    ".  (* common_imports.py: tab = 4 spaces *)
Definition tab_length : nat := 4.

(** [list(s)] : the characters of a string. *)
Fixpoint chars (s : string) : list ascii :=
  match s with EmptyString => [] | String c r => c :: chars r end.

Fixpoint of_chars (l : list ascii) : string :=
  match l with [] => EmptyString | c :: r => String c (of_chars r) end.

(** [s.splitlines()] for text whose only line boundary is the newline
    character (a final newline does not open another line). *)
Fixpoint splitlines_aux (acc : list ascii) (s : string) : list string :=
  match s with
  | EmptyString => match acc with [] => [] | _ => [of_chars (rev acc)] end
  | String c r =>
      if Ascii.eqb c (ascii_of_nat 10)
      then of_chars (rev acc) :: splitlines_aux [] r
      else splitlines_aux (c :: acc) r
  end.
Definition splitlines (s : string) : list string := splitlines_aux [] s.

(** [s[k:]] *)
Fixpoint sdrop (k : nat) (s : string) : string :=
  match k, s with
  | O, _ => s
  | S k', String _ r => sdrop k' r
  | S _, EmptyString => EmptyString
  end.

(** [s.rstrip()] for blanks *)
Fixpoint strip_front (l : list ascii) : list ascii :=
  match l with
  | c :: r => if Ascii.eqb c (ascii_of_nat 32) then strip_front r else l
  | [] => []
  end.
Definition rstrip (s : string) : string := of_chars (rev (strip_front (rev (chars s)))).

(** Sorting: insertion sort, stable ([sorted] is stable as well). *)
Section Sorting.
  Context {A : Type} (leb : A -> A -> bool).
  Fixpoint insert (x : A) (l : list A) : list A :=
    match l with
    | [] => [x]
    | y :: ys => if leb x y then x :: y :: ys else y :: insert x ys
    end.
  Fixpoint isort (l : list A) : list A :=
    match l with
    | [] => []
    | x :: xs => insert x (isort xs)
    end.
End Sorting.

(** Lexicographic order on sequences, as python compares tuples/strings. *)
Section Lex.
  Context {A : Type} (eqb leb : A -> A -> bool).
  Fixpoint lex_leb (x y : list A) : bool :=
    match x, y with
    | [], _ => true
    | _ :: _, [] => false
    | a :: x', b :: y' => if eqb a b then lex_leb x' y' else leb a b
    end.
End Lex.

Definition nats_leb : list nat -> list nat -> bool := lex_leb Nat.eqb Nat.leb.
Definition geb (a b : nat) : bool := Nat.leb b a.
Definition nats_geb (x y : list nat) : bool := nats_leb y x.

(** Duplicate removal keeping some representative of each element: the content
    of [set(l)].  The iteration order of the set is a separate oracle. *)
Section Dedup.
  Context {A : Type} (eqb : A -> A -> bool).
  Fixpoint dedup (l : list A) : list A :=
    match l with
    | [] => []
    | x :: xs => if existsb (eqb x) xs then dedup xs else x :: dedup xs
    end.
End Dedup.

Fixpoint list_eqb {A} (eqb : A -> A -> bool) (x y : list A) : bool :=
  match x, y with
  | [], [] => true
  | a :: x', b :: y' => eqb a b && list_eqb eqb x' y'
  | _, _ => false
  end.

Definition nats_eqb : list nat -> list nat -> bool := list_eqb Nat.eqb.

(** A set-iteration oracle: any function that lists the elements of a set
    (given as a duplicate-free list) in some order. *)
Definition set_order {A} (so : list A -> list A) : Prop :=
  forall l, Permutation l (so l).

(** [itertools.permutations(l)] : by position, in the order of itertools. *)
Fixpoint selects {A} (l : list A) : list (A * list A) :=
  match l with
  | [] => []
  | x :: xs => (x, xs) :: map (fun p => (fst p, x :: snd p)) (selects xs)
  end.

Fixpoint perms_fuel {A} (n : nat) (l : list A) : list (list A) :=
  match n with
  | O => [[]]
  | S k => flat_map (fun p => map (cons (fst p)) (perms_fuel k (snd p))) (selects l)
  end.

Definition perms {A} (l : list A) : list (list A) := perms_fuel (List.length l) l.

(** [itertools.product] *)
Fixpoint product {A} (ls : list (list A)) : list (list A) :=
  match ls with
  | [] => [[]]
  | l :: r => flat_map (fun x => map (cons x) (product r)) l
  end.

(** [max(l)] of a non-empty sequence of naturals; [max([])] raises. *)
Definition list_max (l : list nat) : nat := fold_right Nat.max 0 l.
Definition list_sum (l : list nat) : nat := fold_right Nat.add 0 l.

(** [n!] *)
Fixpoint factorial (n : nat) : nat := match n with O => 1 | S k => S k * factorial k end.
