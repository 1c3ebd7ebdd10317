(** What a reader of the typeset equations of the W operators sees,
    independent of the code that prints them. *)
From Coq Require Import List Ascii String Bool Arith.
From Verif Require Import SpecTex.
Import ListNotations.
Open Scope string_scope.

(** ** Numbers *)

Definition digit (c : ascii) : option nat :=
  let n := nat_of_ascii c in
  if Nat.leb 48 n && Nat.leb n 57 then Some (n - 48) else None.

Fixpoint decimal (acc : nat) (l : list atom) : option nat :=
  match l with
  | [] => Some acc
  | Atom (One (Char c)) None None :: r =>
      match digit c with Some d => decimal (10 * acc + d) r | None => None end
  | _ => None
  end.

(** The number in a script: one digit, or the digits of a group. *)
Definition number (f : field) : option nat :=
  match f with
  | One (Char c) => digit c
  | Group (a :: l) => decimal 0 (a :: l)
  | _ => None
  end.

(** an absent script counts 0 *)
Definition script (f : option field) : option nat :=
  match f with None => Some 0 | Some f => number f end.

(** ** Factors *)

(** an amplitude t^m_n *)
Definition amplitude_read (a : atom) : option (nat * nat) :=
  match a with
  | Atom (One (Command "bt")) u d =>
      match script u, script d with Some m, Some n => Some (m, n) | _, _ => None end
  | _ => None
  end.

(** The factors of a product: amplitudes, and amplitudes in parentheses
    raised to a power. *)
Fixpoint factors_read (l : list atom) : option (list ((nat * nat) * nat)) :=
  match l with
  | [] => Some []
  | a :: r =>
      match amplitude_read a with
      | Some t => option_map (cons (t, 1)) (factors_read r)
      | None =>
          match a, r with
          | Atom (One (Char "(")) None None, b :: Atom (One (Char ")")) (Some k) None :: r' =>
              match amplitude_read b, number k with
              | Some t, Some k => option_map (cons (t, k)) (factors_read r')
              | _, _ => None
              end
          | _, _ => None
          end
      end
  end.

(** a denominator k1!*k2!*... *)
Fixpoint factorials_read (acc : nat) (l : list atom) : option (list nat) :=
  match l with
  | [Atom (One (Char "!")) None None] => Some [acc]
  | Atom (One (Char "!")) None None :: Atom (One (Char "*")) None None :: r =>
      option_map (cons acc) (factorials_read 0 r)
  | Atom (One (Char c)) None None :: r =>
      match digit c with Some d => factorials_read (10 * acc + d) r | None => None end
  | _ => None
  end.

(** A product: the factorials it is divided by, and its factors. *)
Definition product_read (l : list atom) : option (list nat * list ((nat * nat) * nat)) :=
  match l with
  | Atom (One (Command "frac")) None None :: Atom (Group [Atom (One (Char "1")) None None]) None None
      :: Atom (Group den) None None :: r =>
      match factorials_read 0 den, factors_read r with
      | Some d, Some f => Some (d, f)
      | _, _ => None
      end
  | _ => option_map (pair []) (factors_read l)
  end.

(** ** Sums *)

Definition is_char (c : ascii) (a : atom) : bool :=
  match a with Atom (One (Char d)) None None => Ascii.eqb c d | _ => false end.
Definition is_command (s : string) (a : atom) : bool :=
  match a with Atom (One (Command d)) None None => String.eqb s d | _ => false end.

(** the lists between the separators *)
Fixpoint separated (sep : atom -> bool) (l : list atom) : list (list atom) :=
  match l with
  | [] => [[]]
  | a :: r =>
      if sep a then [] :: separated sep r
      else match separated sep r with x :: xs => (a :: x) :: xs | [] => [[a]] end
  end.

Fixpoint every {A B} (f : A -> option B) (l : list A) : option (list B) :=
  match l with
  | [] => Some []
  | x :: r => match f x, every f r with Some y, Some ys => Some (y :: ys) | _, _ => None end
  end.

Definition sum_read (l : list atom) : option (list (list nat * list ((nat * nat) * nat))) :=
  every product_read (separated (is_char "+") l).

(** ** Equations *)

(** the letters in a group *)
Fixpoint letters_read (l : list atom) : option string :=
  match l with
  | [] => Some ""
  | Atom (One (Char c)) None None :: r => option_map (String c) (letters_read r)
  | _ => None
  end.

(** The right hand side: the number 1, a sum, or a symmetrised sum
    \hat{S}( ... ). *)
Inductive right_side :=
| Unit
| Sum (products : list (list nat * list ((nat * nat) * nat)))
| Symmetrised (products : list (list nat * list ((nat * nat) * nat))).

Definition right_side_read (l : list atom) : option right_side :=
  match l with
  | [Atom (One (Char "1")) None None] => Some Unit
  | Atom (One (Command "hat")) None None
      :: Atom (Group [Atom (One (Char "S")) None None]) None None
      :: Atom (One (Char "(")) None None :: r =>
      match rev r with
      | Atom (One (Char ")")) None None :: body => option_map Symmetrised (sum_read (rev body))
      | _ => None
      end
  | _ => option_map Sum (sum_read l)
  end.

(** A row  \bW^{n} &= ...  *)
Definition row_read (l : list atom) : option (nat * right_side) :=
  match l with
  | Atom (One (Command "bW")) (Some n) None
      :: Atom (One (Char "&")) None None :: Atom (One (Char "=")) None None :: r =>
      match number n, right_side_read r with
      | Some n, Some s => Some (n, s)
      | _, _ => None
      end
  | _ => None
  end.

(** The rows of  \begin{align} ... \\ ... \end{align}. *)
Definition align_read (l : list atom) : option (list (list atom)) :=
  match l with
  | b :: Atom (Group e) None None :: r =>
      match rev r with
      | Atom (Group e') None None :: en :: body =>
          if is_command "begin" b && is_command "end" en
          then match letters_read e, letters_read e' with
               | Some x, Some y =>
                   if String.eqb x "align" && String.eqb y "align"
                   then Some (separated (is_command "\") (rev body)) else None
               | _, _ => None
               end
          else None
      | _ => None
      end
  | _ => None
  end.

(** [w_equations text rows]: TeX reads the text as an align environment whose
    rows are these equations. *)
Definition w_equations (text : string) (rows : list (nat * right_side)) : Prop :=
  exists l ls, formula text l /\ align_read l = Some ls /\ every row_read ls = Some rows.

(** ** The thermal W operators *)

(** what stands behind the first and before the second of two things *)
Fixpoint behind {A} (p : A -> bool) (l : list A) : list A :=
  match l with [] => [] | x :: r => if p x then r else behind p r end.
Fixpoint before {A} (p : A -> bool) (l : list A) : list A :=
  match l with [] => [] | x :: r => if p x then [] else x :: before p r end.

Definition command_token (s : string) (t : token) : bool :=
  match t with Command d => String.eqb s d | _ => false end.

(** The tokens of the first environment of a text. *)
Definition first_environment (text : string) : list token :=
  before (command_token "end") (behind (command_token "begin") (tokens text)).

(** What could be read if the empty lines were removed. *)
Definition not_empty_line (t : token) : bool := match t with Paragraph => false | _ => true end.
Definition formula_without_empty_lines (text : string) (l : list atom) : Prop :=
  list_text (filter not_empty_line (tokens text)) l.

(** A row  \textbf{W}^m_n = ...  *)
Definition thermal_row_read (l : list atom) : option ((nat * nat) * right_side) :=
  match l with
  | Atom (One (Command "textbf")) None None
      :: Atom (Group [Atom (One (Char "W")) None None]) m n
      :: Atom (One (Char "=")) None None :: r =>
      match script m, script n, right_side_read r with
      | Some m, Some n, Some s => Some ((m, n), s)
      | _, _, _ => None
      end
  | _ => None
  end.

(** [thermal_equations text rows]: without its empty lines the text holds an
    equation environment whose rows, each ended by \\, are these equations. *)
Definition thermal_equations (text : string) (rows : list ((nat * nat) * right_side)) : Prop :=
  exists l name ls,
    formula_without_empty_lines text l /\
    before (is_command "end") (behind (is_command "begin") l) = Atom (Group name) None None :: ls /\
    letters_read name = Some "equation" /\
    match rev (separated (is_command "\") ls) with
    | [] :: r => every thermal_row_read (rev r) = Some rows
    | _ => False
    end.
