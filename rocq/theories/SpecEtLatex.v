(** Specification vocabulary for the LaTeX of the e^T ansatz, independent of
    the functions of the model (only the two sides of the equation are
    used). *)
From Coq Require Import List Arith Factorial Ascii String.
From Verif Require Import PyBase ModelEt SpecFullCC SpecFullCCLatex SpecZhz SpecEt.
Import ListNotations.

(** ** Lists and sums *)

(** The elements of a list at their first occurrence ([nodup] of the standard
    library keeps the last ones). *)
Definition first_occurrences (l : list string) : list string := rev (nodup string_dec (rev l)).

Open Scope string_scope.

(** A sum of at most w + 2 terms on one line in parentheses; a longer one in
    lines of w terms (the last line has the rest) without parentheses. *)
Definition eT_sum_text (w : nat) (ss : list string) (text : string) : Prop :=
  (List.length ss <= w + 2 /\ text = sum_text ss) \/
  (w + 2 < List.length ss /\ exists full rest,
     ss = (List.concat full ++ rest)%list /\ Forall (fun l => List.length l = w) full /\ List.length rest < w /\
     text = newline ++ String.concat line_break (map (String.concat " + ") (full ++ match rest with [] => [] | _ => [rest] end))
            ++ newline).

(** ** Kinds of contractions *)

(** How many pairs there are of z and the projection, z and H, z and the
    amplitudes, H and the projection, H and the amplitudes. *)
Record pairs := mkpairs { k_zp : nat; k_zh : nat; k_zt : nat; k_hp : nat; k_ht : nat }.

(** The kind of a contraction. *)
Definition pairs_of (c : contraction) : pairs := mkpairs (e_zp c) (e_zh c) (list_sum (e_zt c)) (e_hp c) (list_sum (e_ht c)).

(** The number of amplitudes t_1, and of the operators of H and z. *)
Definition k_t (k : pairs) : nat := k_zt k + k_ht k.
Definition k_up (k : pairs) : nat := k_hp k + k_ht k.
Definition k_down (k : pairs) : nat := k_zh k.
Definition k_z (k : pairs) : nat := k_zp k + k_zh k + k_zt k.

(** What an equation for a projection with [P] annihilation operators may
    have: operators of H up to rank [H], z up to rank [cc], at most [e]
    amplitudes. *)
Definition eT_pairs (s : side) (P H cc e : nat) (k : pairs) : Prop :=
  k_zp k + k_hp k = P /\ h_allowed H (k_up k) (k_down k) /\ k_z k <= cc /\ k_t k <= e /\ allowed_on s (k_down k).

(** ** Prefactor *)

(** "(3)" or "3!"; factors are glued together *)
Definition eT_number_text (x : nat * bool) : string :=
  if snd x then str_nat (fst x) ++ "!" else "(" ++ str_nat (fst x) ++ ")".
Definition eT_quotient_text (num den : list (nat * bool)) : string :=
  match num, den with
  | [], [] => ""
  | _, _ =>
      "\frac{" ++ (match num with [] => "1" | _ => String.concat "" (map eT_number_text num) end)
      ++ "}{" ++ (match den with [] => "1" | _ => String.concat "" (map eT_number_text den) end) ++ "}"
  end.
(** a fraction of value 1/d *)
Definition eT_one_over (d : nat) (s : string) : Prop :=
  exists num den, s = eT_quotient_text num den /\ factors_number den = factors_number num * d /\ factors_number den <> 0.

(** What the LaTeX divides by: the factorials of the pairs of z and H with the
    projection, of the pairs of z and H, and of the number of amplitudes. *)
Definition latex_divisor (k : pairs) : nat := fact (k_zp k) * fact (k_hp k) * fact (k_zh k) * fact (k_t k).
(** The factorials of all numbers of pairs. *)
Definition all_factorials (k : pairs) : nat :=
  fact (k_zp k) * fact (k_hp k) * fact (k_zh k) * fact (k_zt k) * fact (k_ht k).

(** ** Letters *)

(** [n] letters for summed pairs from position [i] on: fewer when the five
    letters are used up.  The same for the seven letters of pairs with the
    projection. *)
Definition summed (i n : nat) : string := string_of_list_ascii (letters_from inner_letters i n).
Definition free (i n : nat) : string := string_of_list_ascii (letters_from outer_letters i n).

(** The amplitudes paired with z come first; the i-th amplitude carries the
    i-th letter, z and H after them. *)
Definition with_z (k : pairs) (i : nat) : bool := Nat.ltb i (k_zt k).
Definition in_z_text (k : pairs) (i : nat) : string := if with_z k i then summed i 1 else "".
Definition in_h_text (k : pairs) (i : nat) : string := if with_z k i then "" else summed i 1.
Definition each_t (k : pairs) (f : nat -> string) : string := String.concat "" (map f (seq 0 (k_t k))).

Definition eT_t_text (tidied : bool) (s : side) (k : pairs) (i : nat) : string :=
  operator_text tidied (match s with RHS => "\bt" | LHS => "\bs" end) 0 1 ""
    ("\magenta{}\blue{" ++ in_h_text k i ++ "}\magenta{" ++ in_z_text k i ++ "}\red{}").
Definition eT_ts_text (tidied : bool) (s : side) (k : pairs) : string :=
  match k_t k with 0 => "\mathds{1}" | _ => each_t k (eT_t_text tidied s k) end.

Definition eT_derivative (x : string) : string := "\left(i\dv{" ++ x ++ "}{\tau}\right)".

Definition eT_h_up (k : pairs) : string :=
  match k_up k with
  | 0 => ""
  | _ => each_t k (fun i => "\blue{" ++ in_h_text k i ++ "}") ++ "\blue{}\red{" ++ free 0 (k_hp k) ++ "}"
  end.
Definition eT_h_down (k : pairs) : string :=
  match k_down k with 0 => "" | _ => "\blue{" ++ summed (k_t k) (k_zh k) ++ "}\red{}" end.
(** The left hand side has the derivative of an amplitude in place of H, or
    the unit operator. *)
Definition eT_h_text (tidied : bool) (s : side) (k : pairs) : string :=
  match s with
  | RHS => operator_text tidied "\bh" (k_up k) (k_down k) (eT_h_up k) (eT_h_down k)
  | LHS => match (k_up k + k_down k)%nat with
           | 0 => "\mathds1"
           | _ => eT_derivative (operator_text tidied "\bt" (k_up k) (k_down k) (eT_h_up k) (eT_h_down k))
           end
  end.

Definition eT_z_up (k : pairs) : string :=
  match k_z k with
  | 0 => ""
  | _ => each_t k (fun i => "\magenta{" ++ in_z_text k i ++ "}")
         ++ (match k_zh k with 0 => "" | _ => "\blue{" ++ summed (k_t k) (k_zh k) ++ "}" end)
         ++ "\red{" ++ free (k_hp k) (k_zp k) ++ "}"
  end.
(** On the left hand side z has the derivative if nothing else has. *)
Definition eT_z_text (tidied : bool) (s : side) (k : pairs) : string :=
  let z := operator_text tidied "\bz" (k_z k) 0 (eT_z_up k) "" in
  match s with
  | RHS => z
  | LHS => match (k_up k + k_down k)%nat with 0 => eT_derivative z | _ => z end
  end.

(** ** Printed terms *)
Definition eT_term_text (tidied : bool) (s : side) (k : pairs) (text : string) : Prop :=
  exists pre, eT_one_over (latex_divisor k) pre /\
    text = power_text "\bar{f}" (k_t k + k_zh k) ++ pre
           ++ eT_ts_text tidied s k ++ eT_h_text tidied s k ++ eT_z_text tidied s k.

(** The letters last: every pair has one. *)
Definition enough_letters (k : pairs) : Prop := k_t k + k_zh k <= 5 /\ k_zp k + k_hp k <= 7.

(** The letters of the amplitudes paired with z, as read from a text. *)
Definition z_upper := letters_at "^" "\magenta{".
Definition z_lower := letters_at "_" "\magenta{".

(** ** Equations and the file *)

(** One term for every kind of contraction, all different. *)
Definition eT_equation_text (s : side) (P H cc e : nat) (text : string) : Prop :=
  exists ks ss sum,
    NoDup ks /\ (forall k, In k ks <-> eT_pairs s P H cc e k) /\
    Forall2 (eT_term_text true s) ks ss /\ NoDup ss /\ eT_sum_text 4 ss sum /\
    text = (match s with RHS => h_alone_text 0 P | LHS => "" end)
           ++ "\\&+\sum\Big(" ++ sum ++ "\Big)"
           ++ (match s with
               | RHS => "\\&-i\sum\Big(" ++ String.concat " + " (map (dt_z_text 0 P) (seq 0 (P + 1))) ++ "\Big)"
               | LHS => ""
               end).

Definition eT_align_text (s : side) (P : nat) (eqn : string) : string :=
  "\begin{align}\begin{split}" ++ newline
  ++ "LHS &=" ++ newline
  ++ (match s with
      | RHS => "    i\Big(\dv{\hat{\bz}^{" ++ letters 0 P ++ "}_{\gamma}}{\tau}\Big)" ++ newline ++ "\\ RHS &=" ++ newline
      | LHS => ""
      end)
  ++ "%" ++ newline ++ "%" ++ newline ++ eqn ++ newline
  ++ "\end{split}\end{align}" ++ newline ++ newline.

Definition eT_section_text (s : side) (P : nat) (eqn : string) : string :=
  (match P with
   | 0 => "\vspace{2cm}"
   | _ => "\paragraph{" ++ nth P order_names "" ++ " Equations}" ++ newline ++ newline
   end)
  ++ comment_lines ++ t_equation_text 0 P ++ comment_lines ++ eT_align_text s P eqn.

(** One section for every number of annihilation operators of the
    projection. *)
Definition eT_latex_text (s : side) (H cc P e : nat) (remove_f : bool) (text : string) : Prop :=
  exists eqns,
    Forall2 (fun p eqn => eT_equation_text s p H cc e eqn) (seq 0 (S (Nat.min cc P))) eqns /\
    text = (if remove_f then "\textbf{Note that all terms with a $f$ prefactor have been removed}" ++ newline else "")
           ++ String.concat "" (map (fun pe => eT_section_text s (fst pe) (snd pe)) (combine (seq 0 (S (Nat.min cc P))) eqns))
           ++ "\end{document}".

(** How often a text occurs. *)
Fixpoint occurrences_of (w s : string) : nat :=
  (if String.prefix w s then 1 else 0)
  + match s with EmptyString => 0 | String _ r => occurrences_of w r end.
Close Scope string_scope.
