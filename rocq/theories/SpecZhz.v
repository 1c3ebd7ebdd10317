(** Specification vocabulary for the z t symmetrised equations, independent of
    the functions of the model (only its records are used). *)
From Coq Require Import List Arith Factorial Sorted Ascii String.
From Verif Require Import PyBase ModelFullCC ModelZhz SpecFullCC SpecFullCCLatex.
Import ListNotations.

(** ** Operators *)

(** "z", "z^2", "z_1", "z^1_2" *)
Definition z_spelling (m n : nat) (s : string) : Prop :=
  s = String.append "z" (String.append (match m with 0 => "" | _ => String.append "^" (str_nat m) end)
                                       (match n with 0 => "" | _ => String.append "_" (str_nat n) end)).
Definition z_allowed (cc : nat) (ground : bool) (m n : nat) : Prop :=
  m + n <= cc /\ (ground = true -> n = 0).
Definition z_operator (cc : nat) (ground : bool) (z : gop) : Prop :=
  z_spelling (g_m z) (g_n z) (g_name z) /\ g_rank z = g_m z + g_n z /\ z_allowed cc ground (g_m z) (g_n z).

(** The Hamiltonian of this ansatz: up to second order everything, beyond
    only annihilation operators. *)
Definition h_allowed (H : nat) (m n : nat) : Prop := m + n <= H /\ (m + n < 3 \/ m = 0).

(** ** Contractions *)

(** Every creation operator is paired with an annihilation operator of another
    factor of  projection * Z * H * Z.  The field [c_xy] is about the creation
    operators of x paired with annihilation operators of y; p is the
    projection, l and r are the left and the right Z. *)
Record pairing (A : Type) := mkpairing {
  c_pl : A; c_ph : A; c_pr : A;
  c_lp : A; c_lh : A; c_lr : A;
  c_hp : A; c_hl : A; c_hr : A;
  c_rp : A; c_rl : A; c_rh : A
}.
Arguments mkpairing {A}.
Arguments c_pl {A}. Arguments c_ph {A}. Arguments c_pr {A}.
Arguments c_lp {A}. Arguments c_lh {A}. Arguments c_lr {A}.
Arguments c_hp {A}. Arguments c_hl {A}. Arguments c_hr {A}.
Arguments c_rp {A}. Arguments c_rl {A}. Arguments c_rh {A}.

Section Counts.
  Variable c : pairing nat.
  Definition p_up := c_pl c + c_ph c + c_pr c.
  Definition p_down := c_lp c + c_hp c + c_rp c.
  Definition l_up := c_lp c + c_lh c + c_lr c.
  Definition l_down := c_pl c + c_hl c + c_rl c.
  Definition h_up := c_hp c + c_hl c + c_hr c.
  Definition h_down := c_ph c + c_lh c + c_rh c.
  Definition r_up := c_rp c + c_rl c + c_rh c.
  Definition r_down := c_pr c + c_lr c + c_hr c.
End Counts.

(** Which of the two Z are there. *)
Inductive kind := left_only | right_only | both_sides.
Definition has_left (k : kind) : bool := match k with right_only => false | _ => true end.
Definition has_right (k : kind) : bool := match k with left_only => false | _ => true end.

(** A missing Z takes no part. *)
Definition fits_kind (k : kind) (c : pairing nat) : Prop :=
  (has_left k = false -> l_up c = 0 /\ l_down c = 0) /\
  (has_right k = false -> r_up c = 0 /\ r_down c = 0).

(** The contractions of a projection with om creation and on annihilation
    operators; [h m n], [l m n], [r m n]: there is such an operator. *)
Definition contracts (om on : nat) (h l r : nat -> nat -> Prop) (k : kind) (c : pairing nat) : Prop :=
  p_up c = om /\ p_down c = on /\ h (h_up c) (h_down c) /\ fits_kind k c /\
  (has_left k = true -> l (l_up c) (l_down c)) /\
  (has_right k = true -> r (r_up c) (r_down c)).

(** How a contraction is recorded. *)
Definition recorded (k : kind) (c : pairing nat) : zterm :=
  (mkl (p_up c + p_down c) (p_up c) (p_down c) (c_pl c) (c_lp c) (c_ph c) (c_hp c) (c_pr c) (c_rp c),
   mkhz (h_up c + h_down c) (h_up c) (h_down c) (c_hp c) (c_ph c) (c_hl c) (c_lh c) (c_hr c) (c_rh c),
   (if has_left k
    then Some (mkz (l_up c + l_down c) (l_up c) (l_down c) (c_lp c) (c_pl c) (c_lh c) (c_hl c) (c_lr c) (c_rl c))
    else None,
    if has_right k
    then Some (mkz (r_up c + r_down c) (r_up c) (r_down c) (c_rp c) (c_pr c) (c_rh c) (c_hr c) (c_rl c) (c_lr c))
    else None)).

(** A list of operators without repetition. *)
Definition z_list (l : list gop) : Prop :=
  l <> [] /\ NoDup (map (fun z => (g_m z, g_n z)) l) /\ Forall (fun z => g_rank z = g_m z + g_n z) l.
Definition h_list (l : list hop) : Prop := NoDup (map (fun h => (h_m h, h_n h)) l).
Definition in_z (l : list gop) (m n : nat) : Prop := In (m, n) (map (fun z => (g_m z, g_n z)) l).
Definition in_h (l : list hop) (m n : nat) : Prop := In (m, n) (map (fun h => (h_m h, h_n h)) l).

(** The arguments Z_left and Z_right for a kind of term. *)
Definition sides (k : kind) (l r : list gop) : z_sides :=
  match k with left_only => ZH l | right_only => HZ r | both_sides => ZHZ l r end.

(** ** Labels *)

Definition inner_letters : list ascii := list_ascii_of_string "klmno".
Definition outer_letters : list ascii := list_ascii_of_string "yxwvuts".

(** Pairs among h and the Z, and pairs with the projection. *)
Definition inner (c : pairing nat) : nat := c_lh c + c_lr c + c_hl c + c_rl c + c_rh c + c_hr c.
Definition outer (c : pairing nat) : nat := c_lp c + c_pl c + c_ph c + c_hp c + c_pr c + c_rp c.

(** Letters for the pairs of a contraction: one letter for each pair, no
    letter for two pairs (the letters of a list are different). *)
Definition lettered (c : pairing nat) (w : pairing (list ascii)) : Prop :=
  List.length (c_pl w) = c_pl c /\ List.length (c_ph w) = c_ph c /\ List.length (c_pr w) = c_pr c /\
  List.length (c_lp w) = c_lp c /\ List.length (c_lh w) = c_lh c /\ List.length (c_lr w) = c_lr c /\
  List.length (c_hp w) = c_hp c /\ List.length (c_hl w) = c_hl c /\ List.length (c_hr w) = c_hr c /\
  List.length (c_rp w) = c_rp c /\ List.length (c_rl w) = c_rl c /\ List.length (c_rh w) = c_rh c /\
  (c_lh w ++ c_lr w ++ c_hl w ++ c_rl w ++ c_rh w ++ c_hr w)%list = letters_from inner_letters 0 (inner c) /\
  (c_lp w ++ c_pl w ++ c_ph w ++ c_hp w ++ c_pr w ++ c_rp w)%list = letters_from outer_letters 0 (outer c).

Open Scope string_scope.

Definition mark_text (color : string) (l : list ascii) : string :=
  match color with "" => string_of_list_ascii l | _ => color ++ "{" ++ string_of_list_ascii l ++ "}" end.
(** one index of an operator: nothing if the operator has no such index *)
Definition z_index_text (n : nat) (ca cb : string) (a b p : list ascii) : string :=
  match n with 0 => "" | _ => mark_text ca a ++ mark_text cb b ++ mark_text "\red" p end.
(** "^{...}", left out in a tidied text if it has nothing in the braces *)
Definition braces_text (tidied : bool) (mark s : string) : string :=
  if tidied && String.eqb s "" then "" else mark ++ "{" ++ s ++ "}".
Definition operator_text (tidied : bool) (name : string) (m n : nat) (up down : string) : string :=
  match (m + n)%nat with
  | 0 => name ++ "_0"
  | _ => name ++ braces_text tidied "^" up ++ braces_text tidied "_" down
  end.

(** Upper indices are creation operators; a pair carries its letter on both
    operators. *)
Definition left_text (tidied : bool) (c : pairing nat) (w : pairing (list ascii)) : string :=
  operator_text tidied "\bz" (l_up c) (l_down c)
    (z_index_text (l_up c) "" "\blue" (c_lh w) (c_lr w) (c_lp w))
    (z_index_text (l_down c) "" "\blue" (c_hl w) (c_rl w) (c_pl w)).
Definition h_text (tidied : bool) (c : pairing nat) (w : pairing (list ascii)) : string :=
  operator_text tidied "\bh" (h_up c) (h_down c)
    (z_index_text (h_up c) "\blue" "\blue" (c_hl w) (c_hr w) (c_hp w))
    (z_index_text (h_down c) "\blue" "\blue" (c_lh w) (c_rh w) (c_ph w)).
Definition right_text (tidied : bool) (c : pairing nat) (w : pairing (list ascii)) : string :=
  operator_text tidied "\bz" (r_up c) (r_down c)
    (z_index_text (r_up c) "\magenta" "\blue" (c_rl w) (c_rh w) (c_rp w))
    (z_index_text (r_down c) "\magenta" "\blue" (c_lr w) (c_hr w) (c_pr w)).

(** f: the creation operator stands to the left; fbar: to the right. *)
Definition f_pairs (c : pairing nat) : nat := c_lh c + c_lr c + c_hr c.
Definition fbar_pairs (c : pairing nat) : nat := c_hl c + c_rl c + c_rh c.

(** ** Prefactor of h z: one over the factorial of the number of pairs of
    every kind *)
Definition pair_factorials (c : pairing nat) : nat :=
  fact (c_hp c) * fact (c_hr c) * fact (c_ph c) * fact (c_rh c) * fact (c_rp c) * fact (c_pr c).

(** A printed factor: a number, or a number with "!" *)
Definition number_text (x : nat * bool) : string := str_nat (fst x) ++ (if snd x then "!" else "").
Definition factor_number (x : nat * bool) : nat := if snd x then fact (fst x) else fst x.
Definition factors_number (l : list (nat * bool)) : nat := fold_right Nat.mul 1 (map factor_number l).
Definition quotient_text (num den : list (nat * bool)) : string :=
  match num, den with
  | [], [] => ""
  | _, _ =>
      "\frac{" ++ (match num with [] => "1" | _ => String.concat "*" (map number_text num) end)
      ++ "}{" ++ (match den with [] => "1" | _ => String.concat "" (map number_text den) end) ++ "}"
  end.
(** a fraction of value 1/d *)
Definition one_over (d : nat) (s : string) : Prop :=
  exists num den, s = quotient_text num den /\ factors_number den = factors_number num * d /\ factors_number den <> 0.

(** ** Printed terms *)
Definition z_loose (c : pairing nat) (k : kind) : bool :=
  match k with
  | both_sides => Nat.eqb (c_lh c + c_hl c) 0 || Nat.eqb (c_rh c + c_hr c) 0
  | _ => false
  end.

Definition z_term_text (tidied : bool) (k : kind) (c : pairing nat) (s : string) : Prop :=
  exists w pre,
    lettered c w /\
    (match k with right_only => one_over (pair_factorials c) pre | _ => pre = "" end) /\
    let t := power_text "f" (f_pairs c) ++ power_text "\bar{f}" (fbar_pairs c) ++ pre
             ++ (if has_left k then left_text tidied c w else "") ++ h_text tidied c w
             ++ (if has_right k then right_text tidied c w else "") in
    s = (if z_loose c k then "\disconnected{" ++ t ++ "}" else t).

(** A list broken into lines of seven and one more line: the last 6 - r
    elements of the list, or the whole list if r = 6, where r is the length
    modulo 7. *)
Definition broken {A} (l : list A) (lines : list (list A)) : Prop :=
  exists full last,
    lines = (full ++ [last])%list /\
    Forall (fun x => List.length x = 7) full /\
    List.concat full = firstn (7 * (List.length l / 7)) l /\
    last = (if Nat.eqb (List.length l mod 7) 6 then l else skipn (List.length l - (6 - List.length l mod 7)) l).

Definition z_sum_text (closing : string) (ss : list string) (text : string) : Prop :=
  (List.length ss < 14 /\ text = sum_text ss) \/
  (14 <= List.length ss /\ exists lines, broken ss lines /\
     text = "(" ++ newline ++ String.concat line_break (map (String.concat " + ") lines) ++ newline ++ closing).

(** ** Equations and the file (ground state) *)
Definition letters (k n : nat) : string := string_of_list_ascii (letters_from summed_letters k n).

(** The term with h alone. *)
Definition h_alone_text (om on : nat) : string :=
  (match (om + on)%nat with
   | 0 => "\bh_{0,xb}"
   | _ => "\bh" ++ braces_text true "^" (letters 0 on) ++ braces_text true "_" (letters on om)
   end) ++ "(1-\delta_{x\gamma})".

(** dt/dtau times z with k indices on z *)
Definition dt_z_text (om on k : nat) : string :=
  "\dv{\hat{\bt}"
  ++ (match (om + (on - k))%nat with
      | 0 => "_{0, \gamma}"
      | _ => braces_text true "^" (letters 0 (on - k))
             ++ "_{" ++ (match om with 0 => "" | _ => letters on om ++ ", " end) ++ "\gamma}"
      end)
  ++ "}{\tau}\,\hat{\bz}"
  ++ (match k with 0 => "_{0, \gamma}" | _ => "^{" ++ letters (om + on - k) k ++ "}_{\gamma}" end).

(** the sum of the contractions of h with the right Z, if there are any *)
Definition hz_sum_text (ss : list string) : string := match ss with [] => "" | _ => sum_text ss end.

(** [cs] lists every contraction of h with a right Z of the ground state once;
    the text has one term for each, in the same order *)
Definition z_equation_text (om on H cc : nat) (text : string) : Prop :=
  exists cs ss,
    NoDup cs /\
    (forall c, In c cs <-> contracts om on (h_allowed H) (z_allowed cc true) (z_allowed cc true) right_only c) /\
    Forall2 (z_term_text true right_only) cs ss /\
    text = h_alone_text om on
           ++ "\\&+\sum\Big(" ++ hz_sum_text ss ++ "\Big)(1-\delta_{cb})"
           ++ "\\&-i\sum\Big(" ++ String.concat " + " (map (dt_z_text om on) (seq 0 (on + 1))) ++ "\Big)".

Definition t_equation_text (om on : nat) : string :=
  "\begin{equation}" ++ newline
  ++ "    \hat{\Omega} = " ++ omega_text om on ++ newline
  ++ "\qquad\qquad" ++ newline
  ++ "    i\dv{\hat{\bt}^{" ++ letters 0 on ++ "}_{" ++ (match om with 0 => "" | _ => letters on om ++ "," end) ++ "\gamma}}{\tau}"
  ++ " = \hat{G}^{" ++ letters 0 on ++ "}_{" ++ (match om with 0 => "" | _ => letters on om ++ ", " end) ++ "\gamma\gamma}" ++ newline
  ++ "\end{equation}" ++ newline ++ newline.

Definition z_align_text (om on : nat) (eqn : string) : string :=
  "\begin{align}\begin{split}" ++ newline
  ++ "LHS &=" ++ newline
  ++ "    i\Big(\dv{\hat{\bz}^{" ++ letters 0 (om + on) ++ "}_{\gamma}}{\tau}\Big)" ++ newline
  ++ "\\ RHS &=" ++ newline ++ "%" ++ newline ++ "%" ++ newline ++ eqn ++ newline
  ++ "\end{split}\end{align}" ++ newline ++ newline.

(** One section per projection, with a heading whenever the rank grows. *)
Inductive z_sections (H cc : nat) : option nat -> list gop -> string -> Prop :=
| z_sections_end p : z_sections H cc p [] ""
| z_sections_next p o r eqn text :
    z_equation_text (g_m o) (g_n o) H cc eqn ->
    z_sections H cc (Some (g_rank o)) r text ->
    z_sections H cc p (o :: r)
      ((if match p with Some q => Nat.ltb q (g_rank o) | None => false end
        then "\paragraph{" ++ nth (g_rank o) order_names "" ++ " Equations}" ++ newline ++ newline
        else "\vspace{2cm}")
       ++ comment_lines ++ t_equation_text (g_m o) (g_n o)
       ++ comment_lines ++ z_align_text (g_m o) (g_n o) eqn ++ text).

Definition z_latex_text (H cc P : nat) (remove_f : bool) (text : string) : Prop :=
  exists os body,
    NoDup os /\ (forall o, In o os <-> projection cc P o) /\ StronglySorted (fun a b => g_rank a <= g_rank b) os /\
    z_sections H cc None os body /\
    text = (if remove_f then "\textbf{Note that all terms with a $f$ prefactor have been removed}" ++ newline else "")
           ++ body ++ "\end{document}".

Fixpoint occurrences (c : ascii) (s : string) : nat :=
  match s with EmptyString => 0 | String x r => (if Ascii.eqb x c then 1 else 0) + occurrences c r end.
Close Scope string_scope.
