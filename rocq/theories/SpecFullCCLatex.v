(** Specification vocabulary for the LaTeX of the full coupled cluster
    equations, independent of the functions of the model (only its records
    are used). *)
From Coq Require Import List Arith Permutation Sorted Ascii String.
From Verif Require Import PyBase ModelFullCC ModelFullCCPy SpecFullCC SpecFullCCPy SpecPrefactor SpecLatexW.
Import ListNotations.

(** The letters of the indices summed over and of the indices of the
    projection operator. *)
Definition summed_letters : list ascii := list_ascii_of_string "ijklmnopqr".
Definition free_letters : list ascii := list_ascii_of_string "zyxwvuts".

(** n letters from position k on *)
Definition letters_from (l : list ascii) (k n : nat) : list ascii := firstn n (skipn k l).

Open Scope string_scope.
Definition newline : string := String (Ascii.ascii_of_nat 10) "".

(** An upper ("^") or lower ("_") index: nothing if it has no letters. *)
Definition index_text (mark : string) (summed free : list ascii) : string :=
  match (summed ++ free)%list with
  | [] => ""
  | _ => mark ++ "{\blue{" ++ string_of_list_ascii summed ++ "}\red{" ++ string_of_list_ascii free ++ "}}"
  end.
Definition amplitude_text (x : tlabel) : string :=
  "\bt" ++ index_text "^" (l_mh x) (l_mo x) ++ index_text "_" (l_nh x) (l_no x).

Definition hamiltonian_text (rank : nat) (su eu sl el : list ascii) : string :=
  match rank with
  | 0 => "\bh_0"
  | _ => "\bh^{\blue{" ++ string_of_list_ascii su ++ "}\red{" ++ string_of_list_ascii eu
         ++ "}}_{\blue{" ++ string_of_list_ascii sl ++ "}\red{" ++ string_of_list_ascii el ++ "}}"
  end.

Definition power_text (x : string) (k : nat) : string :=
  match k with 0 => "" | 1 => x | _ => x ++ "^{" ++ str_nat k ++ "}" end.

Definition fraction_text (num den : list nat) : string :=
  let side l := match l with
                | [] => "1"
                | _ => String.concat "" (map (fun n => str_nat n ++ "!") l)
                end in
  match num, den with
  | [], [] => ""
  | _, _ => "\frac{" ++ side num ++ "}{" ++ side den ++ "}"
  end.

(** The prefactor of a term with h^hm_hn and the amplitudes ts: nothing
    without amplitudes, otherwise a fraction of value x! / (hm! hn! k!) without
    common factors, k the number of amplitudes and x the number of different
    ones paired with h. *)
Definition prefactor_of (hm hn : nat) (ts : list tamp) (num den : list nat) : Prop :=
  match ts with
  | [] => num = [] /\ den = []
  | _ => exists x, different_connected ts x /\
         fact_product num * (fact hm * fact hn * fact (List.length ts)) = fact x * fact_product den /\
         no_common_factor num den
  end.

(** [s] is the text of a term h^hm_hn with prefactor num/den, f creation and
    fbar annihilation operators of the projection on h, and the amplitudes ts.
    Every index of an amplitude paired with h carries the letter of the index
    of h; these letters are different.  The indices of the projection carry
    [free_letters] in order: those of h from position k on, those of the
    amplitudes after these and [gap] further letters. *)
Definition term_text (k gap hm hn f fbar : nat) (ts : list tamp) (num den : list nat) (s : string) : Prop :=
  exists (su sl eu el : list ascii) (xs : list tlabel),
    Forall2 fits ts xs /\
    List.length su + fbar = hm /\ List.length sl + f = hn /\
    List.length eu = fbar /\ List.length el = f /\
    (su ++ sl)%list = letters_from summed_letters 0 (List.length su + List.length sl) /\
    flat_map l_nh xs = su /\ flat_map l_mh xs = sl /\
    (eu ++ el)%list = letters_from free_letters k (fbar + f) /\
    flat_map (fun x => l_no x ++ l_mo x)%list xs
      = letters_from free_letters (k + fbar + f + gap) (total n_o ts + total m_o ts) /\
    s = power_text "f" f ++ power_text "\bar{f}" fbar ++ fraction_text num den
        ++ hamiltonian_text (hm + hn) su eu sl el ++ String.concat "" (map amplitude_text xs).

(** ** Sums *)
Definition sum_text (ss : list string) : string := "(" ++ String.concat " + " ss ++ ")".
Definition line_break : string := newline ++ "    \\  &+  % split long equation" ++ newline.

(** A sum on one line, or broken into lines of seven terms. *)
Definition lines_text (lines : list (list string)) : string :=
  "(" ++ newline ++ String.concat line_break (map (String.concat " + ") lines) ++ newline ++ ")".

(** The printed terms of a plain sum of the given terms: all of them up to
    thirteen, otherwise those that fill lines of seven. *)
Definition plain_text (ss : list string) (text : string) : Prop :=
  (List.length ss < 14 /\ text = sum_text ss) \/
  (14 <= List.length ss /\ exists lines rest,
     Forall (fun l => List.length l = 7) lines /\ List.length rest < 7 /\
     ss = (List.concat lines ++ rest)%list /\ text = lines_text lines).

(** The letters of a product of amplitudes that takes the first letters of the
    projection. *)
Definition factor_text (ts : list tamp) (s : string) : Prop :=
  exists xs, Forall2 fits ts xs /\ flat_map l_nh xs = [] /\ flat_map l_mh xs = [] /\
    flat_map (fun x => l_no x ++ l_mo x)%list xs = letters_from free_letters 0 (total n_o ts + total m_o ts) /\
    s = String.concat "" (map amplitude_text xs).

(** The disconnected amplitudes of a term, and the others. *)
Definition tamp_eq_dec : forall a b : tamp, {a = b} + {a <> b}.
Proof. decide equality; apply Nat.eq_dec. Defined.
Definition is_disconnected (t : tamp) : bool := Nat.eqb (m_h t) 0 && Nat.eqb (n_h t) 0.
Definition loose (ts : list tamp) : list tamp := filter is_disconnected ts.
Definition bound (ts : list tamp) : list tamp := filter (fun t => negb (is_disconnected t)) ts.

(** A plain printed term. *)
Definition plain_term (om on : nat) (t : term) (s : string) : Prop :=
  exists hm hn us f fbar num den,
    describes om on hm hn us f fbar t /\ prefactor_of hm hn us num den /\
    term_text 0 0 hm hn f fbar us num den s.

(** A printed term without its disconnected amplitudes; the letters of these
    come first, and the letters of the amplitudes skip as many letters as h
    carries. *)
Definition condensed_term (om on : nat) (t : term) (s : string) : Prop :=
  exists hm hn us f fbar num den,
    describes om on hm hn us f fbar t /\ prefactor_of hm hn us num den /\
    term_text (total n_o (loose us) + total m_o (loose us)) (fbar + f) hm hn f fbar (bound us) num den s.

(** A printed term without the factor c that takes the whole projection. *)
Definition without_factor (om on : nat) (c : tamp) (t : term) (s : string) : Prop :=
  exists hm hn us us1 us2 f fbar num den,
    describes om on hm hn us f fbar t /\ us = (us1 ++ c :: us2)%list /\ prefactor_of hm hn us num den /\
    term_text 0 0 hm hn f fbar (us1 ++ us2) num den s.

(** ** The three parts of an equation *)
Definition plain_part (om on : nat) (l : list term) (text : string) : Prop :=
  exists ss, Forall2 (plain_term om on) l ss /\ plain_text ss text.

(** One sum per product of disconnected amplitudes, the longest products
    first; each term is in the sum of its own product, in the order of the
    list. *)
Definition linked_part (om on : nat) (l : list term) (text : string) : Prop :=
  exists (fs : list (list tamp)) (texts : list string),
    NoDup fs /\ (forall p, In p fs <-> exists t, In t l /\ loose (snd t) = p) /\
    StronglySorted (fun a b => List.length b <= List.length a) fs /\
    Forall2 (fun p s => exists ss common,
      Forall2 (condensed_term om on) (filter (fun t => if list_eq_dec tamp_eq_dec (loose (snd t)) p then true else false) l) ss /\
      factor_text p common /\ s = sum_text ss ++ common) fs texts /\
    text = String.concat line_break texts.

Definition unlinked_part (om on : nat) (l : list term) (text : string) : Prop :=
  exists ss common,
    Forall2 (without_factor om on (mkt 0 0 on om)) l ss /\
    factor_text [mkt 0 0 on om] common /\ text = sum_text ss ++ common.

Definition section_break : string :=
  newline ++ "%" ++ newline ++ "%" ++ newline ++ "\\  &+" ++ newline ++ "%" ++ newline ++ "%" ++ newline.

(** A part, or the remark that there is no such term. *)
Definition part_or (what : string) (part : list term -> string -> Prop) (l : list term) (text : string) : Prop :=
  match l with
  | [] => text = "    \textit{no " ++ what ++ " terms}"
  | _ => part l text
  end.

(** The right hand side of an equation of rank at least 1. *)
Definition rhs_text (om on : nat) (fully linked unlinked : list term) (text : string) : Prop :=
  exists a b c,
    part_or "fully connected" (plain_part om on) fully a /\
    part_or "linked disconnected" (linked_part om on) linked b /\
    part_or "unlinked disconnected" (unlinked_part om on) unlinked c /\
    text = a ++ section_break ++ b ++ section_break ++ c.

(** ** Whole equations *)

(** The three groups of terms of the equation of a projection: every
    contraction asked for once, with the amplitudes in python's order. *)
Definition equation_terms (om on H cc S : nat) (ground remove_f : bool) (fully linked_ unlinked_ : list term) : Prop :=
  NoDup (fully ++ linked_ ++ unlinked_)%list /\
  (forall t, In t (fully ++ linked_ ++ unlinked_)%list <->
     exists hm hn us f fbar, requested om on H cc S ground remove_f hm hn us f fbar /\ in_order us /\
       describes om on hm hn us f fbar t) /\
  (forall t hm hn us f fbar, requested om on H cc S ground remove_f hm hn us f fbar ->
     describes om on hm hn us f fbar t ->
     (In t fully -> fully_connected us) /\ (In t linked_ -> linked om on us) /\ (In t unlinked_ -> unlinked om on us)).

(** The right hand side: without projection there are no disconnected terms,
    and empty sums are printed for them. *)
Definition equation_text (om on : nat) (fully linked_ unlinked_ : list term) (text : string) : Prop :=
  match (om + on)%nat with
  | 0 => linked_ = [] /\ unlinked_ = [] /\ exists a, plain_part om on fully a /\ text = a ++ " + () + ()"
  | _ => rhs_text om on fully linked_ unlinked_ text
  end.

(** ** Left hand sides *)
Definition pair_text (x : list ascii * list ascii) : string :=
  "\bt^{" ++ string_of_list_ascii (fst x) ++ "}_{" ++ string_of_list_ascii (snd x) ++ "}".
Definition product_text (xs : list (list ascii * list ascii)) : string := String.concat "" (map pair_text xs).

(** The product with the derivative of each factor in turn. *)
Fixpoint derivative_texts (before : string) (xs : list (list ascii * list ascii)) : list string :=
  match xs with
  | [] => []
  | x :: r => (before ++ "\dv{" ++ pair_text x ++ "}{\tau}" ++ product_text r) :: derivative_texts (before ++ pair_text x) r
  end.

Definition epsilon_text (xs : list (list ascii * list ascii)) : string := product_text xs ++ "\varepsilon".

(** The letters of a product of amplitudes, each written (number of upper
    indices, number of lower indices). *)
Definition labelled (g : list (nat * nat)) (xs : list (list ascii * list ascii)) : Prop :=
  Forall2 (fun ab x => List.length (fst x) = fst ab /\ List.length (snd x) = snd ab) g xs /\
  exists n, flat_map (fun x => fst x ++ snd x)%list xs = letters_from summed_letters 0 n.

(** The products of amplitudes that match a projection with om creation and
    on annihilation operators: each multiset once, short ones first; then the
    derivatives of all of them and all of them times epsilon. *)
Definition lhs_text (om on : nat) (text : string) : Prop :=
  match (om + on)%nat with
  | 0 => text = "i\left(\varepsilon\right)"
  | _ => exists gs xss,
      NoDup gs /\ (forall g, In g gs <-> contributes on om g /\ canonical g) /\
      StronglySorted (fun a b => List.length a <= List.length b) gs /\
      Forall2 labelled gs xss /\
      text = "i\left(" ++ String.concat " + " (flat_map (derivative_texts "") xss
                            ++ map epsilon_text xss)%list ++ "\right)"
  end.

(** ** The file *)
Definition omega_text (om on : nat) : string :=
  match (om + on)%nat with
  | 0 => "1"
  | _ => String.concat "" (map (fun c => "\up{" ++ String c "}") (letters_from summed_letters 0 om))
         ++ String.concat "" (map (fun c => "\down{" ++ String c "}") (letters_from summed_letters om on))
  end.

Definition align_text (om on : nat) (lhs rhs : string) : string :=
  "\begin{align}\begin{split}" ++ newline
  ++ "    \hat{\Omega} = " ++ omega_text om on ++ newline
  ++ "\\ LHS &=" ++ newline ++ "    " ++ lhs ++ newline
  ++ "\\ RHS &=" ++ newline ++ "%" ++ newline ++ "%" ++ newline ++ rhs ++ newline
  ++ "\end{split}\end{align}" ++ newline ++ newline.

Definition order_names : list string :=
  ["0 order"; "Linear"; "Quadratic"; "Cubic"; "Quartic"; "Quintic"; "Sextic"; "Septic"; "Octic"].

Definition heading_text (rank : nat) : string :=
  (match rank with 0 | 1 => "" | _ => "\newpage" ++ newline end)
  ++ "\subsection{" ++ nth rank order_names "" ++ " Equations}" ++ newline ++ newline.

Definition comment_lines : string :=
  "%" ++ newline ++ "%" ++ newline ++ "%" ++ newline ++ "%" ++ newline ++ "%" ++ newline ++ newline.

(** One section per projection; the first of each rank after 0 has a heading. *)
Inductive sections (H cc S : nat) (ground remove_f : bool) : nat -> list gop -> string -> Prop :=
| sections_end p : sections H cc S ground remove_f p [] ""
| sections_next p o r lhs rhs fully linked_ unlinked_ text :
    lhs_text (g_m o) (g_n o) lhs ->
    equation_terms (g_m o) (g_n o) H cc S ground remove_f fully linked_ unlinked_ ->
    equation_text (g_m o) (g_n o) fully linked_ unlinked_ rhs ->
    sections H cc S ground remove_f (g_rank o) r text ->
    sections H cc S ground remove_f p (o :: r)
      (comment_lines ++ (if Nat.ltb p (g_rank o) then heading_text (g_rank o) else "")
       ++ align_text (g_m o) (g_n o) lhs rhs ++ text).

Definition latex_text (H cc S P : nat) (ground remove_f : bool) (text : string) : Prop :=
  exists os body,
    NoDup os /\ (forall o, In o os <-> projection cc P o) /\ StronglySorted (fun a b => g_rank a <= g_rank b) os /\
    sections H cc S ground remove_f 0 os body /\ text = body ++ "\end{document}".

(** ** Reading the indices of a printed text *)

(** Scanner for "\blue{" or "\red{": k characters of the mark-up have been
    read; inside the braces each letter is reported together with the last
    "^" or "_" before. *)
Definition next_state (markup : string) (k : nat) (c : ascii) : nat :=
  match String.get k markup with
  | Some d => if Ascii.eqb c d then S k else if Ascii.eqb c "\" then 1 else 0
  | None => 0
  end.
Fixpoint scan (markup : string) (side : ascii) (k : nat) (s : string) : list (ascii * ascii) :=
  match s with
  | EmptyString => []
  | String c r =>
      if Nat.eqb k (String.length markup)
      then if Ascii.eqb c "}" then scan markup side 0 r else (side, c) :: scan markup side k r
      else scan markup (if Ascii.eqb c "^" || Ascii.eqb c "_" then c else side) (next_state markup k c) r
  end.
Definition indices (markup s : string) : list (ascii * ascii) := scan markup " " 0 s.

Definition letters_at (side : ascii) (markup s : string) : list ascii :=
  map snd (filter (fun x => Ascii.eqb (fst x) side) (indices markup s)).
Definition summed_upper := letters_at "^" "\blue{".
Definition summed_lower := letters_at "_" "\blue{".
Definition free_upper := letters_at "^" "\red{".
Definition free_lower := letters_at "_" "\red{".
Definition all_free (s : string) : list ascii := map snd (indices "\red{" s).
