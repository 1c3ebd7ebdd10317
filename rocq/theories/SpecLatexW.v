(** Specification vocabulary for the LaTeX of the W operators, independent of
    the model's helper functions. *)
From Coq Require Import List Arith Permutation Sorted.
From Verif Require Import SpecW.
Import ListNotations.

(** A product written with powers, multiplied out. *)
Definition multiply_out {A} (d : list (A * nat)) : list A :=
  flat_map (fun xk => repeat (fst xk) (snd xk)) d.

(** [d] writes the product of the factors [l] with each distinct factor once
    and its multiplicity as exponent. *)
Definition written_with_powers {A} (l : list A) (d : list (A * nat)) : Prop :=
  NoDup (map fst d) /\ Forall (fun xk => 1 <= snd xk) d /\ Permutation (multiply_out d) l.

Definition product_of_factorials (ks : list nat) : nat :=
  fold_right (fun k r => fact_spec k * r) 1 ks.

(** [den] is the denominator by which l! is the number of distinct orderings
    of the factors: 1/den = (number of orderings) / (number of factors)!. *)
Definition orderings_over_factorial {A} (l : list A) (den : nat) : Prop :=
  forall orderings, NoDup orderings -> (forall q, In q orderings <-> Permutation q l) ->
    List.length orderings * den = fact_spec (List.length l).

(** A product of amplitudes t^a_b, other than t^0_0, contributing to W^m_n. *)
Definition contributes (m n : nat) (g : list (nat * nat)) : Prop :=
  g <> [] /\
  Forall (fun ab => ab <> (0, 0)) g /\
  fold_right (fun ab r => fst ab + r) 0 g = m /\
  fold_right (fun ab r => snd ab + r) 0 g = n.

(** The canonical order of the factors: largest first, as python compares
    pairs. *)
Definition pair_ge (x y : nat * nat) : Prop :=
  fst y < fst x \/ (fst x = fst y /\ snd y <= snd x).
Definition canonical (g : list (nat * nat)) : Prop := StronglySorted pair_ge g.
