(** Specification vocabulary: the sum of contractions that the LaTeX document of
    the e^T ansatz prints, as a number, without the functions of the model. *)
From Coq Require Import List Arith Factorial String.
From Verif Require Import PyBase ModelEt SpecEt SpecEtLatex SpecEinsum SpecEtValue.
Import ListNotations.
Local Open Scope string_scope.

(** In the section of the document for a projection with [p] annihilation operators
    the printed sum has one term for each of the kinds [ks]. *)
Definition prints_sum (s : side) (p : nat) (text : string) (ks : list pairs) : Prop :=
  exists before eqn after lead trail ss sum,
    text = before ++ eT_section_text s p eqn ++ after /\
    eqn = lead ++ "\\&+\sum\Big(" ++ sum ++ "\Big)" ++ trail /\
    Forall2 (eT_term_text true s) ks ss /\ NoDup ss /\ eT_sum_text 4 ss sum.

(** In how many ways [x] of [x + y] amplitudes are chosen. *)
Fixpoint ways (x y : nat) : nat :=
  match x with
  | O => 1
  | S x' => (fix inner y := match y with O => 1 | S y' => ways x' y + inner y' end) y
  end.

Section Value.
  Variable F : scalars.
  Variables A N : nat.
  Variable args : string -> nat * nat -> array F.

  (** A printed term: the fraction that is printed times the contraction (also where
      the letters have run out; the powers of f are those of the thermal average,
      1 here). *)
  Definition printed_value (s : side) (is : list nat) (a : nat) (k : pairs) : K F :=
    kmul F (one_over F (latex_divisor k)) (paired_value F A N args s k is a).

  (** The printed sum as it stands, ... *)
  Definition printed_sum (s : side) (ks : list pairs) (is : list nat) (a : nat) : K F :=
    ksum F (map (printed_value s is a) ks).
  (** ... and with every term as often as there are choices of the amplitudes that
      are paired with z. *)
  Definition printed_sum_of_choices (s : side) (ks : list pairs) (is : list nat) (a : nat) : K F :=
    ksum F (map (fun k => kmul F (of_nat F (ways (k_zt k) (k_ht k))) (printed_value s is a k)) ks).
End Value.
