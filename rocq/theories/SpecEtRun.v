(** Specification vocabulary: what the functions of an e^T module add up to. *)
From Coq Require Import List Arith Bool Ascii String.
From Verif Require Import PyBase ModelFullCC ModelEt ModelEtPy SpecEt SpecEtPy SpecEtLatex SpecPython SpecEtText SpecEinsum SpecFullCCValue SpecEtValue SpecEtLeft.

(** If the caller allows all contractions, the two functions of the projection p (which
    the function of the equation adds up) and the term that they lack add up to
    [value]. *)
Definition equation_is (s : side) (prog : list stmt) (p : nat) (opt : bool)
    (value : forall F : scalars, nat -> nat -> (string -> nat * nat -> array F) -> list nat -> nat -> K F) : Prop :=
  defines_equation s prog p opt /\
  exists b1 b2, ground_branch prog (terms_head s p "HZ" opt) b1 /\ ground_branch prog (terms_head s p "eT_HZ" opt) b2 /\
    forall flag, (forall c, flag c = true) ->
      exists l1 l2, body_runs s flag b1 l1 /\ body_runs s flag b2 l2 /\
        forall F A N args, eT_axes F A N args -> forall a is, List.length is = p ->
          kadd F (kadd F (eT_added F args l1 (a :: is)) (eT_added F args l2 (a :: is))) (bare_value F A args s p is a) = value F A N args is a.

(** The equation of a side with displaced operators (C120, C124). *)
Definition displaced_side (s : side) (H cc p : nat) (F : scalars) (A N : nat) (args : string -> nat * nat -> array F) (is : list nat) (a : nat) : K F :=
  match s with
  | RHS => displaced_product F A N args H cc p is a
  | LHS => displaced_derivative F N args H cc p is a
  end.
