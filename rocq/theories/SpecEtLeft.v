(** Specification vocabulary for the left hand side of the e^T ansatz: the
    derivative of displaced operators. *)
From Coq Require Import List Arith Bool Ascii String.
From Verif Require Import PyBase ModelFullCC ModelEt ModelEtPy SpecEt SpecEtPy SpecEtLatex SpecEtText SpecEinsum SpecFullCCValue SpecEtValue.
Import ListNotations.
Local Open Scope string_scope.

Section Left.
  Variable F : scalars.
  Variable N : nat.
  Variable args : string -> nat * nat -> array F.

  (** The coefficients of z, of dz/dtau and of dT/dtau, up to the truncation (the
      derivative of the constant of T is not there). *)
  Definition state_coefficient (name : string) (CC a k : nat) (modes : list nat) : K F :=
    if Nat.leb k CC then entry (args name (k, 0)) (a :: modes) else kzero F.
  Definition dT_coefficient (H m : nat) (modes : list nat) : K F :=
    if (has_h H m 0 && negb (Nat.eqb m 0))%bool then entry (args "dT" (m, 0)) modes else kzero F.

  (** The Taylor series of coefficients in t, with at most [top] factors. *)
  Definition taylor (top : nat) (coefficient : nat -> list nat -> K F) (k : nat) (modes : list nat) : K F :=
    ksum F (map (fun x => kmul F (one_over F (fact x))
      (sum_modes F N x (fun ts => kmul F (t_product F args LHS ts) (coefficient (k + x) (ts ++ modes)%list)))) (seq 0 (S top))).

  (** dz/dtau + dT/dtau z, projected on the modes [is]: [i] modes are those of
      dT/dtau and the others of z; all operators displaced. *)
  Definition displaced_derivative (H CC p : nat) (is : list nat) (a : nat) : K F :=
    kadd F (kmul F (one_over F (fact p)) (taylor CC (state_coefficient "dz_args" CC a) p is))
      (ksum F (map (fun i => kmul F (one_over F (fact i * fact (p - i)))
        (kmul F (taylor H (dT_coefficient H) i (firstn i is)) (taylor CC (state_coefficient "z_args" CC a) (p - i) (skipn i is)))) (seq 0 (S p)))).
End Left.
