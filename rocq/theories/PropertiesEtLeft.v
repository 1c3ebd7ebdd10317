(** C124: the left hand side of the e^T ansatz. *)
From Coq Require Import List Arith Bool Ascii String Lia QArith Qcanon.
From Verif Require Import PyBase ModelFullCC ModelEt ModelEtPy SpecEt SpecEtPy SpecEtLatex SpecPython SpecEtText SpecEinsum SpecFullCCValue SpecEtValue SpecEtLeft
  ProofsEtProgram ProofsEtValue ProofsEtLeft PropertiesWValue PropertiesEtValue.
Import ListNotations.
Local Open Scope nat_scope.
Local Open Scope string_scope.
Local Open Scope list_scope.

(** C124: if the series of e^T is long enough for the truncations, the left hand side
    (with the term dz^p / p! that it lacks) is dz/dtau + dT/dtau z without amplitudes,
    but with displaced operators: the coefficients of dz/dtau, of dT/dtau and of z
    are replaced by their Taylor series in the conjugate amplitudes. *)
Theorem C124_displaced_derivative :
  forall ground H CC e P text prog, 1 <= CC <= 8 -> H + CC <= e -> generate_eT_zhz_python LHS ground H CC 1 e P = Ok text -> python text prog ->
    forall p opt, p <= CC -> p <= P ->
      exists b1 b2, ground_branch prog (terms_head LHS p "HZ" opt) b1 /\ ground_branch prog (terms_head LHS p "eT_HZ" opt) b2 /\
        forall flag, (forall c, flag c = true) ->
          exists l1 l2, body_runs LHS flag b1 l1 /\ body_runs LHS flag b2 l2 /\
            forall F A N args, eT_axes F A N args -> forall a is, List.length is = p ->
              kadd F (kadd F (eT_added F args l1 (a :: is)) (eT_added F args l2 (a :: is))) (bare_value F A args LHS p is a) =
              displaced_derivative F N args H CC p is a.
Proof. exact file_derivative. Qed.
Print Assumptions C124_displaced_derivative.

(** One mode; all coefficients are one and t is three.  For H = 1, CC = 2 and p = 1:
    dz^1 becomes 1 + 3, dT without indices 3, z becomes 1 + 3 + 9/2 and z^1 becomes
    1 + 3; so 4 + 3 * 4 + 17/2 = 49/2. *)
Example C124_example :
  (exists text prog, generate_eT_zhz_python LHS true 1 2 1 3 1 = Ok text /\ python text prog) /\ eT_axes rationals 2 1 few_modes /\
  kmul rationals (of_nat rationals 2) (displaced_derivative rationals 1 few_modes 1 2 1 [0] 0) = of_nat rationals 49.
Proof.
  split; [|split].
  - assert (G : exists text, generate_eT_zhz_python LHS true 1 2 1 3 1 = Ok text) by (eexists; vm_compute; reflexivity).
    destruct G as (text & G). destruct (file_program LHS true 1 2 3 1 text ltac:(lia) G) as (prog & Py & _). exists text, prog. exact (conj G Py).
  - repeat split; intros; cbn; rewrite ?Nat.add_0_r; reflexivity.
  - apply Qc_is_canon. vm_compute. reflexivity.
Qed.
