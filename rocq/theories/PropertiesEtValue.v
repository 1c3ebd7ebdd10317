(** Properties of the numbers that the generated python of the e^T ansatz
    computes. *)
From Coq Require Import List Arith Bool Ascii String Lia QArith Qcanon.
From Verif Require Import PyBase ModelFullCC ModelEt ModelEtPy SpecEt SpecEtPy SpecEtLatex SpecPython SpecEtText SpecEinsum SpecFullCCValue SpecEtValue
  ProofsEtProgram ProofsEtValue ProofsEtShift PropertiesWValue.
Import ListNotations.
Local Open Scope nat_scope.
Local Open Scope list_scope.

(** C119: whatever arrays of the right shapes H, the amplitudes, z and their
    derivatives are, numpy accepts every call of the two functions of a
    projection (default or optimized), every result has the shape of the
    residual, and what the functions add to its entries are the contractions of
    the ansatz without and with amplitudes that the caller allows, each divided
    by the permutations of pairs of the same kind. *)
Theorem C119_eT_value :
  forall s ground H CC e P text prog, 1 <= CC <= 8 -> generate_eT_zhz_python s ground H CC 1 e P = Ok text -> python text prog ->
    forall p opt, p <= CC -> p <= P ->
      computes_eT s ground prog (terms_head s p "HZ" opt) p (fun k => has_operators s H CC k && negb (is_bare k)) (all_paired H p 0 0) /\
      computes_eT s ground prog (terms_head s p "eT_HZ" opt) p (has_operators s H CC) (all_paired H p 1 e) /\
      defines_equation s prog p opt.
Proof. exact file_value. Qed.
Print Assumptions C119_eT_value.

(** So the equation, which adds both to zeros, lacks exactly the term
    1 * h^0_0 * z^p / p! of the sum of all contractions. *)
Theorem C119_eT_equation :
  forall s ground H CC e P text prog, 1 <= CC <= 8 -> generate_eT_zhz_python s ground H CC 1 e P = Ok text -> python text prog ->
    forall p opt, p <= CC -> p <= P ->
      exists b1 b2, ground_branch prog (terms_head s p "HZ" opt) b1 /\ ground_branch prog (terms_head s p "eT_HZ" opt) b2 /\
        forall flag, allowed flag (paired p 0 0 0 0) = true ->
          exists l1 l2, body_runs s flag b1 l1 /\ body_runs s flag b2 l2 /\
            forall F A N args, eT_axes F A N args -> forall a is, List.length is = p ->
              kadd F (kadd F (eT_added F args l1 (a :: is)) (eT_added F args l2 (a :: is))) (bare_value F A args s p is a) =
              selected_value F A N args s (fun k => has_operators s H CC k && allowed flag k) (all_paired H p 0 e) is a.
Proof. exact file_total. Qed.
Print Assumptions C119_eT_equation.

(** C120: if the series of e^T is long enough for the truncations, the equation of the
    right hand side (with the term that it lacks) is H z without amplitudes, but
    with displaced operators: the coefficients of H and of z are replaced by
    their Taylor series in t. *)
Theorem C120_displaced_operators :
  forall ground H CC e P text prog, 1 <= CC <= 8 -> H + CC <= e -> generate_eT_zhz_python RHS ground H CC 1 e P = Ok text -> python text prog ->
    forall p opt, p <= CC -> p <= P ->
      exists b1 b2, ground_branch prog (terms_head RHS p "HZ" opt) b1 /\ ground_branch prog (terms_head RHS p "eT_HZ" opt) b2 /\
        forall flag, (forall c, flag c = true) ->
          exists l1 l2, body_runs RHS flag b1 l1 /\ body_runs RHS flag b2 l2 /\
            forall F A N args, eT_axes F A N args -> forall a is, List.length is = p ->
              kadd F (kadd F (eT_added F args l1 (a :: is)) (eT_added F args l2 (a :: is))) (bare_value F A args RHS p is a) =
              displaced_product F A N args H CC p is a.
Proof. exact file_displaced. Qed.
Print Assumptions C120_displaced_operators.

(** Two states and one mode; all coefficients are one and t is three.  For H = 1,
    CC = 2 and p = 1: H without indices becomes 1 + 3, z becomes 1 + 3 + 9/2 and
    z^1 becomes 1 + 3; so 2 * (4 * 4 + 1 + 17/2) = 51, of which
    2 * (1 + 1 + 1) are without amplitudes. *)
Definition few_modes (name : string) (key : nat * nat) : array rationals :=
  let axes := if String.eqb name "h_args" then [2; 2] else if String.eqb name "z_args" || String.eqb name "dz_args" then [2] else [] in
  mkarray (F := rationals) (axes ++ repeat 1 (fst key + snd key)) (fun _ => if String.prefix "t" name then of_nat rationals 3 else kone rationals).
Example C119_example :
  (exists text prog, generate_eT_zhz_python RHS true 1 2 1 3 1 = Ok text /\ python text prog) /\
  (exists text prog, generate_eT_zhz_python LHS false 1 2 1 1 2 = Ok text /\ python text prog) /\
  eT_axes rationals 2 1 few_modes /\ allowed (fun _ => true) (paired 1 0 0 0 0) = true /\
  selected_value rationals 2 1 few_modes RHS (has_operators RHS 1 2) (all_paired 1 1 0 3) [0] 0 = of_nat rationals 51 /\
  displaced_product rationals 2 1 few_modes 1 2 1 [0] 0 = of_nat rationals 51 /\
  selected_value rationals 2 1 few_modes RHS (fun k => has_operators RHS 1 2 k && negb (is_bare k)) (all_paired 1 1 0 0) [0] 0 = of_nat rationals 4 /\
  bare_value rationals 2 few_modes RHS 1 [0] 0 = of_nat rationals 2.
Proof.
  assert (X : forall s g H CC e P text, 1 <= CC <= 8 -> generate_eT_zhz_python s g H CC 1 e P = Ok text -> exists text prog, generate_eT_zhz_python s g H CC 1 e P = Ok text /\ python text prog).
  { intros s g H CC e P text L G. destruct (file_program s g H CC e P text L G) as (prog & Py & _). now exists text, prog. }
  split; [|split; [|split; [|split; [|split; [|split; [|split]]]]]].
  - eapply X; [lia|vm_compute; reflexivity].
  - eapply X; [lia|vm_compute; reflexivity].
  - repeat split; intros; cbn; rewrite ?Nat.add_0_r; reflexivity.
  - reflexivity.
  - vm_compute. reflexivity.
  - vm_compute. reflexivity.
  - vm_compute. reflexivity.
  - vm_compute. reflexivity.
Qed.
