(** C132: the LaTeX document of the z ansatz and the python module of the e^T
    ansatz. *)
From Coq Require Import List Arith Bool String Lia QArith Qcanon.
From Verif Require Import PyBase ModelZhz ModelEt ModelEtPy SpecZhz SpecEt SpecEtPy SpecEtLatex SpecPython SpecEtText SpecEinsum SpecFullCCValue SpecEtValue SpecZhzValue
  ProofsZhzEquation ProofsEtProgram ProofsZhzValue PropertiesWValue PropertiesEtValue.
Import ListNotations.
Local Open Scope nat_scope.
Local Open Scope list_scope.

(** C132: the sum of products h z that the document of the z ansatz prints for a
    projection without creation operators is what the function of the terms
    without amplitudes of the e^T module computes, with the bare term. *)
Theorem C132_hz_value :
  forall ground H CC e P P' remove_f text prog doc, 1 <= CC <= 5 \/ (1 <= CC <= 7 /\ H <= 5) ->
    generate_eT_zhz_python RHS ground H CC 1 e P = Ok text -> python text prog ->
    generate_z_t_symmetric_latex H CC P' true remove_f = Ok doc ->
    forall p, p <= CC -> p <= P -> p <= P' ->
      exists cs, prints_hz_sum p doc cs /\ NoDup cs /\
        (forall c, In c cs <-> contracts 0 p (h_allowed H) (z_allowed CC true) (z_allowed CC true) right_only c) /\
        forall opt, exists b, ground_branch prog (terms_head RHS p "HZ" opt) b /\
          forall flag, (forall c, flag c = true) -> exists l, body_runs RHS flag b l /\
            forall F A N args, eT_axes F A N args -> forall a is, List.length is = p ->
              kadd F (eT_added F args l (a :: is)) (bare_value F A args RHS p is a) = hz_sum F A N args cs is a.
Proof. exact hz_both. Qed.
Print Assumptions C132_hz_value.

(** Both files are written; for a linear Hamiltonian, z up to rank two and one
    annihilation operator there are three contractions, each 2 with the arrays of
    C119: 6 in all, of which 2 are the bare term. *)
Example C132_example :
  (exists text prog, generate_eT_zhz_python RHS true 1 2 1 3 1 = Ok text /\ python text prog) /\
  (exists doc, generate_z_t_symmetric_latex 1 2 1 true false = Ok doc) /\
  (let cs := [mkpairing 0 0 0  0 0 0  0 0 0  1 0 0; mkpairing 0 0 0  0 0 0  0 0 0  1 0 1; mkpairing 0 0 0  0 0 0  1 0 0  0 0 0] in
   Forall (contracts 0 1 (h_allowed 1) (z_allowed 2 true) (z_allowed 2 true) right_only) cs /\
   eT_axes rationals 2 1 few_modes /\
   hz_sum rationals 2 1 few_modes cs [0] 0 = of_nat rationals 6 /\
   bare_value rationals 2 few_modes RHS 1 [0] 0 = of_nat rationals 2).
Proof.
  split; [|split; [|cbv zeta; split; [|split; [|split]]]].
  - assert (X : forall s g H CC e P text, 1 <= CC <= 8 -> generate_eT_zhz_python s g H CC 1 e P = Ok text -> exists text prog, generate_eT_zhz_python s g H CC 1 e P = Ok text /\ python text prog).
    { intros s g H CC e P text L G. destruct (file_program s g H CC e P text L G) as (prog & Py & _). now exists text, prog. }
    eapply X; [lia|vm_compute; reflexivity].
  - destruct (z_file_ok 1 2 false ltac:(lia) 1 ltac:(lia)) as (doc & G & _). now exists doc.
  - apply Forall_cons; [|apply Forall_cons; [|apply Forall_cons; [|apply Forall_nil]]];
      unfold contracts, p_up, p_down, h_up, h_down, h_allowed, fits_kind, l_up, l_down, r_up, r_down, z_allowed; cbn; repeat split; intros; try discriminate; lia.
  - exact (proj1 (proj2 (proj2 C119_example))).
  - apply Qc_is_canon. vm_compute. reflexivity.
  - apply Qc_is_canon. vm_compute. reflexivity.
Qed.
