(** C131: the LaTeX document and the python module of the e^T ansatz, as numbers. *)
From Coq Require Import List Arith Bool String Lia QArith Qcanon.
From Verif Require Import PyBase ModelEt ModelEtPy ModelEtLatex SpecEt SpecEtPy SpecEtLatex SpecPython SpecEtText SpecEinsum SpecFullCCValue SpecEtValue SpecEtBoth
  ProofsEtLatexFile ProofsEtProgram ProofsEtBoth PropertiesWValue.
Import ListNotations.
Local Open Scope nat_scope.
Local Open Scope list_scope.

(** C131: the sum that the document prints for a projection is what the module
    computes, with the bare term, if every printed term counts as often as there are
    choices of the amplitudes that are paired with z. *)
Theorem C131_choices :
  forall s ground H CC e P remove_f text prog doc, 1 <= CC <= 8 -> 1 <= e ->
    generate_eT_zhz_python s ground H CC 1 e P = Ok text -> python text prog ->
    generate_eT_z_t_symmetric_latex s true remove_f H CC 1 e P = Ok doc ->
    forall p, p <= CC -> p <= P ->
      exists ks, prints_sum s p doc ks /\ NoDup ks /\ (forall k, In k ks <-> eT_pairs s p H CC e k) /\
        forall opt, exists b1 b2, ground_branch prog (terms_head s p "HZ" opt) b1 /\ ground_branch prog (terms_head s p "eT_HZ" opt) b2 /\
          forall flag, (forall c, flag c = true) ->
            exists l1 l2, body_runs s flag b1 l1 /\ body_runs s flag b2 l2 /\
              forall F A N args, eT_axes F A N args -> forall a is, List.length is = p ->
                kadd F (kadd F (eT_added F args l1 (a :: is)) (eT_added F args l2 (a :: is))) (bare_value F A args s p is a) =
                printed_sum_of_choices F A N args s ks is a.
Proof. exact both_choices. Qed.
Print Assumptions C131_choices.

(** C131: so the sum is that of the module as it stands if there is at most one
    amplitude or H has no operators ... *)
Theorem C131_as_printed :
  forall s ground H CC e P remove_f text prog doc, 1 <= CC <= 8 -> 1 <= e -> e = 1 \/ H = 0 ->
    generate_eT_zhz_python s ground H CC 1 e P = Ok text -> python text prog ->
    generate_eT_z_t_symmetric_latex s true remove_f H CC 1 e P = Ok doc ->
    forall p, p <= CC -> p <= P ->
      exists ks, prints_sum s p doc ks /\ NoDup ks /\
        forall opt, exists b1 b2, ground_branch prog (terms_head s p "HZ" opt) b1 /\ ground_branch prog (terms_head s p "eT_HZ" opt) b2 /\
          forall flag, (forall c, flag c = true) ->
            exists l1 l2, body_runs s flag b1 l1 /\ body_runs s flag b2 l2 /\
              forall F A N args, eT_axes F A N args -> forall a is, List.length is = p ->
                kadd F (kadd F (eT_added F args l1 (a :: is)) (eT_added F args l2 (a :: is))) (bare_value F A args s p is a) =
                printed_sum F A N args s ks is a.
Proof. exact both_as_printed. Qed.
Print Assumptions C131_as_printed.

(** ... and for all other truncations it is not: the document and the module of
    the projection without operators give different numbers for some arrays. *)
Theorem C131_as_printed_refuted :
  forall s ground H CC e P remove_f text prog doc, 1 <= CC <= 8 -> 2 <= e -> 1 <= H ->
    generate_eT_zhz_python s ground H CC 1 e P = Ok text -> python text prog ->
    generate_eT_z_t_symmetric_latex s true remove_f H CC 1 e P = Ok doc ->
      exists ks, prints_sum s 0 doc ks /\ NoDup ks /\
        forall opt, exists b1 b2, ground_branch prog (terms_head s 0 "HZ" opt) b1 /\ ground_branch prog (terms_head s 0 "eT_HZ" opt) b2 /\
          forall flag, (forall c, flag c = true) ->
            exists l1 l2, body_runs s flag b1 l1 /\ body_runs s flag b2 l2 /\
              exists args, eT_axes rationals 1 1 args /\
                kadd rationals (kadd rationals (eT_added rationals args l1 [0]) (eT_added rationals args l2 [0])) (bare_value rationals 1 args s 0 [] 0) <>
                printed_sum rationals 1 1 args s ks [] 0.
Proof. exact both_differ. Qed.
Print Assumptions C131_as_printed_refuted.

(** Both files are written for these truncations; a kind with two amplitudes, one
    on z and one on H, has two choices. *)
Example C131_example :
  (exists text prog, generate_eT_zhz_python RHS true 1 2 1 2 1 = Ok text /\ python text prog) /\
  (exists doc, generate_eT_z_t_symmetric_latex RHS true false 1 2 1 2 1 = Ok doc) /\
  (exists text prog, generate_eT_zhz_python LHS false 1 2 1 1 2 = Ok text /\ python text prog) /\
  (exists doc, generate_eT_z_t_symmetric_latex LHS true true 1 2 1 1 2 = Ok doc) /\
  eT_pairs RHS 0 1 2 2 (mkpairs 0 0 1 0 1) /\ ways 1 1 = 2 /\ ways 2 3 = 10 /\
  latex_divisor (mkpairs 0 0 1 0 1) = 2.
Proof.
  assert (X : forall s g H CC e P text, 1 <= CC <= 8 -> generate_eT_zhz_python s g H CC 1 e P = Ok text -> exists text prog, generate_eT_zhz_python s g H CC 1 e P = Ok text /\ python text prog).
  { intros s g H CC e P text L G. destruct (file_program s g H CC e P text L G) as (prog & Py & _). now exists text, prog. }
  split; [eapply X; [lia|vm_compute; reflexivity]|]. split; [apply eT_latex_iff; cbn; auto with arith|].
  split; [eapply X; [lia|vm_compute; reflexivity]|]. split; [apply eT_latex_iff; cbn; auto with arith|].
  split; [unfold eT_pairs, SpecZhz.h_allowed, allowed_on, k_up, k_down, k_z, k_t; cbn; repeat split; lia|]. auto.
Qed.
