(** Property theorems C112: the printed python of the full coupled cluster
    equations and the printed LaTeX equations. *)
From Coq Require Import List Arith Lia String Permutation.
From Verif Require Import PyBase ModelFullCC ModelFullCCPy ModelFullCCLatex SpecFullCC SpecPrefactor SpecFullCCPy SpecFullCCLatex SpecPython SpecEtText SpecFullCCText SpecFullCCPlaces SpecFullCCComplete
  SpecFullCCAgree ProofsFullCCPy ProofsFullCCFile ProofsFullCCText ProofsFullCCLatexFile ProofsFullCCAgree.
Import ListNotations.

(** C112: where nothing is lost, the functions of each projection compute the
    terms of the LaTeX equation of this projection (ground state, f terms
    removed), group by group, each term with the printed fraction. *)
Theorem C112_python_computes_latex :
  forall sot so son soc H cc S P text prog,
    set_order sot -> set_order so -> set_order son -> set_order soc -> 1 <= cc <= 6 -> S <= 6 -> H <= 5 -> ~ loses H cc S P ->
    generate_full_cc_python sot so son soc H cc S P = Ok text -> python text prog ->
    forall so' son' omega e, set_order so' -> set_order son' -> g_rank omega = g_m omega + g_n omega -> g_rank omega <= cc -> g_rank omega <= P ->
      generate_cc_latex_equations so' son' omega H cc S true true = Ok e ->
      exists fully linked_ unlinked_,
        equation_terms (g_m omega) (g_n omega) H cc S true true fully linked_ unlinked_ /\
        equation_text (g_m omega) (g_n omega) fully linked_ unlinked_ (render_equation (g_rank omega) e) /\
        Forall2 (implements prog (g_m omega) (g_n omega)) groups [fully; linked_; unlinked_].
Proof. exact cc_python_latex. Qed.
Print Assumptions C112_python_computes_latex.

(** C112: a term is added once, as printed, exactly when it has one amplitude
    and the projection at most one operator; otherwise it is added more often. *)
Theorem C112_how_often :
  forall m n t c, computes m n t c -> (List.length (c_calls c) = 1 <-> List.length (snd t) = 1 /\ m + n <= 1).
Proof. exact how_often. Qed.
Print Assumptions C112_how_often.

(** So "every term is added once" is false of every such file with rank two: the
    term h_0 t^2 of the second equation is added twice by the same call. *)
Theorem C112_once_refuted :
  forall sot so son soc H cc S P text prog,
    set_order sot -> set_order so -> set_order son -> set_order soc -> 2 <= cc <= 6 -> 1 <= S <= 6 -> H <= 5 -> 2 <= P -> ~ loses H cc S P ->
    generate_full_cc_python sot so son soc H cc S P = Ok text -> python text prog ->
    exists bares what p e rest,
      defines_cc_terms prog 0 2 false ("unlinked_disconnected", "unlinked")%string (branch_does (sum_adds einsum_text) bares what) /\
      realises 0 2 0 0 0 0 [mkt 0 0 2 0] e /\
      Permutation (what (fun _ => true) (fun _ => true)) ((p, e) :: (p, e) :: rest).
Proof. exact cc_twice. Qed.
Print Assumptions C112_once_refuted.

(** The hypotheses hold for a quadratic Hamiltonian with doubles and the second
    projection. *)
Definition the_list {A} (l : list A) : list A := l.
Definition second : gop := mkgop "" 2 0 2.
Example C112_example :
  ~ loses 2 2 2 2 /\
  (exists text prog, generate_full_cc_python the_list the_list the_list the_list 2 2 2 2 = Ok text /\ python text prog) /\
  (exists e, generate_cc_latex_equations the_list the_list second 2 2 2 true true = Ok e).
Proof.
  split; [unfold loses; lia|]. assert (Id : forall A, @set_order A the_list) by (intros A l; apply Permutation_refl). split.
  - destruct (file_generated the_list the_list the_list the_list (Id _) (Id _) (Id _) 2 2 2 2) as [body E]; [unfold accepted; lia|lia|].
    assert (E' : generate_full_cc_python the_list the_list the_list the_list 2 2 2 2 = Ok (full_cc_import_statements ++ body)%string)
      by (unfold generate_full_cc_python; now rewrite E).
    destruct (cc_file_program the_list the_list the_list the_list 2 2 2 2 _ (Id _) (Id _) (Id _) ltac:(lia) ltac:(lia) ltac:(lia) E') as (prog & R & _).
    eauto.
  - destruct (latex_equation the_list the_list second 2 2 2 true true (Id _) (Id _) ltac:(lia) ltac:(lia) eq_refl ltac:(cbn; lia)) as (a & b & c & _ & [(_ & X & _)|(_ & e & E & _)]).
    + cbn in X. lia.
    + eauto.
Qed.
