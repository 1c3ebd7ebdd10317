(** The document and the module of the e^T ansatz after two runs of the program. *)
From Coq Require Import List Arith ZArith Lia Ascii String.
From Verif Require Import ModelMain ProofsCommandLine ProofsMain.
From Verif Require Import PyBase ModelFullCC ModelFullCCPy ModelTrunc ModelRun ModelCommandLine SpecPython SpecEtLatex SpecEtText SpecEinsum SpecEtValue SpecEtLeft SpecEtRun SpecEtBoth
  SpecTrunc SpecRun SpecCommandLine SpecMain ProofsTrunc ProofsRun ProofsFullCCRun ProofsEtRun.
From Verif Require ModelEt ModelEtPy ModelEtLatex ProofsEtProgram ProofsEtValue ProofsEtShift ProofsEtLeft ProofsEtBoth ProofsEtLatexFile.
Import ListNotations.
Local Open Scope nat_scope.

Lemma prints_after s p head text ks : prints_sum s p text ks -> prints_sum s p (head ++ text)%string ks.
Proof.
  intros (b & eqn & a & ld & tr & ss & sum & -> & Rest). exists (head ++ b)%string, eqn, a, ld, tr, ss, sum. split; [|exact Rest].
  now rewrite ProofsEtBoth.str_app_assoc.
Qed.

Section Run.
  Variable lt : list (list tamp) -> list (list tamp).
  Variable ln : list nat -> list nat.
  Variable lp : list (list (nat * nat)) -> list (list (nat * nat)).
  Variable pt : list (list tamp) -> list (list tamp).
  Variable pn : list nat -> list nat.
  Variable pl : list (list nat) -> list (list nat).
  Variable pc : list (list ascii) -> list (list ascii).
  Variable messages : string.
  Hypotheses (L1 : set_order lt) (L2 : set_order ln) (L3 : set_order lp)
    (P1 : set_order pt) (P2 : set_order pn) (P3 : set_order pl) (P4 : set_order pc).

  Notation generate := (ModelRun.generate lt ln lp pt pn pl pc).
  Notation run := (ModelRun.run lt ln lp pt pn pl pc).
  Notation main := (ModelMain.main lt ln lp pt pn pl pc messages).

  Lemma generate_eT_doc c doc H cc e P : complete (ansatz_type (gc_ansatz c)) (gc_trunc c) ->
    gc_kind c = KLatex -> gc_ansatz c = ETZT -> eTz_values (gc_trunc c) H cc 1 e P -> generate c = Ok doc ->
    exists head body, doc = (head ++ body)%string /\ 1 <= e /\
      ModelEtLatex.generate_eT_z_t_symmetric_latex (side_asked c) true (gc_remove_f c) H cc 1 e P = Ok body.
  Proof.
    intros W K A V E.
    assert (C : can_write c) by (apply (generate_iff lt ln lp pt pn pl pc L1 L2 L3 P1 P3 P4 c W); exists doc; exact E). destruct W as (Hd & _ & Hg).
    unfold ModelRun.generate in E. unfold can_write in C. rewrite K, A in C, E. destruct C as (Ac & Gr). rewrite Gr in E.
    destruct (eTz_get _ Hd Ac) as (H1 & cc1 & e1 & P5 & V1 & E1 & E2 & E3 & E4 & E5). destruct (eTz_unique _ _ _ _ _ _ _ _ _ Hd V1 V) as (-> & -> & -> & ->).
    rewrite (proj2 (verify_exact ETz _ Hd) Ac), E1, E2, E3, E4, E5 in E. cbn [bind] in E.
    assert (S : side_of (gc_side c) = side_asked c) by (unfold side_asked; destruct (gc_side c); reflexivity). rewrite S in E.
    destruct (ModelEtLatex.generate_eT_z_t_symmetric_latex (side_asked c) true (gc_remove_f c) H cc 1 e P) as [body|] eqn:G; cbn [bind] in E; [|discriminate E].
    injection E as <-. exists (z_t_header true), body. split; [reflexivity|]. split; [|reflexivity].
    assert (X : exists t, ModelEtLatex.generate_eT_z_t_symmetric_latex (side_asked c) true (gc_remove_f c) H cc 1 e P = Ok t) by (exists body; exact G).
    apply ProofsEtLatexFile.eT_latex_iff in X. tauto.
  Qed.

  Lemma program_eT_doc fs ss wss saved c H cc e P : Forall2 writes ss wss ->
    (forall l, logs_to ss l -> arg_path (ns_args (asked ss)) <> Some l) ->
    snd (main fs (List.concat wss)) = Program (Ok tt) ->
    driver_main fs (ns_args (asked ss)) = Ok (saved, c) -> ~ logs_to ss (gc_path c) ->
    gc_kind c = KLatex -> gc_ansatz c = ETZT -> eTz_values (gc_trunc c) H cc 1 e P ->
    exists doc head body, fst (main fs (List.concat wss)) (gc_path c) = Some doc /\ doc = (head ++ body)%string /\ 1 <= e /\
      ModelEtLatex.generate_eT_z_t_symmetric_latex (side_asked c) true (gc_remove_f c) H cc 1 e P = Ok body.
  Proof.
    intros F N E D NL K A V. destruct (main_runs lt ln lp pt pn pl pc messages fs ss wss F N) as [X Y].
    rewrite X in E. rewrite (Y _ NL). destruct (run fs (ns_args (asked ss))) as [fs' r] eqn:R. cbn [fst snd] in *.
    assert (r = Ok tt) as -> by congruence. pose proof (main_complete _ _ _ _ D) as W. rewrite (run_main_ok lt ln lp pt pn pl pc _ _ _ _ D) in R. cbn zeta in R.
    destruct (generate c) as [text|] eqn:G; [|discriminate]. injection R as <-.
    destruct (generate_eT_doc c text H cc e P W K A V G) as (head & body & E1 & E2 & E3). exists text, head, body. rewrite write_same. auto.
  Qed.

  Lemma program_agrees fs ss wss ss' wss' : Forall2 writes ss wss -> Forall2 writes ss' wss' ->
    (forall l, logs_to ss l -> arg_path (ns_args (asked ss)) <> Some l) ->
    (forall l, logs_to ss' l -> arg_path (ns_args (asked ss')) <> Some l) ->
    let before := main fs (List.concat wss) in
    let after := main (fst before) (List.concat wss') in
    snd before = Program (Ok tt) -> snd after = Program (Ok tt) ->
    forall saved c saved' c' H cc e P,
      driver_main fs (ns_args (asked ss)) = Ok (saved, c) -> driver_main (fst before) (ns_args (asked ss')) = Ok (saved', c') ->
      ~ logs_to ss (gc_path c) -> ~ logs_to ss' (gc_path c) -> ~ logs_to ss' (gc_path c') ->
      gc_kind c = KLatex -> gc_ansatz c = ETZT -> gc_kind c' = KPython -> gc_ansatz c' = ETZT -> gc_side c = gc_side c' ->
      eTz_values (gc_trunc c) H cc 1 e P -> eTz_values (gc_trunc c') H cc 1 e P ->
      exists doc text prog,
        fst after (gc_path c) = Some doc /\ fst after (gc_path c') = Some text /\ python text prog /\
        forall p, p <= cc -> p <= P -> exists ks,
          prints_sum (side_asked c) p doc ks /\ NoDup ks /\ (forall k, In k ks <-> eT_pairs (side_asked c) p H cc e k) /\
          forall opt, equation_is (side_asked c) prog p opt (fun F A N args is a => printed_sum_of_choices F A N args (side_asked c) ks is a).
  Proof.
    intros F F' N N' before after E E' saved c saved' c' H cc e P D D' NL NL' NL2 K A K' A' Sd V V'.
    destruct (program_eT_doc fs ss wss saved c H cc e P F N E D NL K A V) as (doc & head & body & T & Ed & Le & Gd).
    destruct (program_eT lt ln lp pt pn pl pc messages L1 L2 L3 P1 P3 P4 (fst before) ss' wss' saved' c' H cc e P F' N' E' D' NL2 K' A' V') as (text & prog & T' & R & B & G).
    destruct (main_end_to_end lt ln lp pt pn pl pc messages L1 L2 L3 P1 P2 P3 P4 (fst before) ss' wss' F' N') as [_ X'].
    destruct (X' E') as (c2 & text2 & _ & _ & _ & (sv2 & D2) & _ & Rest). rewrite D' in D2. injection D2 as <- <-.
    assert (Sa : side_asked c' = side_asked c) by (unfold side_asked; now rewrite Sd). rewrite Sa in G.
    exists doc, text, prog. split; [|split; [exact T'|split; [exact R|]]].
    - unfold after. rewrite Rest; [exact T| |exact (main_path_other _ _ _ _ D)|exact NL'].
      destruct (driver_dispatch _ _ _ _ D) as (k & an & d & g & rf & s & Di). destruct (driver_dispatch _ _ _ _ D') as (k2 & an2 & d2 & g2 & rf2 & s2 & Di').
      intros Ep. apply (paths_exact _ _ _ _ _ _ _ _ _ _ _ _ _ _ Di Di') in Ep as (Ek & _). congruence.
    - intros p Hp HP. destruct (ProofsEtBoth.both_choices (side_asked c) (gc_ground c') H cc e P (gc_remove_f c) text prog body B Le G R Gd p Hp HP) as (ks & Pk & Nk & Ik & W).
      exists ks. split; [rewrite Ed; now apply prints_after|]. split; [exact Nk|]. split; [exact Ik|]. intros opt.
      split; [apply (ProofsEtValue.file_value (side_asked c) (gc_ground c') H cc e P text prog B G R p opt Hp HP)|]. exact (W opt).
  Qed.
End Run.
