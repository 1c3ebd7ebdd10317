(** What runs of the program leave for the full coupled cluster ansatz. *)
From Coq Require Import List Arith ZArith Lia Ascii String.
From Verif Require Import ModelMain ProofsCommandLine ProofsMain.
From Verif Require Import PyBase ModelFullCC ModelFullCCPy ModelHeaders ModelTrunc ModelRun ModelCommandLine SpecFullCC SpecFullCCPy SpecPython
  SpecEtText SpecFullCCText SpecFullCCPlaces SpecFullCCComplete SpecFullCCLatex SpecFullCCAgree SpecTrunc SpecRun SpecCommandLine SpecMain
  ProofsFullCCFile ProofsFullCCText ProofsFullCCEvery ProofsFullCCAgree ProofsTrunc ProofsRun.
Import ListNotations.

Section Run.
  Variable lt : list (list tamp) -> list (list tamp).
  Variable ln : list nat -> list nat.
  Variable lp : list (list (nat * nat)) -> list (list (nat * nat)).
  Variable pt : list (list tamp) -> list (list tamp).
  Variable pn : list nat -> list nat.
  Variable pl : list (list nat) -> list (list nat).
  Variable pc : list (list ascii) -> list (list ascii).
  Variable messages : string.
  Hypotheses (L1 : set_order lt) (L2 : set_order ln) (L3 : set_order lp)
    (P1 : set_order pt) (P2 : set_order pn) (P3 : set_order pl) (P4 : set_order pc).

  Notation generate := (ModelRun.generate lt ln lp pt pn pl pc).
  Notation run := (ModelRun.run lt ln lp pt pn pl pc).
  Notation main := (ModelMain.main lt ln lp pt pn pl pc messages).

  Lemma generate_full_cc c text H cc S P : complete (ansatz_type (gc_ansatz c)) (gc_trunc c) ->
    gc_kind c = KPython -> gc_ansatz c = FullCC -> fcc_values (gc_trunc c) H cc S P -> generate c = Ok text ->
    generate_full_cc_python pt pn pl pc H cc S P = Ok text /\ 1 <= cc <= 6 /\ S <= 6 /\ H <= 5 /\ exists prog, python text prog.
  Proof.
    intros W K A V E.
    assert (C : can_write c) by (apply (generate_iff lt ln lp pt pn pl pc L1 L2 L3 P1 P3 P4 c W); exists text; exact E). destruct W as (Hd & _ & Hg).
    unfold ModelRun.generate in E. unfold can_write in C. rewrite K, A in C, E. destruct C as (Ac & H0 & cc0 & S0 & P0 & V0 & B).
    destruct (fcc_unique _ _ _ _ _ _ _ _ _ Hd V0 V) as (-> & -> & -> & ->).
    destruct (fcc_get _ Hd Ac) as (H1 & cc1 & S1 & P5 & V1 & E1 & E2 & E3 & E4). destruct (fcc_unique _ _ _ _ _ _ _ _ _ Hd V1 V) as (-> & -> & -> & ->).
    rewrite (proj2 (verify_exact Fcc _ Hd) Ac), E1, E2, E3, E4 in E. cbn [bind] in E.
    pose proof (fcc_bounds _ _ _ _ _ Hd Ac V) as Bo. split; [exact E|]. split; [lia|]. split; [lia|]. split; [exact B|].
    destruct (cc_file_program pt pn pl pc H cc S P text P1 P3 P4 ltac:(lia) ltac:(lia) ltac:(lia) E) as (prog & R & _). now exists prog.
  Qed.

  Lemma run_full_cc fs a fs' saved c H cc S P : run fs a = (fs', Ok tt) -> driver_main fs a = Ok (saved, c) ->
    gc_kind c = KPython -> gc_ansatz c = FullCC -> fcc_values (gc_trunc c) H cc S P ->
    exists text prog, fs' (gc_path c) = Some text /\ python text prog /\ 1 <= cc <= 6 /\ S <= 6 /\ H <= 5 /\
      generate_full_cc_python pt pn pl pc H cc S P = Ok text.
  Proof.
    intros R D K A V. pose proof (main_complete _ _ _ _ D) as W. rewrite (run_main_ok lt ln lp pt pn pl pc _ _ _ _ D) in R. cbn zeta in R.
    destruct (generate c) as [text|] eqn:G; [|discriminate]. injection R as <-.
    destruct (generate_full_cc c text H cc S P W K A V G) as (E & B1 & B2 & B3 & prog & Pr).
    exists text, prog. rewrite write_same. auto 10.
  Qed.

  Lemma program_full_cc fs ss wss saved c H cc S P : Forall2 writes ss wss ->
    (forall l, logs_to ss l -> arg_path (ns_args (asked ss)) <> Some l) ->
    snd (main fs (List.concat wss)) = Program (Ok tt) ->
    driver_main fs (ns_args (asked ss)) = Ok (saved, c) -> ~ logs_to ss (gc_path c) ->
    gc_kind c = KPython -> gc_ansatz c = FullCC -> fcc_values (gc_trunc c) H cc S P ->
    exists text prog, fst (main fs (List.concat wss)) (gc_path c) = Some text /\ python text prog /\ 1 <= cc <= 6 /\ S <= 6 /\ H <= 5 /\
      generate_full_cc_python pt pn pl pc H cc S P = Ok text.
  Proof.
    intros F N E D NL K A V. destruct (main_runs lt ln lp pt pn pl pc messages fs ss wss F N) as [X Y].
    rewrite X in E. rewrite (Y _ NL). destruct (run fs (ns_args (asked ss))) as [fs' r] eqn:R. cbn [fst snd] in *.
    assert (r = Ok tt) as -> by congruence. exact (run_full_cc _ _ _ _ _ _ _ _ _ R D K A V).
  Qed.

  Lemma program_every fs ss wss : Forall2 writes ss wss ->
    (forall l, logs_to ss l -> arg_path (ns_args (asked ss)) <> Some l) ->
    let after := main fs (List.concat wss) in
    snd after = Program (Ok tt) ->
    forall saved c H cc S P, driver_main fs (ns_args (asked ss)) = Ok (saved, c) -> ~ logs_to ss (gc_path c) ->
    gc_kind c = KPython -> gc_ansatz c = FullCC -> fcc_values (gc_trunc c) H cc S P ->
    exists text prog, fst after (gc_path c) = Some text /\ python text prog /\
      ((~ loses H cc S P -> forall m n, m + n <= cc -> m + n <= P -> Forall2 (adds_every prog H cc S m n) groups (kinds m n)) /\
       (loses H cc S P -> exists n g kind, n <= cc /\ n <= P /\ In (g, kind) (combine groups (kinds 0 n)) /\ misses_one prog H cc S 0 n g kind)).
  Proof.
    intros F N after E saved c H cc S P D NL K A V.
    destruct (program_full_cc fs ss wss saved c H cc S P F N E D NL K A V) as (text & prog & T & R & B1 & B2 & B3 & G).
    exists text, prog. split; [exact T|]. split; [exact R|]. split; intros L.
    - apply (cc_file_every pt pn pl pc H cc S P text prog); auto.
    - apply (cc_file_misses pt pn pl pc H cc S P text prog); auto.
  Qed.

  Lemma driver_dispatch fs a saved c : driver_main fs a = Ok (saved, c) ->
    exists k an d g rf s, dispatch k an d g rf s = Ok c.
  Proof.
    rewrite driver_parts. destruct (driver_source fs a) as [[sv d]|]; [|discriminate]. cbn [bind fst snd].
    destruct (driver_request a d) as [c'|] eqn:E; [|discriminate]. cbn [bind]. intros [= <- <-]. unfold driver_request in E.
    match type of E with bind ?x _ = _ => destruct x as [an|] end; [|discriminate]. cbn [bind] in E. eauto 8.
  Qed.

  Lemma program_agree fs ss wss ss' wss' : Forall2 writes ss wss -> Forall2 writes ss' wss' ->
    (forall l, logs_to ss l -> arg_path (ns_args (asked ss)) <> Some l) ->
    (forall l, logs_to ss' l -> arg_path (ns_args (asked ss')) <> Some l) ->
    let before := main fs (List.concat wss) in
    let after := main (fst before) (List.concat wss') in
    snd before = Program (Ok tt) -> snd after = Program (Ok tt) ->
    forall saved c saved' c' H cc S P,
      driver_main fs (ns_args (asked ss)) = Ok (saved, c) -> driver_main (fst before) (ns_args (asked ss')) = Ok (saved', c') ->
      ~ logs_to ss (gc_path c) -> ~ logs_to ss' (gc_path c) -> ~ logs_to ss' (gc_path c') ->
      gc_kind c = KLatex -> gc_ansatz c = FullCC -> gc_ground c = true -> gc_remove_f c = true ->
      gc_kind c' = KPython -> gc_ansatz c' = FullCC ->
      fcc_values (gc_trunc c) H cc S P -> fcc_values (gc_trunc c') H cc S P -> ~ loses H cc S P ->
      exists body text prog,
        fst after (gc_path c) = Some (ground_state_vecc_latex_header ++ body)%string /\ latex_text H cc S P true true body /\
        fst after (gc_path c') = Some text /\ python text prog /\
        forall m n fully linked_ unlinked_, m + n <= cc -> m + n <= P ->
          equation_terms m n H cc S true true fully linked_ unlinked_ ->
          Forall2 (implements prog m n) groups [fully; linked_; unlinked_].
  Proof.
    intros F F' N N' before after E E' saved c saved' c' H cc S P D D' NL NL' NL2 K A Gr Rf K' A' V V' Lo.
    destruct (program_full_cc (fst before) ss' wss' saved' c' H cc S P F' N' E' D' NL2 K' A' V') as (text & prog & T & R & B1 & B2 & B3 & G).
    destruct (main_end_to_end lt ln lp pt pn pl pc messages L1 L2 L3 P1 P2 P3 P4 fs ss wss F N) as [_ X].
    destruct (X E) as (c1 & text1 & _ & _ & Ct & (sv1 & D1) & Tx & _). rewrite D in D1. injection D1 as <- <-. specialize (Tx NL).
    destruct (main_end_to_end lt ln lp pt pn pl pc messages L1 L2 L3 P1 P2 P3 P4 (fst before) ss' wss' F' N') as [_ X'].
    destruct (X' E') as (c2 & text2 & _ & _ & _ & (sv2 & D2) & _ & Rest). rewrite D' in D2. injection D2 as <- <-.
    unfold content_ok in Ct. rewrite K, A, Gr, Rf in Ct. destruct (Ct _ _ _ _ V) as (body & -> & Lt).
    exists body, text, prog. split; [|split; [exact Lt|split; [exact T|split; [exact R|]]]].
    - unfold after. rewrite Rest; [exact Tx| |exact (main_path_other _ _ _ _ D)|exact NL'].
      destruct (driver_dispatch _ _ _ _ D) as (k & an & d & g & rf & s & Di). destruct (driver_dispatch _ _ _ _ D') as (k2 & an2 & d2 & g2 & rf2 & s2 & Di').
      intros Ep. apply (paths_exact _ _ _ _ _ _ _ _ _ _ _ _ _ _ Di Di') in Ep as (Ek & _). rewrite K, K' in Ek. discriminate.
    - intros m n fully linked_ unlinked_ Hm Hn Et. apply (cc_agree pt pn pl pc H cc S P text prog); auto.
  Qed.
End Run.
