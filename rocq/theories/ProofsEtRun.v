(** What runs of the program leave for the e^T ansatz. *)
From Coq Require Import List Arith ZArith Lia Ascii String.
From Verif Require Import ModelMain ProofsCommandLine ProofsMain.
From Verif Require Import PyBase ModelFullCC ModelFullCCPy ModelTrunc ModelRun ModelCommandLine SpecPython SpecEtText SpecEinsum SpecEtValue SpecEtLeft SpecEtRun
  SpecTrunc SpecRun SpecCommandLine SpecMain ProofsTrunc ProofsRun ProofsFullCCRun.
From Verif Require ModelEt ModelEtPy ProofsEtProgram ProofsEtValue ProofsEtShift ProofsEtLeft.
Import ListNotations.
Local Open Scope nat_scope.

Section Run.
  Variable lt : list (list tamp) -> list (list tamp).
  Variable ln : list nat -> list nat.
  Variable lp : list (list (nat * nat)) -> list (list (nat * nat)).
  Variable pt : list (list tamp) -> list (list tamp).
  Variable pn : list nat -> list nat.
  Variable pl : list (list nat) -> list (list nat).
  Variable pc : list (list ascii) -> list (list ascii).
  Variable messages : string.
  Hypotheses (L1 : set_order lt) (L2 : set_order ln) (L3 : set_order lp)
    (P1 : set_order pt) (P2 : set_order pn) (P3 : set_order pl) (P4 : set_order pc).

  Notation generate := (ModelRun.generate lt ln lp pt pn pl pc).
  Notation run := (ModelRun.run lt ln lp pt pn pl pc).
  Notation main := (ModelMain.main lt ln lp pt pn pl pc messages).

  Lemma generate_eT c text H cc e P : complete (ansatz_type (gc_ansatz c)) (gc_trunc c) ->
    gc_kind c = KPython -> gc_ansatz c = ETZT -> eTz_values (gc_trunc c) H cc 1 e P -> generate c = Ok text ->
    ModelEtPy.generate_eT_zhz_python (side_asked c) (gc_ground c) H cc 1 e P = Ok text /\ 1 <= cc <= 8 /\ exists prog, python text prog.
  Proof.
    intros W K A V E.
    assert (C : can_write c) by (apply (generate_iff lt ln lp pt pn pl pc L1 L2 L3 P1 P3 P4 c W); exists text; exact E). destruct W as (Hd & _ & Hg).
    unfold ModelRun.generate in E. unfold can_write in C. rewrite K, A in C, E. destruct C as (Ac & _).
    destruct (eTz_get _ Hd Ac) as (H1 & cc1 & e1 & P5 & V1 & E1 & E2 & E3 & E4 & E5). destruct (eTz_unique _ _ _ _ _ _ _ _ _ Hd V1 V) as (-> & -> & -> & ->).
    rewrite (proj2 (verify_exact ETz _ Hd) Ac), E1, E2, E3, E4, E5 in E. cbn [bind] in E.
    pose proof (eTz_bounds _ _ _ _ _ Hd Ac V) as Bo. assert (S : side_of (gc_side c) = side_asked c) by (unfold side_asked; destruct (gc_side c); reflexivity).
    rewrite S in E. split; [exact E|]. split; [lia|].
    destruct (ProofsEtProgram.file_program _ _ H cc e P text ltac:(lia) E) as (prog & R & _). now exists prog.
  Qed.

  Lemma program_eT fs ss wss saved c H cc e P : Forall2 writes ss wss ->
    (forall l, logs_to ss l -> arg_path (ns_args (asked ss)) <> Some l) ->
    snd (main fs (List.concat wss)) = Program (Ok tt) ->
    driver_main fs (ns_args (asked ss)) = Ok (saved, c) -> ~ logs_to ss (gc_path c) ->
    gc_kind c = KPython -> gc_ansatz c = ETZT -> eTz_values (gc_trunc c) H cc 1 e P ->
    exists text prog, fst (main fs (List.concat wss)) (gc_path c) = Some text /\ python text prog /\ 1 <= cc <= 8 /\
      ModelEtPy.generate_eT_zhz_python (side_asked c) (gc_ground c) H cc 1 e P = Ok text.
  Proof.
    intros F N E D NL K A V. destruct (main_runs lt ln lp pt pn pl pc messages fs ss wss F N) as [X Y].
    rewrite X in E. rewrite (Y _ NL). destruct (run fs (ns_args (asked ss))) as [fs' r] eqn:R. cbn [fst snd] in *.
    assert (r = Ok tt) as -> by congruence. pose proof (main_complete _ _ _ _ D) as W. rewrite (run_main_ok lt ln lp pt pn pl pc _ _ _ _ D) in R. cbn zeta in R.
    destruct (generate c) as [text|] eqn:G; [|discriminate]. injection R as <-.
    destruct (generate_eT c text H cc e P W K A V G) as (E' & B1 & prog & Pr). exists text, prog. rewrite write_same. auto 10.
  Qed.

  Lemma module_equation s ground H cc e P text prog p opt : 1 <= cc <= 8 -> H + cc <= e ->
    ModelEtPy.generate_eT_zhz_python s ground H cc 1 e P = Ok text -> python text prog -> p <= cc -> p <= P ->
    equation_is s prog p opt (displaced_side s H cc p).
  Proof.
    intros B Le G R Hp HP. split; [apply (ProofsEtValue.file_value s ground H cc e P text prog B G R p opt Hp HP)|].
    destruct s.
    - exact (ProofsEtLeft.file_derivative ground H cc e P text prog B Le G R p opt Hp HP).
    - exact (ProofsEtShift.file_displaced ground H cc e P text prog B Le G R p opt Hp HP).
  Qed.

  Lemma program_sides fs ss wss ss' wss' : Forall2 writes ss wss -> Forall2 writes ss' wss' ->
    (forall l, logs_to ss l -> arg_path (ns_args (asked ss)) <> Some l) ->
    (forall l, logs_to ss' l -> arg_path (ns_args (asked ss')) <> Some l) ->
    let before := main fs (List.concat wss) in
    let after := main (fst before) (List.concat wss') in
    snd before = Program (Ok tt) -> snd after = Program (Ok tt) ->
    forall saved c saved' c' H cc e P,
      driver_main fs (ns_args (asked ss)) = Ok (saved, c) -> driver_main (fst before) (ns_args (asked ss')) = Ok (saved', c') ->
      ~ logs_to ss (gc_path c) -> ~ logs_to ss' (gc_path c) -> ~ logs_to ss' (gc_path c') ->
      gc_kind c = KPython -> gc_ansatz c = ETZT -> gc_kind c' = KPython -> gc_ansatz c' = ETZT -> gc_side c <> gc_side c' ->
      eTz_values (gc_trunc c) H cc 1 e P -> eTz_values (gc_trunc c') H cc 1 e P -> H + cc <= e ->
      exists text prog text' prog',
        fst after (gc_path c) = Some text /\ python text prog /\ fst after (gc_path c') = Some text' /\ python text' prog' /\
        forall p opt, p <= cc -> p <= P ->
          equation_is (side_asked c) prog p opt (displaced_side (side_asked c) H cc p) /\
          equation_is (side_asked c') prog' p opt (displaced_side (side_asked c') H cc p).
  Proof.
    intros F F' N N' before after E E' saved c saved' c' H cc e P D D' NL NL' NL2 K A K' A' Sd V V' Le.
    destruct (program_eT fs ss wss saved c H cc e P F N E D NL K A V) as (text & prog & T & R & B & G).
    destruct (program_eT (fst before) ss' wss' saved' c' H cc e P F' N' E' D' NL2 K' A' V') as (text' & prog' & T' & R' & B' & G').
    destruct (main_end_to_end lt ln lp pt pn pl pc messages L1 L2 L3 P1 P2 P3 P4 (fst before) ss' wss' F' N') as [_ X'].
    destruct (X' E') as (c2 & text2 & _ & _ & _ & (sv2 & D2) & _ & Rest). rewrite D' in D2. injection D2 as <- <-.
    exists text, prog, text', prog'. split; [|split; [exact R|split; [exact T'|split; [exact R'|]]]].
    - unfold after. rewrite Rest; [exact T| |exact (main_path_other _ _ _ _ D)|exact NL'].
      destruct (driver_dispatch _ _ _ _ D) as (k & an & d & g & rf & s & Di). destruct (driver_dispatch _ _ _ _ D') as (k2 & an2 & d2 & g2 & rf2 & s2 & Di').
      intros Ep. apply (paths_exact _ _ _ _ _ _ _ _ _ _ _ _ _ _ Di Di') in Ep as (_ & _ & Es & _). now apply Sd.
    - intros p opt Hp HP. split; [apply (module_equation _ (gc_ground c) H cc e P text)|apply (module_equation _ (gc_ground c') H cc e P text')]; assumption.
  Qed.
End Run.
