(** C133: the document and the module of the e^T ansatz, from the words of the
    command line to the numbers. *)
From Coq Require Import List Arith ZArith Lia Ascii String Permutation.
From Verif Require Import ModelMain ProofsCommandLine ProofsMain.
From Verif Require Import PyBase ModelFullCC ModelFullCCPy ModelTrunc ModelRun ModelCommandLine SpecPython SpecEtLatex SpecEtText SpecEinsum SpecEtValue SpecEtLeft SpecEtRun SpecEtBoth
  SpecTrunc SpecRun SpecCommandLine SpecMain ProofsRun ProofsEtBothRun PropertiesFullCCRun.
Import ListNotations.
Local Open Scope string_scope.

(** C133: two runs of the program for the e^T ansatz with the same truncations and
    side, the first for LaTeX and the second for python.  If both end well, the
    document and the module are there afterwards.  For every projection the document
    prints one term for each kind of contraction, and the functions of the module
    compute the printed sum, each term as often as there are choices of the
    amplitudes that are paired with z. *)
Theorem C133_document_and_module :
  forall lt ln lp pt pn pl pc messages,
    set_order lt -> set_order ln -> set_order lp -> set_order pt -> set_order pn -> set_order pl -> set_order pc ->
    forall fs ss wss ss' wss', Forall2 writes ss wss -> Forall2 writes ss' wss' ->
    (forall l, logs_to ss l -> arg_path (ns_args (asked ss)) <> Some l) ->
    (forall l, logs_to ss' l -> arg_path (ns_args (asked ss')) <> Some l) ->
    let before := ModelMain.main lt ln lp pt pn pl pc messages fs (List.concat wss) in
    let after := ModelMain.main lt ln lp pt pn pl pc messages (fst before) (List.concat wss') in
    snd before = Program (Ok tt) -> snd after = Program (Ok tt) ->
    forall saved c saved' c' H cc e P,
      driver_main fs (ns_args (asked ss)) = Ok (saved, c) -> driver_main (fst before) (ns_args (asked ss')) = Ok (saved', c') ->
      ~ logs_to ss (gc_path c) -> ~ logs_to ss' (gc_path c) -> ~ logs_to ss' (gc_path c') ->
      gc_kind c = KLatex -> gc_ansatz c = ETZT -> gc_kind c' = KPython -> gc_ansatz c' = ETZT -> gc_side c = gc_side c' ->
      eTz_values (gc_trunc c) H cc 1 e P -> eTz_values (gc_trunc c') H cc 1 e P ->
      exists doc text prog,
        fst after (gc_path c) = Some doc /\ fst after (gc_path c') = Some text /\ python text prog /\
        forall p, p <= cc -> p <= P -> exists ks,
          prints_sum (side_asked c) p doc ks /\ NoDup ks /\ (forall k, In k ks <-> eT_pairs (side_asked c) p H cc e k) /\
          forall opt, equation_is (side_asked c) prog p opt (fun F A N args is a => printed_sum_of_choices F A N args (side_asked c) ks is a).
Proof. exact program_agrees. Qed.
Print Assumptions C133_document_and_module.

(** `-t 1 2 1 3 2` and then `-t 1 2 1 3 2 -c` meet all of this. *)
Definition for_document : list setting := [STrunc [1; 2; 1; 3; 2]%Z].
Definition for_module : list setting := [STrunc [1; 2; 1; 3; 2]%Z; SCode].
Example C133_example :
  let wss := [["-t"; "1"; "2"; "1"; "3"; "2"]] in
  let wss' := [["-t"; "1"; "2"; "1"; "3"; "2"]; ["-c"]] in
  Forall2 writes for_document wss /\ Forall2 writes for_module wss' /\
  (forall l, logs_to for_document l \/ logs_to for_module l -> l = "default_logging_file.txt") /\
  forall fs, let before := plain_run fs (List.concat wss) in
    snd before = Program (Ok tt) /\ snd (plain_run (fst before) (List.concat wss')) = Program (Ok tt) /\
    exists saved c c', driver_main fs (ns_args (asked for_document)) = Ok (saved, c) /\
      driver_main (fst before) (ns_args (asked for_module)) = Ok (saved, c') /\
      gc_path c <> "default_logging_file.txt" /\ gc_path c' <> "default_logging_file.txt" /\
      gc_kind c = KLatex /\ gc_ansatz c = ETZT /\ gc_kind c' = KPython /\ gc_ansatz c' = ETZT /\
      gc_side c = ModelTrunc.RHS /\ gc_side c' = ModelTrunc.RHS /\
      eTz_values (gc_trunc c) 1 2 1 3 2 /\ eTz_values (gc_trunc c') 1 2 1 3 2.
Proof.
  cbv zeta.
  assert (T : writes (STrunc [1; 2; 1; 3; 2]%Z) ["-t"; "1"; "2"; "1"; "3"; "2"]).
  { apply (write_numbers (STrunc [1; 2; 1; 3; 2]%Z) [1; 2; 1; 3; 2]%Z ["1"; "2"; "1"; "3"; "2"]); [reflexivity|discriminate|].
    assert (One : forall d, is_digit d -> number_text (decimal_value [d]) (String d "")).
    { intros d I. exists [d]. split; [discriminate|]. split; [apply Forall_cons; [exact I|apply Forall_nil]|now left]. }
    apply Forall2_cons; [apply (One "1"%char); unfold is_digit; cbn; lia|]. apply Forall2_cons; [apply (One "2"%char); unfold is_digit; cbn; lia|].
    apply Forall2_cons; [apply (One "1"%char); unfold is_digit; cbn; lia|]. apply Forall2_cons; [apply (One "3"%char); unfold is_digit; cbn; lia|].
    apply Forall2_cons; [apply (One "2"%char); unfold is_digit; cbn; lia|apply Forall2_nil]. }
  assert (F : Forall2 writes for_document [["-t"; "1"; "2"; "1"; "3"; "2"]]) by (apply Forall2_cons; [exact T|apply Forall2_nil]).
  assert (F' : Forall2 writes for_module [["-t"; "1"; "2"; "1"; "3"; "2"]; ["-c"]]).
  { apply Forall2_cons; [exact T|]. apply Forall2_cons; [|apply Forall2_nil]. apply (write_flag SCode "-c"); [reflexivity|now left]. }
  assert (N : forall l, logs_to for_document l \/ logs_to for_module l -> l = "default_logging_file.txt").
  { intros l [I|I]; apply log_file_asked in I; vm_compute in I; congruence. }
  split; [exact F|]. split; [exact F'|]. split; [exact N|]. intros fs.
  assert (Id : forall A, set_order (fun l : list A => l)) by (intros A l; apply Permutation_refl).
  assert (V : forall d, d = combine (map (fun kt => DEnum (fst kt)) (documented ETz)) [1; 2; 1; 3; 2]%Z -> eTz_values d 1 2 1 3 2).
  { intros d ->. cbn. repeat split; cbn; tauto. }
  assert (A : forall d, d = combine (map (fun kt => DEnum (fst kt)) (documented ETz)) [1; 2; 1; 3; 2]%Z -> acceptable ETz d).
  { intros d ->. split.
    - cbn. intros k v I. repeat destruct I as [[= <- <-]|I]; eauto. destruct I.
    - cbn. intros k v I. repeat destruct I as [[= <- <-]|I]; [eexists; cbn; split; [eauto 10|lia]..|destruct I]. }
  assert (G : forall f ss wss c s, Forall2 writes ss wss -> (forall l, logs_to ss l -> arg_path (ns_args (asked ss)) <> Some l) ->
     driver_main f (ns_args (asked ss)) = Ok (s, c) -> can_write c -> snd (plain_run f (List.concat wss)) = Program (Ok tt)).
  { intros f ss wss c s Fw Nl D Cw. apply (main_end_to_end _ _ _ _ _ _ _ "messages" (Id _) (Id _) (Id _) (Id _) (Id _) (Id _) (Id _) f ss wss Fw Nl).
    exists c. split; [|exact Cw]. eapply asks_main, D. }
  split; [|split].
  - eapply (G fs for_document); [exact F|discriminate|vm_compute; reflexivity|]. unfold can_write. cbn.
    split; [now apply A|reflexivity].
  - eapply (G _ for_module); [exact F'|discriminate|vm_compute; reflexivity|]. unfold can_write. cbn.
    split; [now apply A|]. exists 1, 2, 3, 2. split; [now apply V|lia].
  - do 3 eexists. split; [vm_compute; reflexivity|]. split; [vm_compute; reflexivity|]. cbn [gc_path gc_kind gc_ansatz gc_side gc_trunc].
    split; [discriminate|]. split; [discriminate|]. repeat (split; [reflexivity|]). split; now apply V.
Qed.
