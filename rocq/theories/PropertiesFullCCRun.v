(** Property theorems C113: what the program leaves for the full coupled cluster
    ansatz, from the words of the command line. *)
From Coq Require Import List Arith ZArith Lia Ascii String Permutation.
From Verif Require Import ModelMain ProofsCommandLine ProofsMain.
From Verif Require Import PyBase ModelFullCC ModelFullCCPy ModelHeaders ModelTrunc ModelRun ModelCommandLine SpecFullCC SpecFullCCPy SpecPython
  SpecEtText SpecFullCCText SpecFullCCPlaces SpecFullCCComplete SpecFullCCLatex SpecFullCCAgree SpecTrunc SpecRun SpecCommandLine SpecMain ProofsRun
  ProofsFullCCRun.
Import ListNotations.
Local Open Scope string_scope.

(** C113: when the program ends well and python of the full coupled cluster
    ansatz was asked for, its file is a module that adds every requested
    contraction once if the truncations lose nothing, and that misses one
    otherwise. *)
Theorem C113_module :
  forall lt ln lp pt pn pl pc messages,
    set_order lt -> set_order ln -> set_order lp -> set_order pt -> set_order pn -> set_order pl -> set_order pc ->
    forall fs ss wss, Forall2 writes ss wss ->
    (forall l, logs_to ss l -> arg_path (ns_args (asked ss)) <> Some l) ->
    let after := ModelMain.main lt ln lp pt pn pl pc messages fs (List.concat wss) in
    snd after = Program (Ok tt) ->
    forall saved c H cc S P, driver_main fs (ns_args (asked ss)) = Ok (saved, c) -> ~ logs_to ss (gc_path c) ->
    gc_kind c = KPython -> gc_ansatz c = FullCC -> fcc_values (gc_trunc c) H cc S P ->
    exists text prog, fst after (gc_path c) = Some text /\ python text prog /\
      ((~ loses H cc S P -> forall m n, m + n <= cc -> m + n <= P -> Forall2 (adds_every prog H cc S m n) groups (kinds m n)) /\
       (loses H cc S P -> exists n g kind, n <= cc /\ n <= P /\ In (g, kind) (combine groups (kinds 0 n)) /\ misses_one prog H cc S 0 n g kind)).
Proof. exact program_every. Qed.
Print Assumptions C113_module.

(** C113: a run for the LaTeX document (ground state, f terms removed) and then
    one for the python module, with the same truncations: both files are there
    afterwards, and the functions of the module compute the terms of every
    equation of the document. *)
Theorem C113_document_and_module :
  forall lt ln lp pt pn pl pc messages,
    set_order lt -> set_order ln -> set_order lp -> set_order pt -> set_order pn -> set_order pl -> set_order pc ->
    forall fs ss wss ss' wss', Forall2 writes ss wss -> Forall2 writes ss' wss' ->
    (forall l, logs_to ss l -> arg_path (ns_args (asked ss)) <> Some l) ->
    (forall l, logs_to ss' l -> arg_path (ns_args (asked ss')) <> Some l) ->
    let before := ModelMain.main lt ln lp pt pn pl pc messages fs (List.concat wss) in
    let after := ModelMain.main lt ln lp pt pn pl pc messages (fst before) (List.concat wss') in
    snd before = Program (Ok tt) -> snd after = Program (Ok tt) ->
    forall saved c saved' c' H cc S P,
      driver_main fs (ns_args (asked ss)) = Ok (saved, c) -> driver_main (fst before) (ns_args (asked ss')) = Ok (saved', c') ->
      ~ logs_to ss (gc_path c) -> ~ logs_to ss' (gc_path c) -> ~ logs_to ss' (gc_path c') ->
      gc_kind c = KLatex -> gc_ansatz c = FullCC -> gc_ground c = true -> gc_remove_f c = true ->
      gc_kind c' = KPython -> gc_ansatz c' = FullCC ->
      fcc_values (gc_trunc c) H cc S P -> fcc_values (gc_trunc c') H cc S P -> ~ loses H cc S P ->
      exists body text prog,
        fst after (gc_path c) = Some (ground_state_vecc_latex_header ++ body) /\ latex_text H cc S P true true body /\
        fst after (gc_path c') = Some text /\ python text prog /\
        forall m n fully linked_ unlinked_, m + n <= cc -> m + n <= P ->
          equation_terms m n H cc S true true fully linked_ unlinked_ ->
          Forall2 (implements prog m n) groups [fully; linked_; unlinked_].
Proof. exact program_agree. Qed.
Print Assumptions C113_document_and_module.

(** `-t 2 2 2 2 -rf yes` and then `-t 2 2 2 2 -c` meet all of this. *)
Definition plain_run := ModelMain.main (fun l => l) (fun l => l) (fun l => l) (fun l => l) (fun l => l) (fun l => l) (fun l => l) "messages".
Definition for_latex : list setting := [STrunc [2; 2; 2; 2]%Z; SRemoveF "yes"].
Definition for_python : list setting := [STrunc [2; 2; 2; 2]%Z; SCode].
Example C113_example :
  let wss := [["-t"; "2"; "2"; "2"; "2"]; ["-rf"; "yes"]] in
  let wss' := [["-t"; "2"; "2"; "2"; "2"]; ["-c"]] in
  Forall2 writes for_latex wss /\ Forall2 writes for_python wss' /\
  (forall l, logs_to for_latex l \/ logs_to for_python l -> l = "default_logging_file.txt") /\
  forall fs, let before := plain_run fs (List.concat wss) in
    snd before = Program (Ok tt) /\ snd (plain_run (fst before) (List.concat wss')) = Program (Ok tt) /\
    exists saved c c', driver_main fs (ns_args (asked for_latex)) = Ok (saved, c) /\
      driver_main (fst before) (ns_args (asked for_python)) = Ok (saved, c') /\
      gc_path c = "./ground_state_full_cc_symmetric_equations_no_f_terms.tex" /\ gc_path c' = "./ground_state_full_cc_equations.py" /\
      gc_kind c = KLatex /\ gc_ansatz c = FullCC /\ gc_ground c = true /\ gc_remove_f c = true /\
      gc_kind c' = KPython /\ gc_ansatz c' = FullCC /\
      fcc_values (gc_trunc c) 2 2 2 2 /\ fcc_values (gc_trunc c') 2 2 2 2 /\ ~ loses 2 2 2 2.
Proof.
  cbv zeta.
  assert (T : writes (STrunc [2; 2; 2; 2]%Z) ["-t"; "2"; "2"; "2"; "2"]).
  { apply (write_numbers (STrunc [2; 2; 2; 2]%Z) [2; 2; 2; 2]%Z ["2"; "2"; "2"; "2"]); [reflexivity|discriminate|].
    repeat constructor; (exists ["2"%char]; split; [discriminate|]; split; [repeat constructor; cbn; tauto|left; now split]). }
  assert (F : Forall2 writes for_latex [["-t"; "2"; "2"; "2"; "2"]; ["-rf"; "yes"]]).
  { apply Forall2_cons; [exact T|]. apply Forall2_cons; [|apply Forall2_nil]. apply (write_text (SRemoveF "yes") "-rf" "yes"); [reflexivity|now left|discriminate]. }
  assert (F' : Forall2 writes for_python [["-t"; "2"; "2"; "2"; "2"]; ["-c"]]).
  { apply Forall2_cons; [exact T|]. apply Forall2_cons; [|apply Forall2_nil]. apply (write_flag SCode "-c"); [reflexivity|now left]. }
  assert (N : forall l, logs_to for_latex l \/ logs_to for_python l -> l = "default_logging_file.txt").
  { intros l [I|I]; apply log_file_asked in I; vm_compute in I; congruence. }
  split; [exact F|]. split; [exact F'|]. split; [exact N|]. intros fs.
  assert (Id : forall A, set_order (fun l : list A => l)) by (intros A l; apply Permutation_refl).
  assert (V : forall d, d = combine (map (fun kt => DEnum (fst kt)) (documented Fcc)) [2; 2; 2; 2]%Z -> fcc_values d 2 2 2 2).
  { intros d ->. cbn. repeat split; cbn; tauto. }
  assert (A : forall d, d = combine (map (fun kt => DEnum (fst kt)) (documented Fcc)) [2; 2; 2; 2]%Z -> acceptable Fcc d).
  { intros d ->. split.
    - cbn. intros k v I. repeat destruct I as [[= <- <-]|I]; eauto. destruct I.
    - cbn. intros k v I. repeat destruct I as [[= <- <-]|I]; [exists 2%Z; cbn; split; [tauto|lia]..|destruct I]. }
  assert (G : forall f ss wss c s, Forall2 writes ss wss -> (forall l, logs_to ss l -> arg_path (ns_args (asked ss)) <> Some l) ->
     driver_main f (ns_args (asked ss)) = Ok (s, c) -> can_write c -> snd (plain_run f (List.concat wss)) = Program (Ok tt)).
  { intros f ss wss c s Fw Nl D Cw. apply (main_end_to_end _ _ _ _ _ _ _ "messages" (Id _) (Id _) (Id _) (Id _) (Id _) (Id _) (Id _) f ss wss Fw Nl).
    exists c. split; [|exact Cw]. eapply asks_main, D. }
  split; [|split].
  - eapply (G fs for_latex); [exact F|discriminate|vm_compute; reflexivity|]. unfold can_write. cbn.
    split; [now apply A|]. exists 2, 2, 2, 2. split; [now apply V|lia].
  - eapply (G _ for_python); [exact F'|discriminate|vm_compute; reflexivity|]. unfold can_write. cbn.
    split; [now apply A|]. exists 2, 2, 2, 2. split; [now apply V|lia].
  - do 3 eexists. split; [vm_compute; reflexivity|]. split; [vm_compute; reflexivity|]. cbn [gc_path gc_kind gc_ansatz gc_ground gc_remove_f gc_trunc].
    split; [reflexivity|]. split; [reflexivity|]. repeat (split; [reflexivity|]). split; [now apply V|]. split; [now apply V|]. unfold loses. lia.
Qed.
