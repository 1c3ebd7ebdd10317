(** C126: what the program leaves for the e^T ansatz, from the words of the command
    line to the numbers. *)
From Coq Require Import List Arith ZArith Lia Ascii String Permutation.
From Verif Require Import ModelMain ProofsCommandLine ProofsMain.
From Verif Require Import PyBase ModelFullCC ModelFullCCPy ModelTrunc ModelRun ModelCommandLine SpecPython SpecEtText SpecEinsum SpecEtValue SpecEtLeft SpecEtRun
  SpecTrunc SpecRun SpecCommandLine SpecMain ProofsRun ProofsEtRun PropertiesFullCCRun.
Import ListNotations.
Local Open Scope string_scope.

(** C126: two runs of the program for python of the e^T ansatz, one of them with
    -lhs, with the same truncations.  If both end well and the series of e^T is
    long enough, both modules are there afterwards, and the functions of every
    projection compute dz/dtau + dT/dtau z and H z with displaced operators. *)
Theorem C126_both_sides :
  forall lt ln lp pt pn pl pc messages,
    set_order lt -> set_order ln -> set_order lp -> set_order pt -> set_order pn -> set_order pl -> set_order pc ->
    forall fs ss wss ss' wss', Forall2 writes ss wss -> Forall2 writes ss' wss' ->
    (forall l, logs_to ss l -> arg_path (ns_args (asked ss)) <> Some l) ->
    (forall l, logs_to ss' l -> arg_path (ns_args (asked ss')) <> Some l) ->
    let before := ModelMain.main lt ln lp pt pn pl pc messages fs (List.concat wss) in
    let after := ModelMain.main lt ln lp pt pn pl pc messages (fst before) (List.concat wss') in
    snd before = Program (Ok tt) -> snd after = Program (Ok tt) ->
    forall saved c saved' c' H cc e P,
      driver_main fs (ns_args (asked ss)) = Ok (saved, c) -> driver_main (fst before) (ns_args (asked ss')) = Ok (saved', c') ->
      ~ logs_to ss (gc_path c) -> ~ logs_to ss' (gc_path c) -> ~ logs_to ss' (gc_path c') ->
      gc_kind c = KPython -> gc_ansatz c = ETZT -> gc_kind c' = KPython -> gc_ansatz c' = ETZT -> gc_side c <> gc_side c' ->
      eTz_values (gc_trunc c) H cc 1 e P -> eTz_values (gc_trunc c') H cc 1 e P -> H + cc <= e ->
      exists text prog text' prog',
        fst after (gc_path c) = Some text /\ python text prog /\ fst after (gc_path c') = Some text' /\ python text' prog' /\
        forall p opt, p <= cc -> p <= P ->
          equation_is (side_asked c) prog p opt (displaced_side (side_asked c) H cc p) /\
          equation_is (side_asked c') prog' p opt (displaced_side (side_asked c') H cc p).
Proof. exact program_sides. Qed.
Print Assumptions C126_both_sides.

(** `-t 1 2 1 3 2 -c -lhs` and then `-t 1 2 1 3 2 -c` meet all of this. *)
Definition for_left : list setting := [STrunc [1; 2; 1; 3; 2]%Z; SCode; SLhs].
Definition for_right : list setting := [STrunc [1; 2; 1; 3; 2]%Z; SCode].
Example C126_example :
  let wss := [["-t"; "1"; "2"; "1"; "3"; "2"]; ["-c"]; ["-lhs"]] in
  let wss' := [["-t"; "1"; "2"; "1"; "3"; "2"]; ["-c"]] in
  Forall2 writes for_left wss /\ Forall2 writes for_right wss' /\
  (forall l, logs_to for_left l \/ logs_to for_right l -> l = "default_logging_file.txt") /\
  forall fs, let before := plain_run fs (List.concat wss) in
    snd before = Program (Ok tt) /\ snd (plain_run (fst before) (List.concat wss')) = Program (Ok tt) /\
    exists saved c c', driver_main fs (ns_args (asked for_left)) = Ok (saved, c) /\
      driver_main (fst before) (ns_args (asked for_right)) = Ok (saved, c') /\
      gc_path c <> "default_logging_file.txt" /\ gc_path c' <> "default_logging_file.txt" /\
      gc_kind c = KPython /\ gc_ansatz c = ETZT /\ gc_kind c' = KPython /\ gc_ansatz c' = ETZT /\
      gc_side c = ModelTrunc.LHS /\ gc_side c' = ModelTrunc.RHS /\
      eTz_values (gc_trunc c) 1 2 1 3 2 /\ eTz_values (gc_trunc c') 1 2 1 3 2.
Proof.
  cbv zeta.
  assert (T : writes (STrunc [1; 2; 1; 3; 2]%Z) ["-t"; "1"; "2"; "1"; "3"; "2"]).
  { apply (write_numbers (STrunc [1; 2; 1; 3; 2]%Z) [1; 2; 1; 3; 2]%Z ["1"; "2"; "1"; "3"; "2"]); [reflexivity|discriminate|].
    assert (One : forall d, is_digit d -> number_text (decimal_value [d]) (String d "")).
    { intros d I. exists [d]. split; [discriminate|]. split; [apply Forall_cons; [exact I|apply Forall_nil]|now left]. }
    apply Forall2_cons; [apply (One "1"%char); unfold is_digit; cbn; lia|]. apply Forall2_cons; [apply (One "2"%char); unfold is_digit; cbn; lia|].
    apply Forall2_cons; [apply (One "1"%char); unfold is_digit; cbn; lia|]. apply Forall2_cons; [apply (One "3"%char); unfold is_digit; cbn; lia|].
    apply Forall2_cons; [apply (One "2"%char); unfold is_digit; cbn; lia|apply Forall2_nil]. }
  assert (F : Forall2 writes for_left [["-t"; "1"; "2"; "1"; "3"; "2"]; ["-c"]; ["-lhs"]]).
  { apply Forall2_cons; [exact T|]. apply Forall2_cons; [apply (write_flag SCode "-c"); [reflexivity|now left]|].
    apply Forall2_cons; [|apply Forall2_nil]. apply (write_flag SLhs "-lhs"); [reflexivity|now left]. }
  assert (F' : Forall2 writes for_right [["-t"; "1"; "2"; "1"; "3"; "2"]; ["-c"]]).
  { apply Forall2_cons; [exact T|]. apply Forall2_cons; [|apply Forall2_nil]. apply (write_flag SCode "-c"); [reflexivity|now left]. }
  assert (N : forall l, logs_to for_left l \/ logs_to for_right l -> l = "default_logging_file.txt").
  { intros l [I|I]; apply log_file_asked in I; vm_compute in I; congruence. }
  split; [exact F|]. split; [exact F'|]. split; [exact N|]. intros fs.
  assert (Id : forall A, set_order (fun l : list A => l)) by (intros A l; apply Permutation_refl).
  assert (V : forall d, d = combine (map (fun kt => DEnum (fst kt)) (documented ETz)) [1; 2; 1; 3; 2]%Z -> eTz_values d 1 2 1 3 2).
  { intros d ->. cbn. repeat split; cbn; tauto. }
  assert (A : forall d, d = combine (map (fun kt => DEnum (fst kt)) (documented ETz)) [1; 2; 1; 3; 2]%Z -> acceptable ETz d).
  { intros d ->. split.
    - cbn. intros k v I. repeat destruct I as [[= <- <-]|I]; eauto. destruct I.
    - cbn. intros k v I. repeat destruct I as [[= <- <-]|I]; [eexists; cbn; split; [eauto 10|lia]..|destruct I]. }
  assert (G : forall f ss wss c s, Forall2 writes ss wss -> (forall l, logs_to ss l -> arg_path (ns_args (asked ss)) <> Some l) ->
     driver_main f (ns_args (asked ss)) = Ok (s, c) -> can_write c -> snd (plain_run f (List.concat wss)) = Program (Ok tt)).
  { intros f ss wss c s Fw Nl D Cw. apply (main_end_to_end _ _ _ _ _ _ _ "messages" (Id _) (Id _) (Id _) (Id _) (Id _) (Id _) (Id _) f ss wss Fw Nl).
    exists c. split; [|exact Cw]. eapply asks_main, D. }
  split; [|split].
  - eapply (G fs for_left); [exact F|discriminate|vm_compute; reflexivity|]. unfold can_write. cbn.
    split; [now apply A|]. exists 1, 2, 3, 2. split; [now apply V|lia].
  - eapply (G _ for_right); [exact F'|discriminate|vm_compute; reflexivity|]. unfold can_write. cbn.
    split; [now apply A|]. exists 1, 2, 3, 2. split; [now apply V|lia].
  - do 3 eexists. split; [vm_compute; reflexivity|]. split; [vm_compute; reflexivity|]. cbn [gc_path gc_kind gc_ansatz gc_side gc_trunc].
    split; [discriminate|]. split; [discriminate|]. repeat (split; [reflexivity|]). split; now apply V.
Qed.
