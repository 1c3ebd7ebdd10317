(** C135: options joined in one word. *)
From Coq Require Import List Arith ZArith Lia Ascii String.
From Verif Require Import PyBase ModelTrunc ModelRun ModelCommandLine SpecCommandLine SpecJoined ProofsCommandLine ProofsJoined.
From Verif Require ModelMain.
Import ListNotations.
Local Open Scope string_scope.

(** C135: words in which flags of one letter are joined, perhaps with one more option
    with a value after them, are read as the settings one after the other. *)
Theorem C135_joined_options :
  forall sss wss, Forall2 joins sss wss -> parse_args (List.concat wss) = Done (asked (List.concat sss)).
Proof. exact joined_command_line. Qed.
Print Assumptions C135_joined_options.

(** C135: the whole run of the program is that with the options apart. *)
Theorem C135_same_run :
  forall lt ln lp pt pn pl pc messages fs sss wss wss', Forall2 joins sss wss -> Forall2 writes (List.concat sss) wss' ->
    ModelMain.main lt ln lp pt pn pl pc messages fs (List.concat wss) = ModelMain.main lt ln lp pt pn pl pc messages fs (List.concat wss').
Proof. exact same_run. Qed.
Print Assumptions C135_same_run.

(** The flags with more than one letter cannot be joined: -lhs after -c is the log file
    "hs", -es after -c is refused, and a value after "=" keeps the "=". *)
Theorem C135_long_flags_refuted :
  exists a b c, a = "-c" ++ "lhs" /\ b = "-c" ++ "es" /\ c = "-c" ++ "p=x" /\
    parse_args [a] = Done (asked [SCode; SLog "hs"]) /\ parse_args [a] <> parse_args ["-c"; "-lhs"] /\
    parse_args [b] = Stop Usage /\ parse_args ["-c"; "-es"] = Done (asked [SCode; SExcited]) /\
    parse_args [c] = Done (asked [SCode; SPath "=x"]) /\ parse_args ["-c"; "-p=x"] = Done (asked [SCode; SPath "x"]).
Proof.
  do 3 eexists. do 3 (split; [reflexivity|]). split; [vm_compute; reflexivity|]. split; [vm_compute; discriminate|].
  repeat split; vm_compute; reflexivity.
Qed.
Print Assumptions C135_long_flags_refuted.

Example C135_example :
  let sss := [[SCode; SStd; STrunc [1; 2; 1; 3; 2]%Z]; [SLhs]; [SStd; SCode]; [SCode; SPath "x.json"]] in
  let wss := [["-cst"; "1"; "2"; "1"; "3"; "2"]; ["-lhs"]; ["-sc"]; ["-cpx.json"]] in
  Forall2 joins sss wss /\
  parse_args (List.concat wss) = Done (mkns (mkArgs (Some [1; 2; 1; 3; 2]%Z) (Some "x.json") None false None true true) "default_logging_file.txt" true).
Proof.
  cbv zeta. split; [|vm_compute; reflexivity].
  assert (One : forall d, is_digit d -> number_text (decimal_value [d]) (String d "")).
  { intros d I. exists [d]. split; [discriminate|]. split; [apply Forall_cons; [exact I|apply Forall_nil]|now left]. }
  apply Forall2_cons; [|apply Forall2_cons; [|apply Forall2_cons; [|apply Forall2_cons; [|apply Forall2_nil]]]].
  - apply (join_numbers [SCode; SStd] "cs" [1; 2; 1; 3; 2]%Z ["1"; "2"; "1"; "3"; "2"]); [discriminate|repeat constructor|discriminate|].
    apply Forall2_cons; [apply (One "1"%char); unfold is_digit; cbn; lia|]. apply Forall2_cons; [apply (One "2"%char); unfold is_digit; cbn; lia|].
    apply Forall2_cons; [apply (One "1"%char); unfold is_digit; cbn; lia|]. apply Forall2_cons; [apply (One "3"%char); unfold is_digit; cbn; lia|].
    apply Forall2_cons; [apply (One "2"%char); unfold is_digit; cbn; lia|apply Forall2_nil].
  - apply join_apart, (write_flag SLhs "-lhs"); [reflexivity|now left].
  - apply (join_flags [SStd; SCode] "sc"); [discriminate|repeat constructor].
  - apply (join_value [SCode] "c" (SPath "x.json") "p" "x.json"); [discriminate|repeat constructor|reflexivity|reflexivity|discriminate|discriminate].
Qed.
