(** C128: several runs of the program. *)
From Coq Require Import List Arith ZArith Lia Ascii String Permutation.
From Verif Require Import PyBase ModelFullCC ModelTrunc ModelRun ModelCommandLine ModelMain SpecCommandLine SpecRun SpecBuilds ProofsBuilds.
Import ListNotations.
Local Open Scope string_scope.

(** C128: what a run leaves depends on no file but the one with the truncations
    that the words name: from two states of the files that agree on it the run ends
    in the same way, and every file has the same text afterwards or is as before. *)
Theorem C128_reads_one_file :
  forall lt ln lp pt pn pl pc messages fs fs' ss wss,
    Forall2 writes ss wss -> (forall p, last_path ss p -> fs p = fs' p) ->
    let after := ModelMain.main lt ln lp pt pn pl pc messages fs (List.concat wss) in
    let after' := ModelMain.main lt ln lp pt pn pl pc messages fs' (List.concat wss) in
    snd after = snd after' /\
    forall p, fst after p = fst after' p \/ (fst after p = fs p /\ fst after' p = fs' p).
Proof. exact reads_one_file. Qed.
Print Assumptions C128_reads_one_file.

(** C128: after several runs without -p every file has the text that the last run
    that writes it gives it when it is run alone, or what it had before. *)
Theorem C128_last_run :
  forall lt ln lp pt pn pl pc (messages : list string -> string) runs, Forall without_path runs ->
    let program := fun f w => fst (ModelMain.main lt ln lp pt pn pl pc (messages w) f w) in
    forall fs p,
      (exists before w after c, runs = (before ++ w :: after)%list /\ program nothing_there w p = Some c /\
         (forall w', In w' after -> program nothing_there w' p = None) /\ in_turn program fs runs p = Some c) \/
      ((forall w, In w runs -> program nothing_there w p = None) /\ in_turn program fs runs p = fs p).
Proof. exact last_run. Qed.
Print Assumptions C128_last_run.

(** C128: so a file that all runs which write it give the same text does not depend
    on the order of the runs, or on how often they are repeated. *)
Theorem C128_any_order :
  forall lt ln lp pt pn pl pc (messages : list string -> string) runs runs',
    Forall without_path runs -> (forall w, In w runs <-> In w runs') ->
    let program := fun f w => fst (ModelMain.main lt ln lp pt pn pl pc (messages w) f w) in
    forall p, (forall w w' c c', In w runs -> In w' runs -> program nothing_there w p = Some c -> program nothing_there w' p = Some c' -> c = c') ->
    forall fs, in_turn program fs runs p = in_turn program fs runs' p.
Proof. exact any_order. Qed.
Print Assumptions C128_any_order.

(** The document of the full coupled cluster equations and the module: two
    files, the same truncations. *)
Definition one_run (w : list string) : files := fst (ModelMain.main (fun l => l) (fun l => l) (fun l => l) (fun l => l) (fun l => l) (fun l => l) (fun l => l) "messages" nothing_there w).
Definition written (f : files) (p : string) : bool := match f p with Some _ => true | None => false end.
Example C128_example :
  let w := ["-t"; "1"; "1"; "1"; "1"] in let w' := ["-c"; "-t"; "1"; "1"; "1"; "1"] in
  without_path w /\ without_path w' /\
  written (one_run w) "./ground_state_full_cc_symmetric_equations.tex" = true /\ written (one_run w) "./ground_state_full_cc_equations.py" = false /\
  written (one_run w') "./ground_state_full_cc_symmetric_equations.tex" = false /\ written (one_run w') "./ground_state_full_cc_equations.py" = true /\
  one_run w truncations_file = one_run w' truncations_file /\ written (one_run w) truncations_file = true.
Proof.
  assert (T : writes (STrunc [1; 1; 1; 1]%Z) ["-t"; "1"; "1"; "1"; "1"]).
  { apply (write_numbers (STrunc [1; 1; 1; 1]%Z) [1; 1; 1; 1]%Z ["1"; "1"; "1"; "1"]); [reflexivity|discriminate|].
    assert (One : number_text 1%Z "1").
    { exists ["1"%char]. split; [discriminate|]. split; [apply Forall_cons; [unfold is_digit; cbn; lia|apply Forall_nil]|now left]. }
    repeat (apply Forall2_cons; [exact One|]). apply Forall2_nil. }
  cbv zeta. split; [|split].
  - exists [STrunc [1; 1; 1; 1]%Z], [["-t"; "1"; "1"; "1"; "1"]]. split; [reflexivity|]. split; [apply Forall2_cons; [exact T|apply Forall2_nil]|].
    intros p [X|[]]. discriminate X.
  - exists [SCode; STrunc [1; 1; 1; 1]%Z], [["-c"]; ["-t"; "1"; "1"; "1"; "1"]]. split; [reflexivity|]. split.
    + apply Forall2_cons; [apply (write_flag SCode "-c"); [reflexivity|now left]|]. apply Forall2_cons; [exact T|apply Forall2_nil].
    + intros p [X|[X|[]]]; discriminate X.
  - repeat split; vm_compute; reflexivity.
Qed.
