(** `python driver.py WORDS`: what the words do to the files. *)
From Coq Require Import List Arith ZArith Ascii String.
From Verif Require Import PyBase SpecFullCC ModelTrunc ModelRun ModelCommandLine ModelMain SpecTrunc SpecRun SpecCommandLine SpecMain
  ProofsCommandLine ProofsMain.
Import ListNotations.
Local Open Scope string_scope.

(** C106: the f terms are removed exactly when the last -rf has a text that is
    not empty. *)
Theorem C106_remove_f :
  forall fs ss c, asks fs (ns_args (asked ss)) c -> (gc_remove_f c = true <-> exists v, last_remove_f ss v /\ v <> "").
Proof. exact remove_f_asked. Qed.
Print Assumptions C106_remove_f.

(** C106: so "-rf False" does not keep them. *)
Theorem C106_false_keeps_f_terms_refuted :
  exists ns saved c, parse_args ["-t"; "2"; "2"; "2"; "2"; "-rf"; "False"] = Done ns /\
    driver_main (fun _ => None) (ns_args ns) = Ok (saved, c) /\ gc_remove_f c = true /\
    gc_path c = "./ground_state_full_cc_symmetric_equations_no_f_terms.tex".
Proof. do 3 eexists. split; [vm_compute; reflexivity|]. split; [vm_compute; reflexivity|]. split; reflexivity. Qed.
Print Assumptions C106_false_keeps_f_terms_refuted.

(** C107: with words for settings, and a log file other than the file of the
    truncations, the program does what the settings ask for: it ends well
    exactly when they can be answered, and then the file has the document or
    module; no other file is touched but those of the truncations and the log. *)
Theorem C107_end_to_end :
  forall lt ln lp pt pn pl pc messages,
    set_order lt -> set_order ln -> set_order lp -> set_order pt -> set_order pn -> set_order pl -> set_order pc ->
    forall fs ss wss, Forall2 writes ss wss ->
    (forall l, logs_to ss l -> arg_path (ns_args (asked ss)) <> Some l) ->
    let after := main lt ln lp pt pn pl pc messages fs (List.concat wss) in
    (snd after = Program (Ok tt) <-> exists c, asks fs (ns_args (asked ss)) c /\ can_write c) /\
    (snd after = Program (Ok tt) ->
     exists c text, asks fs (ns_args (asked ss)) c /\ can_write c /\ content_ok c text /\
       (exists saved, driver_main fs (ns_args (asked ss)) = Ok (saved, c)) /\
       (~ logs_to ss (gc_path c) -> fst after (gc_path c) = Some text) /\
       forall p, p <> gc_path c -> p <> truncations_file -> ~ logs_to ss p -> fst after p = fs p).
Proof. exact main_end_to_end. Qed.
Print Assumptions C107_end_to_end.

Definition plain_main := main (fun l => l) (fun l => l) (fun l => l) (fun l => l) (fun l => l) (fun l => l) (fun l => l) "messages".
Example C107_example :
  let fs := plain_main (fun _ => None) ["-t"; "1"; "1"; "1"; "-rf"; "yes"; "-l"; "log.txt"] in
  snd fs = Program (Ok tt) /\ fst fs "log.txt" = Some "messages" /\
  match fst fs "./ground_state_z_t_symmetric_equations_no_f_terms.tex" with Some _ => True | None => False end.
Proof. vm_compute. repeat split. Qed.

(** C107: when the log file is the file of the truncations, the program fails
    and the truncations are lost. *)
Theorem C107_log_in_place_of_truncations :
  forall lt ln lp pt pn pl pc messages fs ss wss l, Forall2 writes ss wss ->
    logs_to ss l -> arg_path (ns_args (asked ss)) = Some l ->
    let after := main lt ln lp pt pn pl pc messages fs (List.concat wss) in
    fst after l = Some messages /\ (exists e, snd after = Program (Err e)) /\ forall p, p <> l -> fst after p = fs p.
Proof. exact main_log_truncations. Qed.
Print Assumptions C107_log_in_place_of_truncations.

Example C107_log_example :
  let fs := fun p => if String.eqb p "t.json" then Some "{""maximum_hamiltonian_rank"": 1, ""maximum_coupled_cluster_rank"": 1, ""omega_max_order"": 1}" else None in
  snd (plain_main fs ["-p"; "t.json"; "-l"; "log.txt"]) = Program (Ok tt) /\
  snd (plain_main fs ["-p"; "t.json"; "-l"; "t.json"]) = Program (Err ValueErr) /\
  fst (plain_main fs ["-p"; "t.json"; "-l"; "t.json"]) "t.json" = Some "messages".
Proof. vm_compute. repeat split. Qed.
