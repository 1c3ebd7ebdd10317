(** Property theorem C139: values after -t and a truncation file written by hand. *)
From Coq Require Import ZArith.
From Verif Require Import PyBase PyStr ModelFullCC ModelTrunc ModelRun ModelCommandLine ModelMain SpecTrunc SpecJson SpecJsonRun SpecCommandLine PropertiesJson PropertiesJsonRun ProofsJsonValues.

(** C139: a run with values after -t and a run with -p and a file that gives these values to
    the documented names, all other settings being the same, end in the same way and leave
    the same files, ../truncs.json apart. *)
Theorem C139_values_or_file :
  forall lt ln lp pt pn pl pc messages fs words words' ns ns' an ex rf co lh values t p l text,
    parse_args words = Done ns -> parse_args words' = Done ns' ->
    ns_args ns = mkArgs (Some values) None an ex rf co lh -> ns_args ns' = mkArgs None (Some p) an ex rf co lh ->
    log_file ns = log_file ns' -> log_file ns <> Some p ->
    fs p = Some text -> good_file t l text -> List.length values = List.length (documented t) ->
    (forall k v, last_value l k v <-> In (k, v) (combine (map fst (documented t)) values)) ->
    let after := main lt ln lp pt pn pl pc messages fs words in
    let after' := main lt ln lp pt pn pl pc messages fs words' in
    snd after = snd after' /\ forall q, q <> "../truncs.json"%string -> fst after q = fst after' q.
Proof. exact main_values. Qed.
Print Assumptions C139_values_or_file.

Example C139_example :
  (exists ns ns', parse_args ["-t"; "2"; "4"; "3"; "-lhs"] = Done ns /\ parse_args ["-lhs"; "-p"; "my.json"] = Done ns' /\
     ns_args ns = mkArgs (Some [2; 4; 3]%Z) None None false None false true /\
     ns_args ns' = mkArgs None (Some "my.json"%string) None false None false true /\
     log_file ns = log_file ns' /\ log_file ns <> Some "my.json"%string) /\
  good_file Zhz C138_items C138_line /\
  (forall k v, last_value C138_items k v <-> In (k, v) (combine (map fst (documented Zhz)) [2; 4; 3]%Z)).
Proof.
  split; [|split].
  - eexists _, _. repeat (split; [vm_compute; reflexivity|]). vm_compute. discriminate.
  - apply C138_example.
  - intros k v. split.
    + intros [b [a [E _]]]. assert (In (k, v) C138_items) as H by (rewrite E; apply in_or_app; right; now left).
      cbn in H |- *. tauto.
    + intros H. cbn in H. destruct H as [H|[H|[H|[]]]]; injection H as <- <-.
      * exists [(KP, 3%Z)], [(KCC, 4%Z)]. split; [reflexivity|cbn; intuition discriminate].
      * exists [(KP, 3%Z); (KH, 2%Z)], []. split; [reflexivity|cbn; tauto].
      * exists [], [(KH, 2%Z); (KCC, 4%Z)]. split; [reflexivity|cbn; intuition discriminate].
Qed.
