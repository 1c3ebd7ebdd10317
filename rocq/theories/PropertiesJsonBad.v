(** Property theorem C140: truncation files with wrong names or values are refused. *)
From Coq Require Import ZArith.
From Verif Require Import PyBase PyStr ModelFullCC ModelTrunc ModelRun ModelCommandLine ModelMain SpecTrunc SpecJson SpecJsonRun ProofsJsonBad.

(** C140: if the truncation file is a layout of items whose names are truncation keys, but
    these are not the truncations of any ansatz, each within its bounds - a name is missing,
    there is one too many, the last value of a name is out of its bounds - then the run ends
    with an AssertionError or an Exception, and no file is changed except the log. *)
Theorem C140_bad_file_refused :
  forall lt ln lp pt pn pl pc messages fs words ns p l text,
    parse_args words = Done ns -> arg_t (ns_args ns) = None -> arg_path (ns_args ns) = Some p ->
    log_file ns <> Some p ->
    fs p = Some text -> object_layout l text -> (forall t, ~ good_file t l text) ->
    (exists e, snd (main lt ln lp pt pn pl pc messages fs words) = Program (Err e) /\ (e = AssertionErr \/ e = GenericException)) /\
    forall q, log_file ns <> Some q -> fst (main lt ln lp pt pn pl pc messages fs words) q = fs q.
Proof. exact main_refuses. Qed.
Print Assumptions C140_bad_file_refused.

(** A file with one name only, whose value is out of its bounds. *)
Definition C140_line : string :=
  let q := double_quote in ("{" ++ q ++ "maximum_T_rank" ++ q ++ ":2}")%string.

Example C140_example :
  (exists ns, parse_args ["-p"; "my.json"] = Done ns /\ arg_t (ns_args ns) = None /\
     arg_path (ns_args ns) = Some "my.json"%string /\ log_file ns <> Some "my.json"%string) /\
  object_layout [(KT, 2%Z)] C140_line /\ (forall t, ~ good_file t [(KT, 2%Z)] C140_line) /\
  load_from_JSON C140_line = Err GenericException.
Proof.
  split; [|split; [|split]].
  - eexists. split; [vm_compute; reflexivity|]. repeat split. discriminate.
  - assert (blank EmptyString) as H0 by constructor. exists EmptyString. eexists. exists EmptyString.
    split; [exact H0|]. split; [exact H0|]. split.
    + apply layout_one. exists EmptyString, EmptyString, EmptyString, EmptyString. repeat (split; [assumption|]). reflexivity.
    + vm_compute. reflexivity.
  - intros t [_ [_ H]]. destruct (H KH 6%Z) as [v [[b [a [E _]]] _]]; [destruct t; now left|].
    destruct b as [|x [|y b]]; discriminate E.
  - vm_compute. reflexivity.
Qed.
