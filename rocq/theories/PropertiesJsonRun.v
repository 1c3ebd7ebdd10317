(** Property theorem C138: a run does not depend on the layout of the truncation file. *)
From Coq Require Import ZArith.
From Verif Require Import PyBase PyStr ModelFullCC ModelTrunc ModelRun ModelCommandLine ModelMain SpecTrunc SpecJson SpecJsonRun PropertiesJson ProofsJsonRun.

(** C138: two runs with the same words, whose truncation files give the same value to each
    name - in any layout, in any order, with or without repeated names - end in the same
    way and leave the same files, the truncation file itself apart.  (The log must not go to
    the truncation file: it is emptied before it is read.) *)
Theorem C138_same_run :
  forall lt ln lp pt pn pl pc messages fs fs' words ns t p l l' text text',
    parse_args words = Done ns -> arg_t (ns_args ns) = None -> arg_path (ns_args ns) = Some p ->
    log_file ns <> Some p ->
    fs p = Some text -> fs' p = Some text' -> (forall q, q <> p -> fs q = fs' q) ->
    good_file t l text -> good_file t l' text' ->
    (forall k v, last_value l k v <-> last_value l' k v) ->
    snd (main lt ln lp pt pn pl pc messages fs words) = snd (main lt ln lp pt pn pl pc messages fs' words) /\
    forall q, q <> p ->
      fst (main lt ln lp pt pn pl pc messages fs words) q = fst (main lt ln lp pt pn pl pc messages fs' words) q.
Proof. exact main_any_layout. Qed.
Print Assumptions C138_same_run.

(** The items of [C137_lines] in another order in one line. *)
Definition C138_line : string :=
  let q := double_quote in
  ("{" ++ q ++ "omega_max_order" ++ q ++ ":3," ++ q ++ "maximum_hamiltonian_rank" ++ q ++ ":2," ++
   q ++ "maximum_coupled_cluster_rank" ++ q ++ ":4}")%string.
Definition C138_items : list (tkey * Z) := [(KP, 3%Z); (KH, 2%Z); (KCC, 4%Z)].

Example C138_example :
  (exists ns, parse_args ["-p"; "my.json"] = Done ns /\ arg_t (ns_args ns) = None /\
     arg_path (ns_args ns) = Some "my.json"%string /\ log_file ns <> Some "my.json"%string /\
     exists c, driver_request (ns_args ns) (dictionary_of C138_items) = Ok c) /\
  good_file Zhz C137_items C137_lines /\ good_file Zhz C138_items C138_line /\ C137_lines <> C138_line /\
  (forall k v, last_value C137_items k v <-> last_value C138_items k v).
Proof.
  assert (forall l k v, NoDup (map fst l) -> (last_value l k v <-> In (k, v) l)) as Hlast.
  { intros l k v Hn. split.
    - intros [b [a [-> _]]]. apply in_or_app. right. now left.
    - intros H. apply in_split in H as [b [a ->]]. exists b, a. split; [reflexivity|].
      rewrite map_app in Hn. apply NoDup_remove_2 in Hn. intros H. apply Hn, in_or_app. now right. }
  assert (NoDup (map fst C137_items)) as N1 by (cbn; repeat constructor; cbn; intuition discriminate).
  assert (NoDup (map fst C138_items)) as N2 by (cbn; repeat constructor; cbn; intuition discriminate).
  assert (forall k v, In (k, v) C137_items <-> In (k, v) C138_items) as Hin by (intros k v; cbn; tauto).
  assert (forall k v, In (k, v) C137_items -> exists top, In (k, top) (documented Zhz)) as K.
  { intros k v H. cbn in H. destruct H as [H|[H|[H|[]]]]; injection H as <- <-; eexists; cbn; eauto. }
  assert (forall k top, In (k, top) (documented Zhz) -> exists v, In (k, v) C137_items /\ (1 <= v <= top)%Z) as B.
  { intros k top H. cbn in H. destruct H as [H|[H|[H|[]]]]; injection H as <- <-; eexists;
      (split; [cbn; eauto|]); lia. }
  split; [|split; [|split; [|split]]].
  - eexists. split; [vm_compute; reflexivity|]. repeat split; [discriminate|]. eexists. vm_compute. reflexivity.
  - split; [apply C137_example|]. split; [exact K|]. intros k top H. destruct (B k top H) as [v [Hv Hb]].
    exists v. split; [now apply Hlast|exact Hb].
  - split; [|split].
    + assert (blank EmptyString) as H0 by constructor. exists EmptyString. eexists. exists EmptyString.
      split; [exact H0|]. split; [exact H0|]. split.
      * apply layout_more; [|apply layout_more; [|apply layout_one]];
          exists EmptyString, EmptyString, EmptyString, EmptyString; repeat (split; [assumption|]); reflexivity.
      * vm_compute. reflexivity.
    + intros k v H. apply (K k v). now apply Hin.
    + intros k top H. destruct (B k top H) as [v [Hv Hb]]. exists v. split; [apply Hlast; [exact N2|now apply Hin]|exact Hb].
  - vm_compute. discriminate.
  - intros k v. rewrite (Hlast _ k v N1), (Hlast _ k v N2). apply Hin.
Qed.
