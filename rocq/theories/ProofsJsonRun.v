(** A run of the program does not depend on how the truncation file is laid out. *)
From Coq Require Import ZArith.
From Verif Require Import PyBase PyStr PyBaseFacts ModelFullCC ModelTrunc ModelRun ModelCommandLine ModelMain SpecTrunc SpecJson SpecJsonRun ProofsTrunc ProofsJson.
Open Scope list_scope.

Lemma load_good t l text : good_file t l text ->
  exists d, load_from_JSON text = Ok d /\ is_dict d /\ exactly_valid t d /\
    forall k v, has_value d k v <-> last_value l k v.
Proof.
  intros [Hs [Hk Ht]]. destruct (repeated_loads t l text Hs Hk Ht) as [d [E [Hd Hv]]].
  exists d. cbn [load_trunc_from_JSON] in E. destruct (load_from_JSON text) as [d'|] eqn:El; [|discriminate].
  cbn [bind] in E. injection E as ->. split; [reflexivity|]. split; [exact Hd|]. split; [|exact Hv].
  assert (exists t', exactly_valid t' d) as [t' Hx].
  { apply (load_valid text). cbn [load_trunc_from_JSON]. now rewrite El. }
  split.
  - split; [exact (proj1 (proj1 Hx))|]. intros k top H. destruct (Ht k top H) as [v [Hl Hb]].
    exists v. split; [now apply Hv|exact Hb].
  - intros k v H. destruct (proj1 (proj1 Hx) k v H) as [m ->]. 
    assert (last_value l m v) as [b [a [-> _]]] by now apply Hv.
    destruct (Hk m v) as [top Htop]; [apply in_or_app; right; now left|]. now exists m, top.
Qed.

Lemma same_value d d' k : is_dict d -> is_dict d' -> (forall k v, has_value d k v <-> has_value d' k v) ->
  dict_value d k = dict_value d' k.
Proof.
  intros Hd Hd' H. unfold dict_value.
  destruct (dict_get d (DEnum k)) as [v|] eqn:E.
  - apply (dict_get_some d _ _ Hd) in E. apply H in E. apply (dict_get_some d' _ _ Hd') in E. now rewrite E.
  - destruct (dict_get d' (DEnum k)) as [v|] eqn:E'; [|reflexivity].
    apply (dict_get_some d' _ _ Hd') in E'. apply H in E'. apply (dict_get_some d _ _ Hd) in E'. congruence.
Qed.

Section Run.
  Variable lt : list (list tamp) -> list (list tamp).
  Variable ln : list nat -> list nat.
  Variable lp : list (list (nat * nat)) -> list (list (nat * nat)).
  Variable pt : list (list tamp) -> list (list tamp).
  Variable pn : list nat -> list nat.
  Variable pl : list (list nat) -> list (list nat).
  Variable pc : list (list ascii) -> list (list ascii).

  Notation run := (run lt ln lp pt pn pl pc).
  Notation generate := (generate lt ln lp pt pn pl pc).

  (** the request and the text that is made for it *)
  Lemma same_request a t d d' : is_dict d -> is_dict d' -> exactly_valid t d -> exactly_valid t d' ->
    (forall k v, has_value d k v <-> has_value d' k v) ->
    match driver_request a d, driver_request a d' with
    | Err e, Err e' => e = e'
    | Ok c, Ok c' => gc_path c = gc_path c' /\ generate c = generate c'
    | _, _ => False
    end.
  Proof.
    intros Hd Hd' Hv Hv' Hs.
    assert (forall k, dict_value d k = dict_value d' k) as Hk by (intros k; now apply same_value).
    unfold driver_request. rewrite (exactly_valid_length t d Hd Hv), (exactly_valid_length t d' Hd' Hv').
    rewrite type_of_length. cbn [bind].
    set (an := match arg_ansatz a with Some _ => _ | None => _ end). destruct an as [an|e]; [|reflexivity].
    cbn [bind]. unfold dispatch.
    rewrite (exactly_valid_length t d Hd Hv), (exactly_valid_length t d' Hd' Hv'), type_of_length. cbn [bind].
    destruct (ktype_eqb t (type_of_ansatz an)) eqn:Et; [|reflexivity]. cbn [negb].
    assert (default_path (if arg_code a then KPython else KLatex) an d = default_path (if arg_code a then KPython else KLatex) an d') as Hp.
    { unfold default_path, eT_python_path. now rewrite !Hk. }
    rewrite Hp. destruct (default_path _ an d' _ _ _) as [path|e]; [|reflexivity]. cbn [bind].
    split; [reflexivity|]. unfold ModelRun.generate. cbn [gc_trunc gc_kind gc_ansatz gc_ground gc_remove_f gc_side].
    pose proof (proj2 (verify_exact t d Hd) (proj1 Hv)) as V. pose proof (proj2 (verify_exact t d' Hd') (proj1 Hv')) as V'.
    unfold rank_value. rewrite !Hk.
    destruct (arg_code a), an, t; try discriminate Et; rewrite ?V, ?V'; reflexivity.
  Qed.

  Lemma run_any_layout fs fs' a t p l l' text text' :
    arg_t a = None -> arg_path a = Some p ->
    fs p = Some text -> fs' p = Some text' -> (forall q, q <> p -> fs q = fs' q) ->
    good_file t l text -> good_file t l' text' ->
    (forall k v, last_value l k v <-> last_value l' k v) ->
    snd (run fs a) = snd (run fs' a) /\
    forall q, q <> p -> fst (run fs a) q = fst (run fs' a) q.
  Proof.
    intros Ht Hp E E' Hq Hg Hg' Hl.
    destruct (load_good t l text Hg) as [d [L [Hd [Hv Hh]]]].
    destruct (load_good t l' text' Hg') as [d' [L' [Hd' [Hv' Hh']]]].
    assert (forall k v, has_value d k v <-> has_value d' k v) as Hs.
    { intros k v. now rewrite Hh, Hh', Hl. }
    pose proof (same_request a t d d' Hd Hd' Hv Hv' Hs) as R.
    unfold ModelRun.run, driver_source. rewrite Ht, Hp, E, E', L, L'. cbn [bind].
    destruct (driver_request a d) as [c|e], (driver_request a d') as [c'|e']; try contradiction.
    - destruct R as [Rp Rg]. rewrite Rg, Rp. destruct (generate c') as [out|e]; cbn [fst snd].
      + split; [reflexivity|]. intros q Hne. unfold write. destruct (String.eqb q (gc_path c')); [reflexivity|now apply Hq].
      + split; [reflexivity|exact Hq].
    - subst e'. split; [reflexivity|exact Hq].
  Qed.

  Lemma main_any_layout messages fs fs' words ns t p l l' text text' :
    parse_args words = Done ns -> arg_t (ns_args ns) = None -> arg_path (ns_args ns) = Some p ->
    log_file ns <> Some p ->
    fs p = Some text -> fs' p = Some text' -> (forall q, q <> p -> fs q = fs' q) ->
    good_file t l text -> good_file t l' text' ->
    (forall k v, last_value l k v <-> last_value l' k v) ->
    snd (main lt ln lp pt pn pl pc messages fs words) = snd (main lt ln lp pt pn pl pc messages fs' words) /\
    forall q, q <> p ->
      fst (main lt ln lp pt pn pl pc messages fs words) q = fst (main lt ln lp pt pn pl pc messages fs' words) q.
  Proof.
    intros Hn Ht Hp Hlog E E' Hq Hg Hg' Hl. unfold main. rewrite Hn.
    destruct (log_file ns) as [lf|].
    - assert (p <> lf) as Hne by congruence. apply String.eqb_neq in Hne.
      destruct (run_any_layout (write fs lf "") (write fs' lf "") (ns_args ns) t p l l' text text' Ht Hp) as [R1 R2];
        [unfold write; now rewrite Hne|unfold write; now rewrite Hne| |exact Hg|exact Hg'|exact Hl|].
      { intros q H. unfold write. destruct (String.eqb q lf); [reflexivity|now apply Hq]. }
      destruct (run (write fs lf "") (ns_args ns)) as [f r], (run (write fs' lf "") (ns_args ns)) as [f' r'].
      cbn [fst snd] in *. split; [now rewrite R1|]. intros q H. unfold write.
      destruct (String.eqb q lf); [reflexivity|now apply R2].
    - destruct (run_any_layout fs fs' (ns_args ns) t p l l' text text' Ht Hp E E' Hq Hg Hg' Hl) as [R1 R2].
      destruct (run fs (ns_args ns)) as [f r], (run fs' (ns_args ns)) as [f' r'].
      cbn [fst snd] in *. split; [now rewrite R1|exact R2].
  Qed.
End Run.
