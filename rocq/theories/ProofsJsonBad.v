(** Truncation files with wrong names or values are refused. *)
From Coq Require Import ZArith.
From Verif Require Import PyBase PyStr PyBaseFacts ModelFullCC ModelTrunc ModelRun ModelCommandLine ModelMain SpecTrunc SpecJson SpecJsonRun ProofsTrunc ProofsJson ProofsJsonRun.
Open Scope list_scope.

Lemma some_last (l : list (tkey * Z)) k : In k (map fst l) -> exists v, last_value l k v.
Proof.
  induction l as [|[k' w] l IH]; intros H; [destruct H|].
  destruct (in_dec (fun a b : tkey => ltac:(decide equality) : {a = b} + {a <> b}) k (map fst l)) as [Hin|Hni].
  - destruct (IH Hin) as [v [b [a [-> Ha]]]]. exists v, ((k', w) :: b), a. now split.
  - destruct H as [E|H]; [|contradiction]. cbn [fst] in E. subst k'. exists w, [], l. now split.
Qed.

Lemma loaded_is_good l text d : object_layout l text -> load_from_JSON text = Ok d -> exists t, good_file t l text.
Proof.
  intros Hs L.
  assert (load_trunc_from_JSON text None = Ok (Some d)) as Lt by (cbn [load_trunc_from_JSON]; now rewrite L).
  destruct (load_valid text d Lt) as [_ [t Hx]]. exists t. split; [exact Hs|].
  set (m := put_all [] l).
  assert (NoDup (map fst m)) as Hm by (apply put_all_nodup; constructor).
  assert (forall k v, In (k, v) m <-> last_value l k v) as Hin.
  { intros k v. unfold m. rewrite put_all_in by constructor. split; [intros [H|[_ []]]; exact H|intros H; now left]. }
  assert (is_dict (enum_items m)) as Hd.
  { unfold is_dict, enum_items. rewrite map_map. cbn [fst]. rewrite <- (map_map fst DEnum).
    apply FinFun.Injective_map_NoDup; [intros a b E; now injection E|exact Hm]. }
  unfold load_from_JSON in L. rewrite (loads_repeated l text Hs) in L. cbn [bind] in L. fold m in L.
  rewrite to_enum_saved in L by exact Hd. cbn [bind] in L.
  destruct (key_list_type _); [|discriminate]. cbn [bind] in L.
  destruct (verify_truncations _ _); [|discriminate]. cbn [bind] in L. injection L as <-.
  split.
  - intros k v H. destruct (some_last l k) as [w Hw]; [apply in_map_iff; now exists (k, v)|].
    apply Hin, enum_has in Hw. destruct (proj2 Hx _ _ Hw) as [k' [top [E Ht]]]. injection E as <-. now exists top.
  - intros k top H. destruct (proj2 (proj1 Hx) k top H) as [v [Hv Hb]]. exists v. split; [|exact Hb].
    apply Hin. now apply enum_has.
Qed.

Lemma verify_keys_error d keys e : verify_keys d keys = Err e -> e = AssertionErr.
Proof.
  induction keys as [|k keys IH]; cbn [verify_keys]; [discriminate|].
  destruct (dict_get _ _) as [v|]; [|congruence]. destruct (negb _); [congruence|]. destruct (negb _); [congruence|exact IH].
Qed.

Lemma verify_error t m e : is_dict (enum_items m) -> verify_truncations t (enum_items m) = Err e -> e = AssertionErr.
Proof.
  intros Hd. unfold verify_truncations. destruct (enum_items m) as [|x r] eqn:Em; [congruence|]. rewrite <- Em in *.
  assert (enum_dict (enum_items m)) as He.
  { intros k v H. apply in_map_iff in H as [y [E _]]. injection E as <- _. now eexists. }
  assert (forallb (fun kv => is_enum (fst kv)) (enum_items m) = true) as ->.
  { apply forallb_forall. intros [k v] H. destruct (He k v H) as [n ->]. reflexivity. }
  cbn [negb]. rewrite (to_strings_ok _ He Hd). cbn [bind]. apply verify_keys_error.
Qed.

Lemma load_error l text e : object_layout l text -> load_from_JSON text = Err e ->
  e = AssertionErr \/ e = GenericException.
Proof.
  intros Hs. unfold load_from_JSON. rewrite (loads_repeated l text Hs). cbn [bind].
  assert (is_dict (enum_items (put_all [] l))) as Hd.
  { unfold is_dict, enum_items. rewrite map_map. cbn [fst]. rewrite <- (map_map fst DEnum).
    apply FinFun.Injective_map_NoDup; [intros a b E; now injection E|apply put_all_nodup; constructor]. }
  rewrite to_enum_saved by exact Hd. cbn [bind].
  destruct (key_list_type _) as [t|e'] eqn:K; cbn [bind].
  - destruct (verify_truncations t _) as [[]|e'] eqn:V; [discriminate|]. intros E. injection E as <-. left.
    now apply (verify_error t _ _ Hd).
  - intros E. injection E as <-. right. unfold key_list_type in K.
    destruct (Nat.eqb _ _); [discriminate|]. destruct (Nat.eqb _ _); [discriminate|]. destruct (Nat.eqb _ _); congruence.
Qed.

Section Run.
  Variable lt : list (list tamp) -> list (list tamp).
  Variable ln : list nat -> list nat.
  Variable lp : list (list (nat * nat)) -> list (list (nat * nat)).
  Variable pt : list (list tamp) -> list (list tamp).
  Variable pn : list nat -> list nat.
  Variable pl : list (list nat) -> list (list nat).
  Variable pc : list (list ascii) -> list (list ascii).

  Lemma main_refuses messages fs words ns p l text :
    parse_args words = Done ns -> arg_t (ns_args ns) = None -> arg_path (ns_args ns) = Some p ->
    log_file ns <> Some p ->
    fs p = Some text -> object_layout l text -> (forall t, ~ good_file t l text) ->
    (exists e, snd (main lt ln lp pt pn pl pc messages fs words) = Program (Err e) /\ (e = AssertionErr \/ e = GenericException)) /\
    forall q, log_file ns <> Some q -> fst (main lt ln lp pt pn pl pc messages fs words) q = fs q.
  Proof.
    intros Hn Ht Hp Hlog E Hs Hbad. unfold main. rewrite Hn.
    assert (exists e, load_from_JSON text = Err e) as [e He].
    { destruct (load_from_JSON text) as [d|e] eqn:L; [|now exists e].
      destruct (loaded_is_good l text d Hs L) as [t Hg]. destruct (Hbad t Hg). }
    pose proof (load_error l text e Hs He) as Hk.
    assert (forall f : files, f p = Some text -> run lt ln lp pt pn pl pc f (ns_args ns) = (f, Err e)) as R.
    { intros f Hf. unfold run, driver_source. now rewrite Ht, Hp, Hf, He. }
    destruct (log_file ns) as [lf|].
    - assert (p <> lf) as Hne by congruence. apply String.eqb_neq in Hne.
      rewrite R by (unfold write; now rewrite Hne). cbn [fst snd]. split; [now exists e|].
      intros q Hq. unfold write. assert (q <> lf) as H by congruence. apply String.eqb_neq in H. now rewrite H.
    - rewrite R by exact E. cbn [fst snd]. split; [now exists e|reflexivity].
  Qed.
End Run.
