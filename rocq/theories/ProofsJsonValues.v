(** Truncations in a file and as values after -t. *)
From Coq Require Import ZArith.
From Verif Require Import PyBase PyStr PyBaseFacts ModelFullCC ModelTrunc ModelRun ModelCommandLine ModelMain SpecTrunc SpecJson SpecJsonRun ProofsTrunc ProofsJson ProofsJsonRun.
Open Scope list_scope.

Lemma has_combined ks (values : list Z) k v : In (DEnum k, v) (combine (map (fun kt : tkey * Z => DEnum (fst kt)) ks) values) <->
  In (k, v) (combine (map fst ks) values).
Proof.
  revert values. induction ks as [|[k' b] ks IH]; intros [|w values]; cbn [map combine In fst]; try tauto.
  rewrite IH. split; (intros [H|H]; [left|now right]); congruence.
Qed.

Section Run.
  Variable lt : list (list tamp) -> list (list tamp).
  Variable ln : list nat -> list nat.
  Variable lp : list (list (nat * nat)) -> list (list (nat * nat)).
  Variable pt : list (list tamp) -> list (list tamp).
  Variable pn : list nat -> list nat.
  Variable pl : list (list nat) -> list (list nat).
  Variable pc : list (list ascii) -> list (list ascii).

  Notation run := (run lt ln lp pt pn pl pc).
  Notation generate := (generate lt ln lp pt pn pl pc).

  Lemma run_values fs an ex rf co lh values t p l text :
    fs p = Some text -> good_file t l text -> List.length values = List.length (documented t) ->
    (forall k v, last_value l k v <-> In (k, v) (combine (map fst (documented t)) values)) ->
    let after := run fs (mkArgs (Some values) None an ex rf co lh) in
    let after' := run fs (mkArgs None (Some p) an ex rf co lh) in
    snd after = snd after' /\ forall q, q <> "../truncs.json"%string -> fst after q = fst after' q.
  Proof.
    intros E Hg Hlen Hl. cbv zeta. destruct (load_good t l text Hg) as [d' [L' [Hd' [Hv' Hh']]]].
    destruct (values_saved t values Hlen) as [d [saved [Hdv Hsave]]].
    destruct (dict_of_values_enum _ _ _ Hdv) as [He Hd].
    destruct (proj2 (make_trunc_exact values d t) Hdv) as [Hmake _].
    assert (forall k v, has_value d k v <-> has_value d' k v) as Hs.
    { intros k v. rewrite Hh', Hl. destruct Hdv as [_ ->]. unfold has_value. apply has_combined. }
    assert (exactly_valid t d) as Hv.
    { split; [split|].
      - exact He.
      - intros k top H. destruct (proj2 (proj1 Hv') k top H) as [v [Hw Hb]]. exists v. split; [now apply Hs|exact Hb].
      - intros k v H. destruct (He k v H) as [m ->]. apply (Hs m v) in H. exact (proj2 Hv' _ _ H). }
    set (a := mkArgs None (Some p) an ex rf co lh).
    pose proof (same_request lt ln lp pt pn pl pc a t d d' Hd Hd' Hv Hv' Hs) as R.
    assert (driver_request (mkArgs (Some values) None an ex rf co lh) d = driver_request a d) as Ha by reflexivity.
    unfold ModelRun.run, driver_source. change (arg_t a) with (@None (list Z)). change (arg_path a) with (Some p).
    cbn [arg_t arg_path]. rewrite Hmake, E, L'. cbn [bind]. rewrite Hsave. cbn [bind]. rewrite Ha.
    assert (forall q, q <> "../truncs.json"%string -> write fs "../truncs.json" saved q = fs q) as Hw.
    { intros q Hq. unfold write. apply String.eqb_neq in Hq. now rewrite Hq. }
    destruct (driver_request a d) as [c|e], (driver_request a d') as [c'|e']; try contradiction.
    - destruct R as [Rp Rg]. rewrite Rg, Rp. destruct (generate c') as [out|e]; cbn [fst snd].
      + split; [reflexivity|]. intros q Hne. unfold write at 1 3. destruct (String.eqb q (gc_path c')); [reflexivity|now apply Hw].
      + split; [reflexivity|exact Hw].
    - subst e'. split; [reflexivity|exact Hw].
  Qed.

  Lemma main_values messages fs words words' ns ns' an ex rf co lh values t p l text :
    parse_args words = Done ns -> parse_args words' = Done ns' ->
    ns_args ns = mkArgs (Some values) None an ex rf co lh -> ns_args ns' = mkArgs None (Some p) an ex rf co lh ->
    log_file ns = log_file ns' -> log_file ns <> Some p ->
    fs p = Some text -> good_file t l text -> List.length values = List.length (documented t) ->
    (forall k v, last_value l k v <-> In (k, v) (combine (map fst (documented t)) values)) ->
    let after := main lt ln lp pt pn pl pc messages fs words in
    let after' := main lt ln lp pt pn pl pc messages fs words' in
    snd after = snd after' /\ forall q, q <> "../truncs.json"%string -> fst after q = fst after' q.
  Proof.
    intros Hn Hn' Ha Ha' Hlog Hp E Hg Hlen Hl. cbv zeta. unfold main. rewrite Hn, Hn', Ha, Ha', <- Hlog.
    destruct (log_file ns) as [lf|].
    - assert (p <> lf) as Hne by congruence. apply String.eqb_neq in Hne.
      destruct (run_values (write fs lf "") an ex rf co lh values t p l text) as [R1 R2];
        [unfold write; now rewrite Hne|exact Hg|exact Hlen|exact Hl|].
      destruct (run (write fs lf "") (mkArgs (Some values) None an ex rf co lh)) as [f r],
        (run (write fs lf "") (mkArgs None (Some p) an ex rf co lh)) as [f' r'].
      cbn [fst snd] in *. split; [now rewrite R1|]. intros q H. unfold write.
      destruct (String.eqb q lf); [reflexivity|now apply R2].
    - destruct (run_values fs an ex rf co lh values t p l text E Hg Hlen Hl) as [R1 R2].
      destruct (run fs (mkArgs (Some values) None an ex rf co lh)) as [f r],
        (run fs (mkArgs None (Some p) an ex rf co lh)) as [f' r'].
      cbn [fst snd] in *. split; [now rewrite R1|exact R2].
  Qed.
End Run.
