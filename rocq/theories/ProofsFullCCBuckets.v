(** Proofs about the buckets of the generated full coupled cluster code. *)
From Verif Require Import PyBase PyBaseFacts ModelHelper ModelW ModelFullCC ModelPrefactor ModelFullCCPy
  SpecFullCC SpecFullCCPy ProofsHelper ProofsW ProofsStr ProofsFullCC.

(** ** Text of a prefactor *)
Lemma join_concat sep l : join sep l = String.concat sep l.
Proof. induction l as [|x l IH]; [reflexivity|]. cbn [join String.concat]. destruct l; [reflexivity|]. now rewrite IH. Qed.

Lemma glue_text l : glue l = factorials_text l.
Proof.
  destruct l as [|x l]; [reflexivity|]. unfold glue, factorials_text. now rewrite join_concat.
Qed.

Lemma prefactor_text_eq p : render_full_prefactor p = prefactor_text (fst p) (snd p).
Proof.
  destruct p as [num den]. unfold render_full_prefactor, prefactor_text. cbn [fst snd]. rewrite !glue_text.
  assert (N : forall x l, String.eqb (factorials_text (x :: l)) "1" = false) by reflexivity.
  destruct num as [|x num], den as [|y den]; try reflexivity; rewrite ?N, ?andb_false_r; reflexivity.
Qed.

Lemma slot_text so h ts : (let '(num, den) := build_prefactor so h ts in prefactor_text num den) = render_full_prefactor (build_prefactor so h ts).
Proof. destruct (build_prefactor so h ts) as [n d]. now rewrite prefactor_text_eq. Qed.

(** ** Filing *)
Lemma filter_bare l : filter bare l = filter (fun t => is_bare_h (snd t)) l.
Proof. apply filter_ext. intros [[? ?] [|[[|?] [|?] [|?] [|?]] [|? ?]]]; reflexivity. Qed.

Section Filing.
  Context {C : Type}.
  Notation entry := (@ModelFullCCPy.entry C).

  Definition key (e : entry) : nat * nat * string :=
    let '(i, j, p, _) := e in (i, j, render_full_prefactor p).
  Definition content (e : entry) : (nat * nat * string) * list C := (key e, snd e).

  Definition key_dec : forall a b : nat * nat * string, {a = b} + {a <> b}.
  Proof. repeat decide equality. Defined.

  Lemma same_key_spec i j p (e : entry) : same_key i j p e = true <-> key e = (i, j, render_full_prefactor p).
  Proof.
    destruct e as [[[i' j'] p'] c]. cbn. rewrite !andb_true_iff, !Nat.eqb_eq, String.eqb_eq.
    split; [intros [[-> ->] ->]; reflexivity|intros E; inversion E; subst; auto].
  Qed.

  Definition other (k : nat * nat * string) (x : (nat * nat * string) * list C) : bool :=
    if key_dec (fst x) k then false else true.

  Lemma other_id k l : ~ In k (map fst l) -> filter (other k) l = l.
  Proof.
    induction l as [|x l IH]; intros H; [reflexivity|]. cbn in H. cbn [filter]. unfold other at 1.
    destruct (key_dec (fst x) k) as [e|]; [tauto|]. rewrite IH by tauto. reflexivity.
  Qed.

  Lemma file_calls_content i j p calls (d : list entry) : NoDup (map key d) ->
    let k := (i, j, render_full_prefactor p) in
    Permutation (map content (file_calls i j p calls d)) ((k, calls) :: filter (other k) (map content d)) /\
    NoDup (map key (file_calls i j p calls d)).
  Proof.
    cbn zeta. induction d as [|e d IH]; intros N.
    - cbn. split; [reflexivity|]. repeat constructor; auto.
    - cbn [map] in N. inversion N as [|? ? N1 N2]; subst. cbn [file_calls map filter].
      destruct (same_key i j p e) eqn:E.
      + apply same_key_spec in E. unfold other at 1. cbn [content fst]. rewrite E.
        destruct (key_dec _ _) as [_|n]; [|congruence].
        assert (K : key (i, j, snd (fst e), calls) = (i, j, render_full_prefactor p)).
        { destruct e as [[[i' j'] p'] c]. cbn in *. congruence. }
        split.
        * cbn [map]. unfold content at 1. rewrite K. cbn [snd]. constructor.
          rewrite other_id; [reflexivity|]. rewrite map_map. cbn [content fst]. rewrite <- E. exact N1.
        * cbn [map]. rewrite K, <- E. constructor; assumption.
      + assert (E' : key e <> (i, j, render_full_prefactor p)) by (intros H; apply same_key_spec in H; congruence).
        destruct (IH N2) as [P Q]. unfold other at 1. cbn [content fst].
        destruct (key_dec _ _) as [|_]; [contradiction|]. split.
        * cbn [map]. rewrite P. apply perm_swap.
        * cbn [map]. constructor; [|exact Q]. intros Hin.
          assert (Hin' : In (key e) (map fst (map content (file_calls i j p calls d)))).
          { rewrite map_map. exact Hin. }
          apply (Permutation_in _ (Permutation_map fst P)) in Hin'. cbn [map fst] in Hin'.
          destruct Hin' as [H|H]; [congruence|].
          apply in_map_iff in H as (x & Ex & Hx). apply filter_In in Hx as [Hx _].
          apply in_map_iff in Hx as (y & <- & Hy). cbn [content fst] in Ex. apply N1. rewrite <- Ex. now apply in_map.
  Qed.

  Lemma in_file_calls i j p calls (d : list entry) e : In e (file_calls i j p calls d) ->
    In e d \/ (fst (fst (fst e)) = i /\ snd (fst (fst e)) = j /\ snd e = calls).
  Proof.
    induction d as [|x d IH]; cbn [file_calls].
    - intros [<-|[]]. right. auto.
    - destruct (same_key i j p x).
      + intros [<-|H]; [right; auto|left; now right].
      + intros [<-|H]; [left; now left|]. destruct (IH H); [left; now right|right; assumption].
  Qed.

  Variable so : list nat -> list nat.
  Variable calls_of : term -> res (list C).
  Variable calls : term -> list C.
  Variables H cc : nat.

  Definition fine (t : term) : Prop :=
    let '(_, h, ts) := t in
    Nat.max (ch_m h) (ch_n h) <= H /\ list_max (map rank_of_t ts) <= cc /\
    calls_of t = Ok (calls t) /\ calls t <> [].

  Definition item (t : term) : (nat * nat * string) * list C := (slot so t, calls t).

  Lemma bare_spec t : bare t = is_bare_h (snd t).
  Proof.
    unfold bare, is_bare_h. destruct (snd t) as [|[[|?] [|?] [|?] [|?]] [|? ?]]; reflexivity.
  Qed.

  Definition nonbare (l : list term) : list term := filter (fun t => negb (is_bare_h (snd t))) l.

  Definition seen (l : list term) (x : (nat * nat * string) * list C) : bool :=
    if in_dec key_dec (fst x) (map (slot so) l) then false else true.

  Lemma fill_ok l d : Forall fine (nonbare l) -> NoDup (map key d) ->
    exists d' surv, fill_buckets so calls_of H cc l d = Ok d' /\
      lasts (slot so) (nonbare l) surv /\
      Permutation (map content d') (map item surv ++ filter (seen (nonbare l)) (map content d)) /\
      NoDup (map key d') /\
      (forall e, In e d' -> In e d \/
         (fst (fst (fst e)) <= H /\ snd (fst (fst e)) <= cc /\ snd e <> [])).
  Proof.
    revert d; induction l as [|t l IH]; intros d F N.
    - exists d, []. split; [reflexivity|]. split; [constructor|]. split; [|auto].
      assert (E : filter (seen []) (map content d) = map content d); [|change (nonbare []) with (@nil term); now rewrite E].
      induction (map content d) as [|x r IHr]; [reflexivity|]. cbn. now rewrite IHr.
    - cbn [fill_buckets nonbare filter] in *. destruct (is_bare_h (snd t)) eqn:B; cbn [negb] in *; [now apply IH|].
      inversion F as [|? ? Ft Fl]; subst. fold (nonbare l) in *.
      destruct t as [[o h] ts]. unfold fine in Ft. cbn [snd] in *.
      destruct Ft as (F1 & F2 & F3 & F4).
      unfold file_term.
      destruct (Nat.ltb_spec H (Nat.max (ch_m h) (ch_n h))); [lia|].
      destruct (Nat.ltb_spec cc (list_max (map rank_of_t ts))); [lia|].
      rewrite F3. cbn [bind].
      set (i := Nat.max (ch_m h) (ch_n h)) in *. set (j := list_max (map rank_of_t ts)) in *.
      set (p := build_prefactor so h ts). set (t := (o, h, ts)) in *.
      destruct (file_calls_content i j p (calls t) d N) as [P1 N1].
      destruct (IH _ Fl N1) as (d' & surv & E & L & P & N' & R).
      assert (K : slot so t = (i, j, render_full_prefactor p)) by (unfold slot, t, p; now rewrite slot_text).
      assert (R' : forall e, In e d' -> In e d \/ (fst (fst (fst e)) <= H /\ snd (fst (fst e)) <= cc /\ snd e <> [])).
      { intros e He. destruct (R e He) as [He'|?]; [|right; assumption].
        apply in_file_calls in He' as [?|(A1 & A2 & A3)]; [left; assumption|]. right. rewrite A1, A2, A3. auto. }
      assert (S2 : Permutation (filter (seen (nonbare l)) (map content (file_calls i j p (calls t) d)))
                     ((if in_dec key_dec (slot so t) (map (slot so) (nonbare l)) then [] else [item t])
                      ++ filter (seen (t :: nonbare l)) (map content d))).
      { assert (PF : forall (q : (nat * nat * string) * list C -> bool) l l', Permutation l l' -> Permutation (filter q l) (filter q l')).
        { clear. induction 1; cbn; repeat (try destruct (q _)); eauto using Permutation. }
        rewrite (PF _ _ _ P1). cbn [filter]. unfold seen at 1. cbn [fst]. rewrite <- K.
        assert (FF : filter (seen (nonbare l)) (filter (other (slot so t)) (map content d)) = filter (seen (t :: nonbare l)) (map content d)).
        { rewrite filter_filter. apply filter_ext. intros x. unfold other, seen. cbn [map].
          destruct (key_dec (fst x) (slot so t)) as [e|n],
            (in_dec key_dec (fst x) (map (slot so) (nonbare l))) as [i1|n1],
            (in_dec key_dec (fst x) (slot so t :: map (slot so) (nonbare l))) as [i2|n2]; cbn [andb]; try reflexivity; exfalso.
          - apply n2. now left.
          - apply n2. now left.
          - apply n2. now right.
          - destruct i2 as [i2|i2]; [now apply n|contradiction]. }
        rewrite FF. destruct (in_dec key_dec (slot so t) (map (slot so) (nonbare l))); reflexivity. }
      destruct (in_dec key_dec (slot so t) (map (slot so) (nonbare l))) as [I|I].
      + exists d', surv. split; [exact E|]. split.
        { apply in_map_iff in I as (y & Ey & Hy). eapply lasts_drop; eauto. }
        split; [rewrite P, S2; reflexivity|]. auto.
      + exists d', (t :: surv). split; [exact E|]. split.
        { constructor; [|exact L]. intros y Hy Ey. apply I. rewrite <- Ey. now apply in_map. }
        split; [|auto]. rewrite P, S2. cbn [map app]. symmetry. apply Permutation_middle.
  Qed.
End Filing.

(** ** Printing *)
Section Printing.
  Context {C : Type}.
  Notation entry := (@ModelFullCCPy.entry C).
  Variables fh ft : nat -> bool.

  Definition out_of (e : (nat * nat * string) * list C) : list (string * C) :=
    map (fun c => (snd (fst e), c)) (snd e).
  Definition out_active (e : (nat * nat * string) * list C) : list (string * C) :=
    if active fh ft (fst e) then out_of e else [].

  Lemma run_bucket (d : list entry) i j :
    flat_map run_sum (bucket d i j) =
    flat_map (fun e => out_of (content e)) (filter (fun e => Nat.eqb (fst (fst (fst e))) i && Nat.eqb (snd (fst (fst e))) j) d).
  Proof.
    unfold bucket. match goal with |- context [filter ?q d] => induction (filter q d) as [|e r IH]; [reflexivity|] end. cbn [map flat_map]. rewrite IH.
    destruct e as [[[i' j'] p] c]. unfold out_of, content, run_sum, key. cbn [fst snd]. now rewrite prefactor_text_eq.
  Qed.

  Lemma sums_ok_ok (l : list (prefactor * list C)) : Forall (fun pc => snd pc <> []) l -> sums_ok l = Ok l.
  Proof.
    induction 1 as [|[p c] l Hp Hl IH]; [reflexivity|]. cbn in *. destruct c; [congruence|]. cbn.
    unfold sums_ok in IH. rewrite IH. reflexivity.
  Qed.

  Variables H cc : nat.
  Hypothesis HH : H <= 5.
  Hypothesis Hcc : cc <= 6.
  Variable d : list entry.
  Hypothesis Hd : Forall (fun e => fst (fst (fst e)) <= H /\ snd (fst (fst e)) <= cc /\ snd e <> []) d.

  Lemma bucket_nonempty i j : Forall (fun pc => snd pc <> []) (bucket d i j).
  Proof.
    unfold bucket. rewrite Forall_forall. intros pc Hin. apply in_map_iff in Hin as (e & <- & He).
    apply filter_In in He as [He _]. rewrite Forall_forall in Hd. apply (Hd e He).
  Qed.

  Definition ifs_of (i : nat) : list (nat * list (prefactor * list C)) :=
    flat_map (fun j => match bucket d i j with [] => [] | b => [(j, b)] end) (range 1 (cc + 1)).

  Lemma t_ifs_ok i : t_ifs cc d i = Ok (ifs_of i).
  Proof.
    clear HH. unfold t_ifs, ifs_of.
    rewrite (mapM_ok _ (fun j => match bucket d i j with [] => [] | b => [(j, b)] end)).
    - cbn [bind]. now rewrite concat_flat_map.
    - intros j Hj. apply in_range in Hj. pose proof (bucket_nonempty i j) as B.
      destruct (bucket d i j) as [|x b] eqn:E; [reflexivity|].
      unfold py_nth. destruct (nth_error taylor_series_order_tag j) eqn:T.
      + cbn [bind]. rewrite sums_ok_ok by exact B. reflexivity.
      + apply nth_error_None in T. cbn in T. lia.
  Qed.

  Definition hblocks (i : nat) : list (block C) :=
    match bucket d i 0, ifs_of i with [], [] => [] | _, _ => [BIfH i (bucket d i 0) (ifs_of i)] end.

  Lemma bucket_blocks_ok :
    bucket_blocks H cc d = Ok (map (fun pc => BSum (fst pc) (snd pc)) (bucket d 0 0)
      ++ map (fun js => BIfT (fst js) (snd js)) (ifs_of 0) ++ flat_map hblocks (range 1 (H + 1))).
  Proof.
    unfold bucket_blocks. rewrite sums_ok_ok by apply bucket_nonempty. cbn [bind]. rewrite t_ifs_ok. cbn [bind].
    rewrite (mapM_ok _ hblocks); [cbn [bind]; now rewrite concat_flat_map|].
    intros i Hi. apply in_range in Hi.
    unfold py_nth. destruct (nth_error hamiltonian_order_tag i) eqn:T; [|apply nth_error_None in T; cbn in T; lia].
    cbn [bind]. rewrite sums_ok_ok by apply bucket_nonempty. cbn [bind]. rewrite t_ifs_ok. reflexivity.
  Qed.

  Lemma run_ifs i : flat_map (run_if ft) (ifs_of i) =
    flat_map (fun j => if ft j then flat_map run_sum (bucket d i j) else []) (range 1 (cc + 1)).
  Proof.
    unfold ifs_of. induction (range 1 (cc + 1)) as [|j r IH]; [reflexivity|]. cbn [flat_map].
    rewrite flat_map_app, IH. f_equal. destruct (bucket d i j); cbn; [now destruct (ft j)|].
    unfold run_if; cbn. now rewrite app_nil_r.
  Qed.

  Definition cell (i j : nat) : list (string * C) :=
    if (Nat.eqb i 0 || fh i) && (Nat.eqb j 0 || ft j) then flat_map run_sum (bucket d i j) else [].

  Lemma run_blocks body : bucket_blocks H cc d = Ok body ->
    run fh ft body = flat_map (fun i => flat_map (cell i) (range 0 (cc + 1))) (range 0 (H + 1)).
  Proof.
    rewrite bucket_blocks_ok. intros [= <-]. unfold run. rewrite !flat_map_app.
    assert (R0 : forall n, range 0 (n + 1) = 0 :: range 1 (n + 1)).
    { intros n. unfold range. replace (n + 1 - 0) with (S n) by lia. replace (n + 1 - 1) with n by lia. reflexivity. }
    assert (T : forall i, flat_map (cell i) (range 0 (cc + 1)) =
      if (Nat.eqb i 0 || fh i)%bool then flat_map run_sum (bucket d i 0) ++ flat_map (run_if ft) (ifs_of i) else []).
    { intros i. rewrite R0. cbn [flat_map]. rewrite run_ifs. unfold cell.
      destruct (Nat.eqb i 0 || fh i)%bool; cbn [andb orb Nat.eqb].
      - f_equal. rewrite !flat_map_concat_map. f_equal. apply map_ext_in. intros j Hj. apply in_range in Hj.
        destruct (Nat.eqb_spec j 0); [lia|]. reflexivity.
      - cbn [app]. induction (range 1 (cc + 1)) as [|? ? IH]; [reflexivity|]. cbn [flat_map]. exact IH. }
    rewrite (R0 H). cbn [flat_map]. rewrite T. cbn [Nat.eqb orb]. rewrite <- app_assoc. f_equal.
    { induction (bucket d 0 0) as [|pc r IH]; [reflexivity|]. cbn [map flat_map]. rewrite IH. destruct pc; reflexivity. }
    f_equal.
    { induction (ifs_of 0) as [|js r IH]; [reflexivity|]. cbn [map flat_map]. rewrite IH. destruct js; reflexivity. }
    pose proof (in_range 1 (H + 1)) as IR.
    assert (forall x, In x (range 1 (H + 1)) -> 1 <= x) as IR' by (intros x Hx; apply IR in Hx; lia).
    clear IR. induction (range 1 (H + 1)) as [|i r IH]; [reflexivity|]. cbn [flat_map]. rewrite flat_map_app, IH.
    2: { intros x Hx; apply IR'; now right. }
    f_equal. rewrite T. specialize (IR' i (or_introl eq_refl)). destruct (Nat.eqb_spec i 0); [lia|]. cbn [orb].
    unfold hblocks. destruct (bucket d i 0) as [|x b] eqn:E; [destruct (ifs_of i) as [|y c] eqn:E2|].
    - cbn. now destruct (fh i).
    - cbn [flat_map]. rewrite app_nil_r. reflexivity.
    - cbn [flat_map]. rewrite app_nil_r. reflexivity.
  Qed.

  Lemma partition_flat {X Y} (kf : X -> nat) (R : X -> list Y) n (l : list X) :
    Forall (fun x => kf x <= n) l ->
    Permutation (flat_map (fun k => flat_map R (filter (fun x => Nat.eqb (kf x) k) l)) (range 0 (n + 1))) (flat_map R l).
  Proof.
    induction 1 as [|x l Hx Hl IH].
    - cbn. induction (range 0 (n + 1)); cbn; auto.
    - cbn [flat_map]. rewrite <- IH. clear IH Hl.
      assert (In (kf x) (range 0 (n + 1))) as Hin by (apply in_range; lia).
      pose proof (nodup_range 0 (n + 1)) as N. induction (range 0 (n + 1)) as [|k r IH]; [destruct Hin|].
      inversion N as [|? ? N1 N2]; subst. cbn [flat_map filter].
      destruct (Nat.eqb_spec (kf x) k) as [E|E].
      + cbn [flat_map]. rewrite <- app_assoc. apply Permutation_app_head. apply Permutation_app_head.
        rewrite !flat_map_concat_map. erewrite map_ext_in; [reflexivity|]. intros k' Hk'. cbn beta.
        destruct (Nat.eqb_spec (kf x) k'); [subst; contradiction|reflexivity].
      + destruct Hin as [Hin|Hin]; [congruence|]. rewrite (IH Hin N2).
        rewrite (Permutation_app_swap_app (R x)). reflexivity.
  Qed.

  Lemma flat_map_perm_ext {X Y} (f g : X -> list Y) l :
    (forall x, Permutation (f x) (g x)) -> Permutation (flat_map f l) (flat_map g l).
  Proof. intros E. induction l as [|x l IH]; [reflexivity|]. cbn. now rewrite IH, E. Qed.

  Lemma cell_filter i j : cell i j =
    flat_map (fun e => out_active (content e))
      (filter (fun e => Nat.eqb (snd (fst (fst e))) j) (filter (fun e => Nat.eqb (fst (fst (fst e))) i) d)).
  Proof.
    rewrite filter_filter. unfold cell. rewrite run_bucket.
    match goal with |- context [filter ?q0 d] => set (q := q0) end. clear Hd. induction d as [|e r IH]; [now destruct (_ && _)%bool|].
    cbn [filter]. destruct (q e) eqn:Q; [|exact IH].
    cbn [flat_map]. rewrite <- IH. unfold q in Q. apply andb_true_iff in Q as [Q1 Q2].
    apply Nat.eqb_eq in Q1, Q2.
    assert (A : active fh ft (fst (content e)) = ((Nat.eqb i 0 || fh i) && (Nat.eqb j 0 || ft j))%bool).
    { destruct e as [[[i' j'] p] c]. cbn in *. now subst. }
    unfold out_active. rewrite A. destruct ((Nat.eqb i 0 || fh i) && (Nat.eqb j 0 || ft j))%bool; reflexivity.
  Qed.

  Lemma run_exact body : bucket_blocks H cc d = Ok body ->
    Permutation (run fh ft body) (flat_map out_active (map content d)).
  Proof.
    intros E. rewrite (run_blocks body E).
    rewrite (flat_map_concat_map out_active), map_map, <- flat_map_concat_map.
    rewrite <- (partition_flat (fun e : entry => fst (fst (fst e))) (fun e => out_active (content e)) H d).
    2: { rewrite Forall_forall in *. intros e He. apply (Hd e He). }
    apply flat_map_perm_ext. intros i.
    rewrite <- (partition_flat (fun e : entry => snd (fst (fst e))) (fun e => out_active (content e)) cc (filter (fun e => Nat.eqb (fst (fst (fst e))) i) d)).
    2: { rewrite Forall_forall in *. intros e He. apply filter_In in He as [He _]. apply (Hd e He). }
    apply flat_map_perm_ext. intros j. rewrite cell_filter. reflexivity.
  Qed.
End Printing.

(** ** C31 *)
Lemma run_bare_blocks {C} H cc (d : list (@ModelFullCCPy.entry C)) body :
  bucket_blocks H cc d = Ok body -> run_bare body = [].
Proof.
  unfold bucket_blocks. destruct (sums_ok _) as [s00|]; [|discriminate]. cbn [bind].
  destruct (t_ifs cc d 0) as [ifs|]; [|discriminate]. cbn [bind].
  destruct (mapM _ (range 1 (H + 1))) as [hs|] eqn:M; [|discriminate]. cbn [bind].
  intros [= <-]. unfold run_bare. rewrite !flat_map_app.
  assert (A : forall l : list (prefactor * list C), flat_map (fun b => match b with BBare h => [h] | _ => [] end) (map (fun pc => BSum (fst pc) (snd pc)) l) = []).
  { induction l; cbn; auto. }
  assert (B : forall l : list (nat * list (prefactor * list C)), flat_map (fun b => match b with BBare h => [h] | _ => [] end) (map (fun pc => BIfT (fst pc) (snd pc)) l) = []).
  { induction l; cbn; auto. }
  rewrite A, B. cbn [app].
  revert hs M. induction (range 1 (H + 1)) as [|i r IH]; intros hs M; cbn [mapM] in M; [injection M as <-; reflexivity|].
  destruct (py_nth hamiltonian_order_tag i); [|discriminate]. cbn [bind] in M.
  destruct (sums_ok (bucket d i 0)) as [si|]; [|discriminate]. cbn [bind] in M.
  destruct (t_ifs cc d i) as [ifi|]; [|discriminate]. cbn [bind] in M.
  destruct (mapM _ r) as [hs'|]; [|discriminate]. cbn [bind] in M. injection M as <-.
  cbn [List.concat]. rewrite flat_map_app, IH by reflexivity. destruct si, ifi; reflexivity.
Qed.

Theorem terms_reach_code {C} so (calls_of : term -> res (list C)) (calls : term -> list C) H cc l :
  H <= 5 -> cc <= 6 -> l <> [] -> Forall (fine calls_of calls H cc) (nonbare l) ->
  exists body surv, write_cc_einsum_python_from_list so H cc calls_of l = Ok body /\
    lasts (slot so) (nonbare l) surv /\
    run_bare body = map (fun t => (ch_m (snd (fst t)), ch_n (snd (fst t)))) (filter (fun t => is_bare_h (snd t)) l) /\
    forall fh ft, Permutation (run fh ft body)
      (flat_map (fun t => if active fh ft (slot so t) then map (fun c => (snd (slot so t), c)) (calls t) else []) surv).
Proof.
  intros HH Hcc Hl F.
  destruct (fill_ok so calls_of calls H cc l [] F (NoDup_nil _)) as (d & surv & E & L & P & N & R).
  cbn [map filter] in P. rewrite app_nil_r in P.
  assert (Hd : Forall (fun e => fst (fst (fst e)) <= H /\ snd (fst (fst e)) <= cc /\ snd e <> []) d).
  { rewrite Forall_forall. intros e He. destruct (R e He) as [[]|?]; assumption. }
  destruct (bucket_blocks H cc d) as [b|] eqn:B; [|rewrite (bucket_blocks_ok H cc HH Hcc d Hd) in B; discriminate].
  eexists (map _ _ ++ b), surv. split.
  { unfold write_cc_einsum_python_from_list. destruct l as [|t r]; [congruence|]. rewrite E. cbn [bind]. rewrite B. reflexivity. }
  split; [exact L|]. split.
  - unfold run_bare. rewrite flat_map_app. fold (run_bare b). rewrite (run_bare_blocks H cc d b B), app_nil_r.
    induction (filter (fun t => is_bare_h (snd t)) l) as [|t r IH]; [reflexivity|]. cbn. now rewrite IH.
  - intros fh ft. unfold run. rewrite flat_map_app. fold (run fh ft b).
    assert (Z : forall l', flat_map (run_block (C := C) fh ft) (map (fun t : term => BBare (ch_m (snd (fst t)), ch_n (snd (fst t)))) l') = []).
    { induction l'; cbn; auto. }
    rewrite Z. cbn [app]. rewrite (run_exact fh ft H cc HH Hcc d Hd b B).
    rewrite P. rewrite flat_map_concat_map, map_map, <- flat_map_concat_map. reflexivity.
Qed.

Lemma nonbare_with l : with_amplitudes l = nonbare l.
Proof. unfold with_amplitudes, nonbare. apply filter_ext. intros t. now rewrite bare_spec. Qed.

Lemma keeps_last_code {C} so (calls_of : term -> res (list C)) (calls : term -> list C) H cc l :
  H <= 5 -> cc <= 6 -> Forall (fine calls_of calls H cc) (with_amplitudes l) ->
  exists body, write_cc_einsum_python_from_list so H cc calls_of l = Ok body /\ keeps_last so calls_of l body.
Proof.
  intros HH Hcc F.
  assert (FC : forall t, In t (with_amplitudes l) -> calls_of t = Ok (calls t) /\ calls t <> []).
  { intros t Ht. rewrite Forall_forall in F. specialize (F t Ht). destruct t as [[o h] ts]. destruct F as (_ & _ & A & B). auto. }
  destruct l as [|t l].
  - exists [BPass]. split; [reflexivity|]. exists [], calls. split; [constructor|]. split; [exact FC|].
    split; [reflexivity|]. intros fh ft. reflexivity.
  - rewrite nonbare_with in F.
    destruct (terms_reach_code so calls_of calls H cc (t :: l) HH Hcc ltac:(discriminate) F) as (body & surv & E & L & B & R).
    exists body. split; [exact E|]. exists surv, calls. rewrite nonbare_with in *. rewrite filter_bare. auto.
Qed.
