(** The generated python file of the full coupled cluster equations. *)
From Verif Require Import PyBase PyBaseFacts ModelHelper ModelW ModelFullCC ModelPrefactor ModelFullCCPy
  SpecFullCC SpecFullCCPy ProofsHelper ProofsW ProofsStr ProofsFullCC ProofsFullCCLabels ProofsFullCCPy
  ProofsFullCCBuckets ProofsFullCCPaths.

(** ** The default and the optimised calls of a term *)
Definition to_next (e : einsum) : next_call := mknext (e_h e) (e_ts e).

Lemma next_of_einsum son soc t cs : einsum_calls son soc t = Ok cs -> next_calls son soc t = Ok (map to_next cs).
Proof.
  destruct t as [[o h] ts]. unfold einsum_calls, next_calls.
  destruct (multiple_perms_logic son ts) as [pk|]; [|discriminate]. cbn [bind].
  destruct (electronic_components (List.length ts)) as [ea|]; [|discriminate]. cbn [bind].
  destruct (vibrational_components h ts) as [v r].
  destruct pk as [|ps|ps].
  - destruct (mapM _ (range 0 (List.length ea))) as [ins|]; [|discriminate]. cbn [bind].
    destruct (String.eqb r ""); intros [= <-]; [reflexivity|]. now rewrite map_map.
  - revert cs. induction ps as [|p ps IH]; intros cs E; cbn [mapM] in *; [injection E as <-; reflexivity|].
    destruct (permuted_subscripts ea v p) as [ins|]; [|discriminate]. cbn [bind] in E.
    destruct (mapM _ ps) as [r1|]; [|discriminate]. cbn [bind] in E. injection E as <-.
    specialize (IH r1 eq_refl). cbn [map]. injection IH as IH. rewrite IH. reflexivity.
  - revert cs. induction ps as [|p ps IH]; intros cs E; cbn [mapM] in *; [injection E as <-; reflexivity|].
    destruct (mapM (py_nth ts) p) as [tsp|]; [|discriminate]. cbn [bind] in *.
    destruct (permuted_subscripts ea v p) as [ins|]; [|discriminate]. cbn [bind] in E.
    destruct (mapM _ ps) as [r1|]; [|discriminate]. cbn [bind] in E. injection E as <-.
    rewrite (IH r1 eq_refl). reflexivity.
Qed.

Lemma write_map {C D} (g : C -> D) so H cc (f : term -> res (list C)) f' l body :
  (forall t cs, f t = Ok cs -> f' t = Ok (map g cs)) ->
  write_cc_einsum_python_from_list so H cc f l = Ok body ->
  write_cc_einsum_python_from_list so H cc f' l = Ok (map (mapB g) body).
Proof.
  intros Hf. unfold write_cc_einsum_python_from_list. destruct l as [|t l]; [intros [= <-]; reflexivity|].
  set (tl := t :: l) in *. clearbody tl.
  destruct (fill_buckets so f H cc tl []) as [d|] eqn:F; [|discriminate]. cbn [bind].
  destruct (bucket_blocks H cc d) as [b|] eqn:B; [|discriminate]. cbn [bind]. intros [= <-].
  pose proof (fill_map g so f f' Hf H cc tl [] d F) as FM.
  change (map (mapE g) []) with (@nil (@ModelFullCCPy.entry D)) in FM. rewrite FM. cbn [bind].
  rewrite bucket_blocks_map, B. cbn [mapR bind]. rewrite map_app, map_map. reflexivity.
Qed.

(** ** The groups *)
Definition accepted (H cc S : nat) : Prop := 1 <= cc <= 6 /\ S <= 6 /\ H <= 6.

Section Groups.
  Variable sot : list (list tamp) -> list (list tamp).
  Variable so : list nat -> list nat.
  Variable son : list (list nat) -> list (list nat).
  Variable soc : list (list ascii) -> list (list ascii).
  Hypothesis Hsot : set_order sot.
  Hypothesis Hson : set_order son.
  Hypothesis Hsoc : set_order soc.
  Variables H cc S : nat.
  Hypothesis HA : accepted H cc S.
  Variable omega : gop.
  Hypothesis Ho : g_m omega + g_n omega <= 8.
  Variable ground : bool.

  Definition of_group (t : term) : Prop := exists hm hn us f fbar,
    requested (g_m omega) (g_n omega) H cc S ground true hm hn us f fbar /\
    describes (g_m omega) (g_n omega) hm hn us f fbar t.

  Lemma groups_ok : exists a b c, python_groups sot H cc S omega ground = Ok (a, b, c) /\
    (forall t, In t (a ++ b ++ c) -> of_group t) /\
    (g_m omega = 0 -> g_n omega <= H -> exists t, In t a /\ bare t = true).
  Proof.
    destruct HA as ([Hcc _] & _ & _).
    destruct (separation_exact sot omega H cc S ground true Hsot Hcc) as (l & a & b & c & E & Es & P & _ & _ & _ & G).
    destruct (full_cc_terms_exact sot omega H cc S ground true Hsot Hcc) as (l' & E' & _ & I).
    assert (l' = l) by congruence. subst l'.
    exists a, b, c. split; [unfold python_groups; rewrite E; cbn [bind]; exact Es|]. split.
    - intros t Ht. apply (Permutation_in _ (Permutation_sym P)) in Ht. apply I in Ht as (hm & hn & us & f & fb & R & _ & D).
      exists hm, hn, us, f, fb. auto.
    - intros Hm Hn.
      set (t := (mkco (g_m omega + g_n omega) (g_m omega) (g_n omega) 0 (g_n omega) [0] [0],
                 mkch (g_n omega + 0) (g_n omega) 0 (g_n omega) 0 [0] [0], [mkt 0 0 0 0])).
      assert (D : describes (g_m omega) (g_n omega) (g_n omega) 0 [] 0 (g_n omega) t) by reflexivity.
      assert (C : contraction (g_m omega) (g_n omega) (g_n omega) 0 [] 0 (g_n omega)).
      { unfold contraction, total. cbn. lia. }
      assert (Hin : In t l).
      { apply I. exists (g_n omega), 0, [], 0, (g_n omega). split; [|split; [constructor|exact D]].
        unfold requested. cbn. repeat split; auto; try lia; apply C. }
      exists t. split; [|reflexivity].
      apply (G t _ _ _ _ _ Hin (Forall_nil _) C D). constructor.
  Qed.

  Definition the_calls (t : term) : list einsum := match einsum_calls son soc t with Ok c => c | Err _ => [] end.

  Lemma list_max_bound (l : list tamp) n : Forall (fun t => rank_of_t t <= n) l -> list_max (map rank_of_t l) <= n.
  Proof. intros F. apply list_max_le. rewrite Forall_forall in *. intros x Hx. apply in_map_iff in Hx as (t & <- & Ht). auto. Qed.

  Lemma of_group_fine t : of_group t -> bare t = false -> fine (einsum_calls son soc) the_calls H cc t.
  Proof.
    intros (hm & hn & us & f & fb & (R1 & R2 & R3 & R4 & R5) & D) B.
    assert (Hne : us <> []) by (intros ->; rewrite D in B; discriminate).
    destruct HA as ([? ?] & ? & ?).
    destruct (labels_consistent son soc _ _ hm hn us f fb t Hson Hsoc R4 D Hne ltac:(lia) ltac:(lia) Ho) as (calls & E & N & _).
    pose proof D as D'. unfold describes in D'. rewrite D'. unfold fine. rewrite <- D'.
    assert (Ef : factors us = us) by (destruct us; [congruence|reflexivity]). rewrite Ef. cbn [ch_m ch_n].
    unfold the_calls. rewrite E. repeat split; auto; [lia|].
    apply list_max_bound. rewrite Forall_forall in *. intros u Hu. destruct (R3 u Hu) as [A _].
    unfold up, down in A. unfold rank_of_t. lia.
  Qed.

  Lemma group_rank t : of_group t -> ch_rank (snd (fst t)) = ch_m (snd (fst t)) + ch_n (snd (fst t)).
  Proof. intros (hm & hn & us & f & fb & _ & ->). reflexivity. Qed.

  Lemma group_code l : (forall t, In t l -> of_group t) -> H <= 5 ->
    exists body, write_cc_einsum_python_from_list so H cc (einsum_calls son soc) l = Ok body /\
      keeps_last so (einsum_calls son soc) l body.
  Proof.
    intros Hl HH. apply (keeps_last_code so _ the_calls); [exact HH|apply HA|].
    rewrite Forall_forall. intros t Ht. apply filter_In in Ht as [Ht B].
    apply of_group_fine; [now apply Hl|]. now apply negb_true_iff in B.
  Qed.

  Theorem group_bodies : H <= 5 ->
    exists a b c bodies,
      python_groups sot H cc S omega ground = Ok (a, b, c) /\
      generate_full_cc_einsums sot so son soc H cc S omega ground = Ok bodies /\
      Forall2 (keeps_last so (einsum_calls son soc)) [a; b; c] bodies.
  Proof.
    intros HH. destruct groups_ok as (a & b & c & E & G & _).
    destruct (group_code a ltac:(intros; apply G; apply in_or_app; auto) HH) as (ba & Ea & Ka).
    destruct (group_code b ltac:(intros; apply G; rewrite !in_app_iff; auto) HH) as (bb & Eb & Kb).
    destruct (group_code c ltac:(intros; apply G; rewrite !in_app_iff; auto) HH) as (bc & Ec & Kc).
    exists a, b, c, [ba; bb; bc]. split; [exact E|]. split.
    - unfold generate_full_cc_einsums, generate_full_cc_bodies. rewrite E. cbn [bind mapM]. rewrite Ea, Eb, Ec. reflexivity.
    - repeat constructor; assumption.
  Qed.

  (** default code, optimised code and paths *)
  Theorem group_paths : H <= 5 ->
    exists bodies nexts paths,
      generate_full_cc_einsums sot so son soc H cc S omega ground = Ok bodies /\
      generate_full_cc_nexts sot so son soc H cc S omega ground = Ok nexts /\
      generate_full_cc_optimized_paths sot so son soc H cc S omega ground = Ok paths /\
      Forall2 (fun body next => run_bare next = run_bare body /\
        forall fh ft, run fh ft next = map (fun pc => (fst pc, mknext (e_h (snd pc)) (e_ts (snd pc)))) (run fh ft body)) bodies nexts /\
      Forall2 (fun next path => forall fh ft, map snd (run fh ft path) = map (fun pc => shapes (snd pc)) (run fh ft next)) nexts paths.
  Proof.
    intros HH. destruct groups_ok as (a & b & c & E & G & _).
    assert (W : forall l, (forall t, In t l -> of_group t) -> exists body next path,
      write_cc_einsum_python_from_list so H cc (einsum_calls son soc) l = Ok body /\
      write_cc_einsum_python_from_list so H cc (next_calls son soc) l = Ok next /\
      write_cc_optimized_paths_from_list so son soc H cc l = Ok path /\
      (run_bare next = run_bare body /\
        forall fh ft, run fh ft next = map (fun pc => (fst pc, mknext (e_h (snd pc)) (e_ts (snd pc)))) (run fh ft body)) /\
      forall fh ft, map snd (run fh ft path) = map (fun pc => shapes (snd pc)) (run fh ft next)).
    { intros l Hl. destruct (group_code l Hl HH) as (body & Eb & _).
      pose proof (write_map to_next so H cc _ _ l body (fun t cs => next_of_einsum son soc t cs) Eb) as En.
      destruct (paths_match so son soc H cc l _ (fun t Ht => group_rank t (Hl t Ht)) En) as (path & Ep & Rp).
      exists body, (map (mapB to_next) body), path. do 3 (split; [assumption|]). split; [split|exact Rp].
      - clear. unfold run_bare. induction body as [|x body IH]; [reflexivity|]. cbn [map flat_map]. rewrite IH. destruct x; reflexivity.
      - intros fh ft. rewrite run_map. reflexivity. }
    destruct (W a ltac:(intros; apply G; apply in_or_app; auto)) as (a1 & a2 & a3 & A1 & A2 & A3 & A4 & A5).
    destruct (W b ltac:(intros; apply G; rewrite !in_app_iff; auto)) as (b1 & b2 & b3 & B1 & B2 & B3 & B4 & B5).
    destruct (W c ltac:(intros; apply G; rewrite !in_app_iff; auto)) as (c1 & c2 & c3 & C1 & C2 & C3 & C4 & C5).
    exists [a1; b1; c1], [a2; b2; c2], [a3; b3; c3].
    unfold generate_full_cc_einsums, generate_full_cc_nexts, generate_full_cc_bodies, generate_full_cc_optimized_paths.
    rewrite E. cbn [bind mapM]. rewrite A1, A2, A3, B1, B2, B3, C1, C2, C3.
    do 3 (split; [reflexivity|]).
    split; (apply Forall2_cons; [assumption|]; apply Forall2_cons; [assumption|]; apply Forall2_cons; [assumption|]; apply Forall2_nil).
  Qed.

  (** every contribution of a body *)
  Lemma contribution l body : (forall t, In t l -> of_group t) ->
    keeps_last so (einsum_calls son soc) l body ->
    forall fh ft p c, In (p, c) (run fh ft body) ->
    exists t hm hn (us : list tamp) f fbar, In t l /\ us <> [] /\
      requested (g_m omega) (g_n omega) H cc S ground true hm hn us f fbar /\
      describes (g_m omega) (g_n omega) hm hn us f fbar t /\
      realises (g_m omega) (g_n omega) hm hn f fbar us c /\
      active fh ft (slot so t) = true /\ p = snd (slot so t).
  Proof.
    intros Hl (surv & calls & L & HC & _ & P) fh ft p c Hin.
    apply (Permutation_in _ (P fh ft)) in Hin. apply in_flat_map in Hin as (t & Ht & Hin).
    destruct (active fh ft (slot so t)) eqn:A; [|destruct Hin].
    apply in_map_iff in Hin as (c' & [= <- <-] & Hc).
    assert (Hw : In t (with_amplitudes l)).
    { clear - L Ht. induction L as [|x l1 l2 _ _ IH|x y l1 l2 _ _ _ IH]; [destruct Ht| |right; auto].
      destruct Ht as [->|Ht]; [now left|right; auto]. }
    destruct (HC t Hw) as [E _]. apply filter_In in Hw as [Hw B]. apply negb_true_iff in B.
    destruct (Hl t Hw) as (hm & hn & us & f & fb & R & D).
    assert (Hne : us <> []) by (intros ->; rewrite D in B; discriminate).
    destruct HA as ([? ?] & ? & ?). pose proof R as (R1 & R2 & R3 & R4 & R5).
    destruct (labels_consistent son soc _ _ hm hn us f fb t Hson Hsoc R4 D Hne ltac:(lia) ltac:(lia) Ho) as (calls' & E' & N & F).
    assert (calls t = calls') by congruence. subst calls'. rewrite Forall_forall in F.
    exists t, hm, hn, us, f, fb. auto 10.
  Qed.

  Lemma list_max_map_perm {A} (g : A -> nat) l l' : Permutation l l' -> list_max (map g l) = list_max (map g l').
  Proof.
    intros P. apply Nat.le_antisymm; apply list_max_le; rewrite Forall_forall; intros x Hx;
      apply in_map_iff in Hx as (y & <- & Hy); apply in_le_list_max; apply in_map.
    - eapply Permutation_in; eauto.
    - eapply Permutation_in; [symmetry|]; eauto.
  Qed.

  Lemma slot_flags hm hn (us : list tamp) f fbar t c : us <> [] -> describes (g_m omega) (g_n omega) hm hn us f fbar t ->
    realises (g_m omega) (g_n omega) hm hn f fbar us c -> fst (slot so t) = flags_of c.
  Proof.
    intros Hne -> (mid & su & sl & eu & el & out & fs & P & _ & Eh & Et & _).
    unfold slot, flags_of. cbn [fst ch_m ch_n]. rewrite Eh, Et. cbn [fst snd].
    assert (factors us = us) as -> by (destruct us; [congruence|reflexivity]). f_equal.
    rewrite <- (list_max_map_perm rank_of_t _ _ P), !map_map. f_equal. apply map_ext. intros [[a b c' d] x].
    unfold rank_of_t, up, down. cbn. lia.
  Qed.

  Lemma flags_exact l body : (forall t, In t l -> of_group t) ->
    keeps_last so (einsum_calls son soc) l body ->
    forall fh ft p c, In (p, c) (run fh ft body) <->
      In (p, c) (run (fun _ => true) (fun _ => true) body) /\
      (fst (flags_of c) = 0 \/ fh (fst (flags_of c)) = true) /\ ft (snd (flags_of c)) = true.
  Proof.
    intros Hl K fh ft p c.
    pose proof K as (surv & calls & L & HC & _ & P).
    assert (A1 : forall fh ft, In (p, c) (run fh ft body) ->
       (fst (flags_of c) = 0 \/ fh (fst (flags_of c)) = true) /\ ft (snd (flags_of c)) = true /\ 1 <= snd (flags_of c)).
    { intros gh gt Hin. destruct (contribution l body Hl K gh gt p c Hin) as (t & hm & hn & us & f & fb & _ & Hne & R & D & Rl & A & _).
      pose proof (slot_flags _ _ _ _ _ _ _ Hne D Rl) as Ef. unfold active in A.
      destruct (slot so t) as [[i j] q]. cbn [fst] in Ef. rewrite <- Ef. cbn [fst snd].
      apply andb_true_iff in A as [A B]. apply orb_true_iff in A, B. rewrite Nat.eqb_eq in A, B.
      assert (1 <= j).
      { destruct R as (_ & _ & R3 & _). destruct Rl as (mid & su & sl & eu & el & out & fs & Pf & _ & _ & Et & _).
        unfold flags_of in Ef. injection Ef as _ ->. rewrite Et, map_map.
        destruct us as [|u us]; [congruence|].
        apply Nat.le_trans with (up u + down u).
        - inversion R3 as [|? ? [Q _] _]. lia.
        - apply in_le_list_max. apply in_map_iff.
          assert (Hu : In u (map fst fs)) by (apply (Permutation_in _ (Permutation_sym Pf)); now left).
          apply in_map_iff in Hu as (x & <- & Hx). exists x. auto. }
      split; [exact A|]. split; [|assumption]. destruct B as [B|B]; [lia|exact B]. }
    split.
    - intros Hin. destruct (A1 _ _ Hin) as (B1 & B2 & _). split; [|auto].
      apply (Permutation_in _ (P fh ft)) in Hin. apply (Permutation_in _ (Permutation_sym (P (fun _ => true) (fun _ => true)))).
      apply in_flat_map in Hin as (t & Ht & Hin). apply in_flat_map. exists t. split; [exact Ht|].
      assert (active (fun _ => true) (fun _ => true) (slot so t) = true) as ->.
      { unfold active. destruct (slot so t) as [[i j] q]. now rewrite !orb_true_r. }
      destruct (active fh ft (slot so t)); [exact Hin|destruct Hin].
    - intros (Hin & B1 & B2).
      apply (Permutation_in _ (P (fun _ => true) (fun _ => true))) in Hin.
      apply (Permutation_in _ (Permutation_sym (P fh ft))).
      apply in_flat_map in Hin as (t & Ht & Hin). apply in_flat_map. exists t. split; [exact Ht|].
      assert (active (fun _ => true) (fun _ => true) (slot so t) = true) as E.
      { unfold active. destruct (slot so t) as [[i j] q]. now rewrite !orb_true_r. }
      rewrite E in Hin.
      assert (active fh ft (slot so t) = true) as ->; [|exact Hin].
      (* the term's flags are those of the call *)
      apply in_map_iff in Hin as (c' & Ec & Hc). injection Ec as _ ->.
      assert (Hw : In t (with_amplitudes l)).
      { clear - L Ht. induction L as [|x l1 l2 _ _ IH|x y l1 l2 _ _ _ IH]; [destruct Ht| |right; auto].
        destruct Ht as [->|Ht]; [now left|right; auto]. }
      destruct (HC t Hw) as [E1 _]. apply filter_In in Hw as [Hw B]. apply negb_true_iff in B.
      destruct (Hl t Hw) as (hm & hn & us & f & fb & R & D).
      assert (Hne : us <> []) by (intros ->; rewrite D in B; discriminate).
      destruct HA as ([? ?] & ? & ?). pose proof R as (R1 & R2 & R3 & R4 & R5).
      destruct (labels_consistent son soc _ _ hm hn us f fb t Hson Hsoc R4 D Hne ltac:(lia) ltac:(lia) Ho) as (calls' & E' & N & F).
      assert (calls t = calls') by congruence. subst calls'. rewrite Forall_forall in F.
      pose proof (slot_flags _ _ _ _ _ _ _ Hne D (F c Hc)) as Ef. unfold active.
      destruct (slot so t) as [[i j] q]. cbn [fst] in Ef. rewrite <- Ef in B1, B2. cbn [fst snd] in B1, B2.
      rewrite B2, orb_true_r, andb_true_r. apply orb_true_iff. rewrite Nat.eqb_eq. exact B1.
  Qed.
End Groups.

(** ** C46, full coupled cluster part *)
Section Whole.
  Variable sot : list (list tamp) -> list (list tamp).
  Variable so : list nat -> list nat.
  Variable son : list (list nat) -> list (list nat).
  Variable soc : list (list ascii) -> list (list ascii).
  Hypothesis Hsot : set_order sot.
  Hypothesis Hson : set_order son.
  Hypothesis Hsoc : set_order soc.

  Lemma mapM_exists {A B} (f : A -> res B) l : (forall x, In x l -> exists y, f x = Ok y) -> exists r, mapM f l = Ok r.
  Proof.
    induction l as [|x l IH]; intros Hl; [eexists; reflexivity|].
    destruct (Hl x (or_introl eq_refl)) as [y Ey]. destruct IH as [r Er]; [intros z Hz; apply Hl; now right|].
    cbn [mapM]. rewrite Ey. cbn [bind]. rewrite Er. eexists; reflexivity.
  Qed.

  Lemma wrap_ok ops rn n s body : (forall o, In o ops -> exists b, body o = Ok b) ->
    exists text, wrap_generation ops rn n s body = Ok text.
  Proof.
    intros Hb. unfold wrap_generation.
    match goal with |- context [mapM ?f ?l] => destruct (mapM_exists f l) as [r Er] end.
    - intros [i o] Hin. unfold number in Hin. apply in_combine_r in Hin. destruct (Hb o Hin) as [b Eb]. rewrite Eb. eexists; reflexivity.
    - rewrite Er. eexists; reflexivity.
  Qed.

  Theorem file_generated H cc S P : accepted H cc S -> H <= 5 ->
    exists text, generate_full_cc_python_file_contents sot so son soc H cc S P = Ok text.
  Proof.
    intros HA HH. unfold generate_full_cc_python_file_contents.
    assert (R : forall o, In o (generate_omega_operator cc P) -> g_m o + g_n o <= 8).
    { intros o Ho. apply (proj1 (proj2 (omega_operator_exact cc P))) in Ho as (E & L & _). destruct HA as ([? ?] & _). lia. }
    destruct (wrap_ok (generate_omega_operator cc P) "FUNCTIONS" "TERMS" 28
      (fun o => generate_full_cc_compute_functions sot so son soc H cc S o false)) as [t1 E1].
    { intros o Ho. destruct (group_paths sot so son soc Hsot Hson Hsoc H cc S HA o (R o Ho) true HH) as (b & n & p & E & _).
      unfold generate_full_cc_compute_functions. rewrite E. eexists; reflexivity. }
    destruct (wrap_ok (generate_omega_operator cc P) "FUNCTIONS" "TERMS" 28
      (fun o => generate_full_cc_compute_functions sot so son soc H cc S o true)) as [t2 E2].
    { intros o Ho. destruct (group_paths sot so son soc Hsot Hson Hsoc H cc S HA o (R o Ho) true HH) as (b & n & p & _ & E & _).
      unfold generate_full_cc_compute_functions. rewrite E. eexists; reflexivity. }
    destruct (wrap_ok (generate_omega_operator cc P) "OPTIMIZED PATHS" "OPTIMIZED PATHS" 25
      (generate_optimized_paths_functions sot so son soc H cc S)) as [t3 E3].
    { intros o Ho. destruct (group_paths sot so son soc Hsot Hson Hsoc H cc S HA o (R o Ho) true HH) as (b & n & p & _ & _ & E & _).
      unfold generate_optimized_paths_functions. rewrite E. eexists; reflexivity. }
    rewrite E1. cbn [bind]. rewrite E2. cbn [bind]. rewrite E3. cbn [bind]. eexists; reflexivity.
  Qed.

  Lemma mapM_last_err {A B} (f : A -> res B) l x e g :
    (forall y, In y l -> f y = Ok (g y)) -> f x = Err e -> mapM f (l ++ [x]) = Err e.
  Proof.
    induction l as [|y l IH]; intros Hl Hx; cbn [app mapM]; [now rewrite Hx|].
    rewrite (Hl y (or_introl eq_refl)). cbn [bind]. rewrite IH; auto. intros z Hz. apply Hl. now right.
  Qed.

  Theorem rank_six_fails cc S P : accepted 6 cc S ->
    generate_full_cc_python_file_contents sot so son soc 6 cc S P = Err IndexErr.
  Proof.
    intros HA. unfold generate_full_cc_python_file_contents.
    assert (Hop : exists r, generate_omega_operator cc P = mkgop "" 0 0 0 :: r).
    { destruct (omega_operator_exact cc P) as (_ & I & Srt).
      assert (Z : In (mkgop "" 0 0 0) (generate_omega_operator cc P)) by (apply I; cbn; repeat split; lia).
      destruct (generate_omega_operator cc P) as [|x r] eqn:Eo; [destruct Z|].
      assert (X : In x (x :: r)) by now left. apply I in X as [X _]. exists r. f_equal.
      assert (g_rank x = 0).
      { destruct Z as [->|Z]; [reflexivity|]. inversion Srt; subst. rewrite Forall_forall in *. specialize (H2 _ Z). cbn in H2. lia. }
      rewrite X in *. cbn in H. assert (g_m x = 0) as -> by lia. assert (g_n x = 0) as -> by lia. reflexivity. }
    destruct Hop as [r ->].
    assert (E : generate_full_cc_compute_functions sot so son soc 6 cc S (mkgop "" 0 0 0) false = Err IndexErr).
    { unfold generate_full_cc_compute_functions, generate_full_cc_einsums, generate_full_cc_bodies.
      destruct (groups_ok sot Hsot 6 cc S HA (mkgop "" 0 0 0) ltac:(cbn; lia) true) as (a & b & c & E & G & [t [Ht _]]); [reflexivity|cbn; lia|].
      rewrite E. cbn [bind mapM].
      assert (Ea : write_cc_einsum_python_from_list so 6 cc (einsum_calls son soc) a = Err IndexErr); [|now rewrite Ea].
      unfold write_cc_einsum_python_from_list. destruct a as [|x a]; [destruct Ht|]. set (tl := x :: a) in *.
      assert (F : Forall (fine (einsum_calls son soc) (the_calls son soc) 6 cc) (nonbare tl)).
      { rewrite <- nonbare_with, Forall_forall. intros y Hy. apply filter_In in Hy as [Hy B].
        apply (of_group_fine son soc Hson Hsoc 6 cc S HA (mkgop "" 0 0 0) ltac:(cbn; lia) true).
        - apply G. apply in_or_app. now left.
        - now apply negb_true_iff in B. }
      destruct (fill_ok so (einsum_calls son soc) (the_calls son soc) 6 cc tl [] F (NoDup_nil _)) as (d & surv & Ef & _ & _ & _ & R).
      rewrite Ef. cbn [bind].
      assert (Hd : Forall (fun e => fst (fst (fst e)) <= 6 /\ snd (fst (fst e)) <= cc /\ snd e <> []) d).
      { rewrite Forall_forall. intros e He. destruct (R e He) as [[]|?]; assumption. }
      assert (Hcc : cc <= 6) by apply HA.
      unfold bucket_blocks. rewrite sums_ok_ok by (eapply bucket_nonempty; exact Hd). cbn [bind].
      rewrite (t_ifs_ok 6 cc Hcc d Hd). cbn [bind].
      change (range 1 (6 + 1)) with ([1; 2; 3; 4; 5] ++ [6])%list.
      rewrite (mapM_last_err _ _ _ IndexErr (hblocks cc d)); [reflexivity| |reflexivity].
      intros i Hi. rewrite sums_ok_ok by (eapply bucket_nonempty; exact Hd).
      rewrite (t_ifs_ok 6 cc Hcc d Hd).
      assert (T : exists g, py_nth hamiltonian_order_tag i = Ok g).
      { unfold py_nth. destruct (nth_error hamiltonian_order_tag i) eqn:T; [eauto|]. apply nth_error_None in T.
        cbn in T, Hi. lia. }
      destruct T as [g ->]. reflexivity. }
    unfold wrap_generation. cbn [number List.length].
    unfold number. cbn [List.length]. unfold range. cbn [Nat.sub seq combine mapM]. rewrite E. reflexivity.
  Qed.
End Whole.

(** ** C51 *)
Lemma chained_pairs c vs : List.length c = S (List.length vs) ->
  Forall2 (fun s v => exists x y, s = of_chars (x :: y :: v)) (chained c vs) vs.
Proof.
  revert c. induction vs as [|v vs IH]; intros c L.
  - destruct c as [|a [|b c]]; constructor.
  - destruct c as [|a [|b c]]; try discriminate L.
    change (chained (a :: b :: c) (v :: vs)) with (of_chars (a :: b :: v) :: chained (b :: c) vs).
    constructor; [exists a, b; reflexivity|]. apply IH. cbn in *. lia.
Qed.

Lemma realises_axes om on hm hn fbar us c :
  realises om on hm hn 0 fbar us c -> Forall (fun t => down t = 0) us ->
  exists hs rest, e_inputs c = hs :: rest /\ axes (e_output c) hn hm hs /\
    Forall2 (fun s mn => exists k, k <= fst mn /\ axes (e_output c) k (fst mn - k) s) rest (e_ts c).
Proof.
  intros (mid & su & sl & eu & el & out & fs & Hr) HD. cbn zeta in Hr.
  destruct Hr as (P & F & Eh & Et & Lm & Ei & Eo & L1 & L2 & L3 & L4 & L5 & P1 & P2 & P3 & N).
  assert (Lf : List.length fs = List.length us) by (rewrite <- (Permutation_length P); now rewrite map_length).
  assert (HD' : Forall (fun x => l_nh (snd x) = [] /\ l_no (snd x) = []) fs).
  { rewrite Forall_forall in *. intros x Hx.
    assert (D0 : down (fst x) = 0) by (apply HD; apply (Permutation_in _ P); now apply in_map).
    unfold down in D0. destruct (F x Hx) as (A & _ & B & _).
    split; [destruct (l_nh (snd x))|destruct (l_no (snd x))]; auto; cbn in *; lia. }
  assert (su = []) as ->.
  { apply Permutation_nil. rewrite P1. clear - HD'. induction HD' as [|x l [A _] _ IH]; [reflexivity|]. cbn. now rewrite A. }
  assert (el = []) as -> by (destruct el; [reflexivity|discriminate]).
  assert (Hsum : forall l, In l sl -> occurrences l (e_output c) = 0).
  { intros l Hl. rewrite Eo, occurrences_of_chars. apply count_occ_not_In. intros Hin. apply in_split in Hl as (s1 & s2 & ->).
    rewrite !app_nil_l in N. rewrite (NoDup_count_occ ascii_dec) in N. specialize (N l).
    change ("a" :: mid ++ ["b"])%char%list with (["a"] ++ mid ++ ["b"])%char%list in N.
    change (l :: s2) with ([l] ++ s2)%list in N.
    rewrite !count_occ_app in N. assert (count_occ ascii_dec [l] l = 1) as E1 by (cbn; destruct (ascii_dec l l); congruence).
    change ("a" :: "b" :: out)%char%list with (["a"] ++ ["b"] ++ out)%char%list in Hin.
    apply (count_occ_In ascii_dec) in Hin. rewrite !count_occ_app in Hin. lia. }
  assert (Hext : forall l, In l out -> occurrences l (e_output c) = 1).
  { intros l Hl. rewrite Eo, occurrences_of_chars. apply (count_occ_In ascii_dec) in Hl.
    rewrite (NoDup_count_occ ascii_dec) in N. specialize (N l).
    change ("a" :: mid ++ ["b"])%char%list with (["a"] ++ mid ++ ["b"])%char%list in N.
    change ("a" :: "b" :: out)%char%list with (["a"] ++ ["b"] ++ out)%char%list.
    rewrite !count_occ_app in *. lia. }
  assert (Axes : forall x y s e, (forall l, In l s -> In l sl) -> (forall l, In l e -> In l out) ->
     axes (e_output c) (List.length s) (List.length e) (of_chars (x :: y :: s ++ e))).
  { intros x y s e Hs He. exists x, y, s, e. split; [apply chars_of_chars|].
    repeat split; auto; rewrite Forall_forall; auto. }
  assert (CP := chained_pairs ("a" :: mid ++ ["b"])%char%list
     (([] ++ sl ++ eu ++ [])%list :: map (fun x => letters (snd x)) fs)).
  rewrite <- Ei in CP. specialize (CP ltac:(cbn [List.length]; rewrite app_length, map_length; cbn [List.length]; lia)).
  assert (CI : exists hs rest, e_inputs c = hs :: rest /\ (exists x y, hs = of_chars (x :: y :: [] ++ sl ++ eu ++ [])) /\
     Forall2 (fun s v => exists x y, s = of_chars (x :: y :: v)) rest (map (fun x => letters (snd x)) fs)).
  { inversion CP as [|hs0 v0 rest0 vs0 A B C]. exists hs0, rest0. auto. }
  destruct CI as (hs & rest & Ein & (x & y & ->) & CP').
  exists (of_chars (x :: y :: [] ++ sl ++ eu ++ [])), rest. split; [exact Ein|]. split.
  - rewrite app_nil_l, app_nil_r. replace hn with (List.length sl) by lia. replace hm with (List.length eu) by (cbn in L1; lia).
    apply Axes; auto. intros l Hl. apply (Permutation_in _ (Permutation_sym P3)). apply in_or_app. now left.
  - rewrite Et.
    assert (G : forall gs rest, (forall x, In x gs -> In x fs) ->
      Forall2 (fun s v => exists x y, s = of_chars (x :: y :: v)) rest (map (fun x => letters (snd x)) gs) ->
      Forall2 (fun s mn => exists k, k <= fst mn /\ axes (e_output c) k (fst mn - k) s) rest
        (map (fun x => (up (fst x), down (fst x))) gs)).
    { clear CP CP' Ein rest. induction gs as [|g gs IH]; intros rest' Hg C; inversion C as [|s0 ? rest0 ? (x0 & y0 & E0) C0]; subst; [constructor|].
      cbn [map]. constructor; [|apply IH; [intros z Hz; apply Hg; now right|assumption]].
      assert (Hgf : In g fs) by (apply Hg; now left).
      rewrite Forall_forall in F, HD'. destruct (F g Hgf) as (A1 & A2 & A3 & A4). destruct (HD' g Hgf) as (B1 & B2).
      cbn [fst]. unfold up, letters. rewrite B1, B2, !app_nil_l.
      exists (m_h (fst g)). split; [lia|]. replace (m_h (fst g) + m_o (fst g) - m_h (fst g)) with (m_o (fst g)) by lia.
      rewrite <- A2, <- A4. apply Axes.
      - intros l Hl. apply (Permutation_in _ (Permutation_sym P2)). apply in_flat_map. exists g. auto.
      - intros l Hl. apply (Permutation_in _ (Permutation_sym P3)). apply in_or_app. right. apply in_or_app. right.
        apply in_flat_map. exists g. split; [exact Hgf|]. rewrite B2. exact Hl. }
    apply G; auto.
Qed.

Section Bodies.
  Variable sot : list (list tamp) -> list (list tamp).
  Variable so : list nat -> list nat.
  Variable son : list (list nat) -> list (list nat).
  Variable soc : list (list ascii) -> list (list ascii).
  Hypothesis Hsot : set_order sot.
  Hypothesis Hso : set_order so.
  Hypothesis Hson : set_order son.
  Hypothesis Hsoc : set_order soc.
  Variables H cc S : nat.
  Hypothesis HA : accepted H cc S.
  Hypothesis HH : H <= 5.
  Variable omega : gop.
  Hypothesis Ho : g_m omega + g_n omega <= 8.
  Variable ground : bool.

  Lemma body_groups bodies : generate_full_cc_einsums sot so son soc H cc S omega ground = Ok bodies ->
    forall body, In body bodies -> exists l, (forall t, In t l -> of_group H cc S omega ground t) /\
      keeps_last so (einsum_calls son soc) l body.
  Proof.
    intros E body Hb.
    destruct (groups_ok sot Hsot H cc S HA omega Ho ground) as (a & b & c & Eg & G & _).
    destruct (group_bodies sot so son soc Hsot Hson Hsoc H cc S HA omega Ho ground HH) as (a' & b' & c' & bodies' & Eg' & E' & F).
    assert (Q : (a', b', c') = (a, b, c)) by congruence. injection Q as -> -> ->.
    assert (bodies' = bodies) by congruence. subst bodies'.
    inversion F as [|? x ? r1 K1 F1]; subst. inversion F1 as [|? y ? r2 K2 F2]; subst.
    inversion F2 as [|? z ? r3 K3 F3]; subst. inversion F3; subst.
    destruct Hb as [<-|[<-|[<-|[]]]].
    - exists a. split; [|exact K1]. intros t Ht. apply G. rewrite !in_app_iff. auto.
    - exists b. split; [|exact K2]. intros t Ht. apply G. rewrite !in_app_iff. auto.
    - exists c. split; [|exact K3]. intros t Ht. apply G. rewrite !in_app_iff. auto.
  Qed.

  Theorem code_flags bodies : generate_full_cc_einsums sot so son soc H cc S omega ground = Ok bodies ->
    forall body, In body bodies -> forall fh ft p c,
      In (p, c) (run fh ft body) <->
      In (p, c) (run (fun _ => true) (fun _ => true) body) /\
      (fst (flags_of c) = 0 \/ fh (fst (flags_of c)) = true) /\ ft (snd (flags_of c)) = true.
  Proof.
    intros E body Hb. destruct (body_groups bodies E body Hb) as (l & Hl & K).
    exact (flags_exact so son soc Hson Hsoc H cc S HA omega Ho ground l body Hl K).
  Qed.

  Theorem code_sound bodies : generate_full_cc_einsums sot so son soc H cc S omega ground = Ok bodies ->
    forall body, In body bodies -> forall fh ft p c, In (p, c) (run fh ft body) ->
    exists hm hn (us : list tamp) f fbar x num den, us <> [] /\
      requested (g_m omega) (g_n omega) H cc S ground true hm hn us f fbar /\
      realises (g_m omega) (g_n omega) hm hn f fbar us c /\
      p = prefactor_text num den /\
      different_connected us x /\
      fact_product num * (fact hm * fact hn * fact (List.length us)) = fact x * fact_product den.
  Proof.
    intros E body Hb fh ft p c Hin. destruct (body_groups bodies E body Hb) as (l & Hl & K).
    destruct (contribution so son soc Hson Hsoc H cc S HA omega Ho ground l body Hl K fh ft p c Hin)
      as (t & hm & hn & us & f & fb & Ht & Hne & R & D & Rl & _ & Ep).
    assert (HR : Forall (fun t => 1 <= up t + down t) us).
    { destruct R as (_ & _ & R3 & _). eapply Forall_impl; [|exact R3]. intros u [Q _]. lia. }
    destruct (prefactor_value so _ _ hm hn us f fb t Hso D HR Hne) as (x & num & den & A & B & C & _).
    exists hm, hn, us, f, fb, x, num, den. split; [exact Hne|]. split; [exact R|]. split; [exact Rl|]. split; [|auto].
    rewrite Ep. unfold slot. destruct t as [[o h] ts]. cbn [fst snd] in *. now rewrite B.
  Qed.

  Theorem code_axes bodies : ground = true ->
    generate_full_cc_einsums sot so son soc H cc S omega ground = Ok bodies ->
    forall body, In body bodies -> forall fh ft p c, In (p, c) (run fh ft body) ->
    exists hs rest, e_inputs c = hs :: rest /\ axes (e_output c) (snd (e_h c)) (fst (e_h c)) hs /\
      Forall2 (fun s mn => exists k, k <= fst mn /\ axes (e_output c) k (fst mn - k) s) rest (e_ts c).
  Proof.
    intros G E body Hb fh ft p c Hin.
    destruct (code_sound bodies E body Hb fh ft p c Hin) as (hm & hn & us & f & fb & x & num & den & Hne & R & Rl & _).
    destruct R as (_ & _ & R3 & _ & R5). specialize (R5 eq_refl). subst f.
    assert (e_h c = (hm, hn)) as -> by (destruct Rl as (? & ? & ? & ? & ? & ? & ? & _ & _ & Q & _); exact Q).
    eapply realises_axes; [exact Rl|]. eapply Forall_impl; [|exact R3]. intros u [_ Q]. auto.
  Qed.
End Bodies.

(** ** C46 for dictionaries *)
From Coq Require Import ZArith.
From Verif Require Import ModelTrunc SpecTrunc.

Lemma dict_value d k v w : is_dict d -> has_value d k v -> has_value d k w -> v = w.
Proof.
  unfold is_dict, has_value. induction d as [|[k' v'] d IH]; intros N A B; [destruct A|].
  cbn in N. inversion N as [|? ? N1 N2]; subst. destruct A as [A|A], B as [B|B].
  - congruence.
  - injection A as -> ->. exfalso. apply N1. change (DEnum k) with (fst (DEnum k, w)). now apply in_map.
  - injection B as -> ->. exfalso. apply N1. change (DEnum k) with (fst (DEnum k, v)). now apply in_map.
  - now apply IH.
Qed.

Lemma dict_bound t d k top v : is_dict d -> acceptable t d -> In (k, top) (documented t) ->
  has_value d k (Z.of_nat v) -> 1 <= v <= Z.to_nat top.
Proof.
  intros Hd [_ A] Hk Hv. destruct (A k top Hk) as (w & Hw & B). pose proof (dict_value d k _ _ Hd Hv Hw). lia.
Qed.

Theorem file_iff sot so son soc d H cc S P :
  set_order sot -> set_order son -> set_order soc ->
  is_dict d -> acceptable Fcc d ->
  has_value d KH (Z.of_nat H) -> has_value d KCC (Z.of_nat cc) ->
  has_value d KS (Z.of_nat S) -> has_value d KP (Z.of_nat P) ->
  (H <= 5 -> exists text, generate_full_cc_python_file_contents sot so son soc H cc S P = Ok text) /\
  (5 < H -> generate_full_cc_python_file_contents sot so son soc H cc S P = Err IndexErr).
Proof.
  intros H1 H2 H3 Hd A VH VC VS VP.
  assert (B1 := dict_bound Fcc d KH 6%Z H Hd A ltac:(cbn; auto) VH).
  assert (B2 := dict_bound Fcc d KCC 6%Z cc Hd A ltac:(cbn; auto) VC).
  assert (B3 := dict_bound Fcc d KS 6%Z S Hd A ltac:(cbn; auto) VS).
  change (Z.to_nat 6) with 6 in *.
  assert (AC : accepted H cc S) by (unfold accepted; lia).
  split; intros L.
  - exact (file_generated sot so son soc H1 H2 H3 H cc S P AC L).
  - assert (H = 6) as -> by lia. exact (rank_six_fails sot so son soc H1 H2 H3 cc S P AC).
Qed.

Section Split.
  Variable sot : list (list tamp) -> list (list tamp).
  Variable so : list nat -> list nat.
  Variable son : list (list nat) -> list (list nat).
  Variable soc : list (list ascii) -> list (list ascii).
  Hypothesis Hsot : set_order sot.
  Hypothesis Hson : set_order son.
  Hypothesis Hsoc : set_order soc.
  Variables H cc S : nat.
  Hypothesis HA : accepted H cc S.
  Variable omega : gop.
  Hypothesis Ho : g_m omega + g_n omega <= 8.
  Variable ground : bool.

  Theorem paths_part : H <= 5 -> exists nexts paths,
      generate_full_cc_nexts sot so son soc H cc S omega ground = Ok nexts /\
      generate_full_cc_optimized_paths sot so son soc H cc S omega ground = Ok paths /\
      Forall2 (fun next path => forall fh ft,
        map snd (run fh ft path) = map (fun pc => shapes (snd pc)) (run fh ft next)) nexts paths.
  Proof.
    intros HH. destruct (group_paths sot so son soc Hsot Hson Hsoc H cc S HA omega Ho ground HH) as (b & n & p & _ & A & B & _ & C).
    exists n, p. auto.
  Qed.

  Theorem default_part : H <= 5 -> exists bodies nexts,
      generate_full_cc_einsums sot so son soc H cc S omega ground = Ok bodies /\
      generate_full_cc_nexts sot so son soc H cc S omega ground = Ok nexts /\
      Forall2 (fun body next => run_bare next = run_bare body /\
        forall fh ft, run fh ft next = map (fun pc => (fst pc, mknext (e_h (snd pc)) (e_ts (snd pc)))) (run fh ft body)) bodies nexts.
  Proof.
    intros HH. destruct (group_paths sot so son soc Hsot Hson Hsoc H cc S HA omega Ho ground HH) as (b & n & p & A & B & _ & C & _).
    exists b, n. auto.
  Qed.
End Split.
