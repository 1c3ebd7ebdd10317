(** Proofs about the partition and permutation helpers. *)
From Verif Require Import PyBase PyBaseFacts ModelHelper SpecPartitions.
From Coq Require Import Sorted.

Lemma NoDup_so {A} (so : list A -> list A) l : set_order so -> NoDup l -> NoDup (so l).
Proof. intros H. apply Permutation_NoDup, H. Qed.

Lemma in_so {A} (so : list A -> list A) l x : set_order so -> (In x (so l) <-> In x l).
Proof. intros H. split; apply Permutation_in; [symmetry|]; apply H. Qed.

(** ** strictness *)
Lemma nats_leb_lt x y : nats_leb x y = true -> x <> y -> lex_lt x y.
Proof.
  revert y; induction x as [|a x IH]; intros [|b y]; unfold nats_leb in *; cbn.
  - congruence.
  - constructor.
  - discriminate.
  - destruct (Nat.eqb_spec a b) as [->|Hn].
    + intros H Hxy. apply lex_tail. apply IH; [exact H|congruence].
    + intros H _. apply Nat.leb_le in H. apply lex_head. lia.
Qed.

Lemma StronglySorted_strict {A} (R S : A -> A -> Prop) l :
  (forall x y, R x y -> x <> y -> S x y) -> NoDup l ->
  StronglySorted R l -> StronglySorted S l.
Proof.
  intros HRS. induction l as [|x xs IH]; intros Hnd H; [constructor|].
  inversion H; inversion Hnd; subst. constructor; [auto|].
  rewrite Forall_forall in *. intros y Hy. apply HRS; [auto|]. intros ->. auto.
Qed.

(** ** unique_permutations *)
Section UniquePerms.
  Context {A : Type} (eqb leb : A -> A -> bool).
  Hypothesis eqb_eq : forall x y, eqb x y = true <-> x = y.
  Variable so : list (list A) -> list (list A).
  Hypothesis Hso : set_order so.

  Lemma in_unique_permutations_gen l p :
    In p (unique_permutations_gen eqb leb so l) <-> Permutation p l.
  Proof.
    unfold unique_permutations_gen. rewrite in_isort, (in_so so _ _ Hso).
    rewrite (in_dedup _ (list_eqb_eq eqb eqb_eq)). apply in_perms.
  Qed.

  Lemma nodup_unique_permutations_gen l : NoDup (unique_permutations_gen eqb leb so l).
  Proof.
    unfold unique_permutations_gen.
    eapply Permutation_NoDup; [apply isort_perm|].
    apply NoDup_so; [exact Hso|]. apply nodup_dedup, list_eqb_eq, eqb_eq.
  Qed.
End UniquePerms.

Section Partitions.
  Variable so : list (list nat) -> list (list nat).
  Hypothesis Hso : set_order so.

  Lemma in_unique_permutations l p : In p (unique_permutations so l) <-> Permutation p l.
  Proof. apply in_unique_permutations_gen; [apply Nat.eqb_eq|exact Hso]. Qed.

  Lemma nodup_unique_permutations l : NoDup (unique_permutations so l).
  Proof. apply nodup_unique_permutations_gen; [apply Nat.eqb_eq|exact Hso]. Qed.

  Lemma sorted_unique_permutations l : strictly_increasing (unique_permutations so l).
  Proof.
    unfold strictly_increasing.
    eapply StronglySorted_strict; [|apply nodup_unique_permutations|].
    - intros x y. apply nats_leb_lt.
    - apply isort_sorted; [apply nats_leb_total|apply nats_leb_trans].
  Qed.

  (** Independence from the set order. *)
  Lemma unique_permutations_so so' l :
    set_order so' -> unique_permutations so l = unique_permutations so' l.
  Proof.
    intros Hso'. unfold unique_permutations, unique_permutations_gen.
    apply isort_ext; [apply nats_leb_total|apply nats_leb_trans|apply nats_leb_antisym|].
    rewrite <- (Hso _), <- (Hso' _). reflexivity.
  Qed.

  Lemma isort_geb_partition n p : composition_of n p -> partition_of n (isort geb p).
  Proof.
    intros [Hpos Hsum]. split; [split|].
    - rewrite Forall_forall in *. intros x Hx. apply in_isort in Hx. auto.
    - rewrite <- Hsum. symmetry. apply list_sum_perm, isort_perm.
    - apply StronglySorted_Sorted.
      pose proof (isort_sorted geb geb_total geb_trans p) as H. unfold srt in H.
      induction H as [|x xs H IH F]; constructor; auto.
      eapply Forall_impl; [|exact F]. intros y Hy. now apply Nat.leb_le.
  Qed.

  Lemma partition_isort n p : partition_of n p -> isort geb p = p.
  Proof.
    intros [_ Hs]. apply isort_id; [apply geb_total|apply geb_trans|apply geb_antisym|].
    unfold srt. apply Sorted_StronglySorted.
    - intros x y z. apply geb_trans.
    - induction Hs as [|x xs Hs IH Hh]; constructor; auto.
      destruct Hh; constructor. now apply Nat.leb_le.
  Qed.

  Lemma in_partitions_fuel fuel n p :
    1 <= n -> n <= fuel -> (In p (partitions_fuel so fuel n) <-> partition_of n p).
  Proof.
    revert n p. induction fuel as [|f IH]; intros n p Hn Hf; [lia|].
    cbn [partitions_fuel].
    rewrite in_isort, (in_so so _ _ Hso), (in_dedup _ nats_eqb_eq).
    cbn [In]. rewrite in_flat_map. split.
    - intros [<-|[x [Hx Hp]]].
      + split; [split|]; [constructor; auto|cbn; lia|constructor; constructor].
      + apply in_range in Hx. apply in_map_iff in Hp as [y [<- Hy]].
        apply IH in Hy; [|lia|lia]. destruct Hy as [[Hpos Hsum] _].
        apply isort_geb_partition. split; [constructor; [lia|exact Hpos]|].
        cbn. lia.
    - intros Hp. destruct p as [|x y].
      { destruct Hp as [[_ Hs] _]. cbn in Hs. lia. }
      destruct y as [|z y].
      { left. destruct Hp as [[_ Hs] _]. cbn in Hs. f_equal. lia. }
      right. exists x. destruct Hp as [[Hpos Hsum] Hs].
      inversion Hpos as [|? ? Hx Hpos']; subst. inversion Hpos' as [|? ? Hz _]; subst.
      cbn in Hn, Hf. cbn [fold_right]. split; [apply in_range; lia|].
      apply in_map_iff. exists (z :: y). split.
      + apply (partition_isort (x + (z + fold_right Nat.add 0 y))).
        split; [split; [exact Hpos|reflexivity]|exact Hs].
      + apply IH; [cbn; lia|cbn; lia|]. split; [split; [exact Hpos'|cbn; lia]|].
        now inversion Hs.
  Qed.

  Lemma in_partitions n p : 1 <= n -> (In p (partitions so n) <-> partition_of n p).
  Proof. intros Hn. apply in_partitions_fuel; lia. Qed.

  Lemma nodup_partitions_fuel fuel n : NoDup (partitions_fuel so fuel n).
  Proof.
    destruct fuel as [|f]; cbn [partitions_fuel]; [constructor|].
    eapply Permutation_NoDup; [apply isort_perm|]. apply NoDup_so; [exact Hso|].
    apply nodup_dedup, nats_eqb_eq.
  Qed.

  Lemma nodup_partitions n : NoDup (partitions so n).
  Proof. apply nodup_partitions_fuel. Qed.

  Lemma sorted_partitions n : strictly_decreasing (partitions so n).
  Proof.
    unfold strictly_decreasing.
    eapply (StronglySorted_strict (fun x y => nats_geb x y = true));
      [|apply nodup_partitions|].
    - intros x y H Hn. apply nats_leb_lt; [exact H|congruence].
    - unfold partitions. cbn [partitions_fuel].
      apply isort_sorted; [apply nats_geb_total|apply nats_geb_trans].
  Qed.

  Lemma partitions_fuel_enough fuel n :
    1 <= n -> n <= fuel -> partitions_fuel so fuel n = partitions so n.
  Proof.
    intros Hn Hf.
    assert (P : Permutation (partitions_fuel so fuel n) (partitions so n)).
    { apply NoDup_Permutation; [apply nodup_partitions_fuel|apply nodup_partitions|].
      intros p. rewrite in_partitions_fuel, in_partitions; tauto || lia. }
    eapply (sorted_unique nats_geb nats_geb_antisym); [| |exact P].
    - destruct fuel; cbn [partitions_fuel]; [constructor|].
      apply isort_sorted; [apply nats_geb_total|apply nats_geb_trans].
    - unfold partitions; cbn [partitions_fuel].
      apply isort_sorted; [apply nats_geb_total|apply nats_geb_trans].
  Qed.

  (** ** Shape of the mixed test *)
  Lemma list_sum_ones l : Forall (fun x => 1 <= x) l -> list_sum l >= List.length l.
  Proof. unfold list_sum. induction 1; cbn; lia. Qed.

  Lemma big_parts_zero l :
    Forall (fun x => 1 <= x) l -> (big_parts l = 0 <-> list_sum l = List.length l).
  Proof.
    unfold big_parts. induction 1 as [|x xs Hx Hxs IH]; [cbn; tauto|].
    pose proof (list_sum_ones xs Hxs) as Hge. unfold list_sum in *.
    cbn [filter fold_right List.length].
    destruct (Nat.ltb_spec 1 x); cbn [List.length]; lia.
  Qed.

  Lemma partition_max n x xs : partition_of n (x :: xs) -> list_max (x :: xs) = x.
  Proof.
    intros [_ Hs]. cbn. fold (list_max xs).
    apply Nat.max_l. apply list_max_le.
    apply Sorted_StronglySorted in Hs; [|intros a b c; lia].
    now inversion Hs.
  Qed.

  Lemma is_mixed_iff n p : 1 <= n -> partition_of n p -> (is_mixed n p = true <-> big_parts p <= 1).
  Proof.
    intros Hn Hp. destruct p as [|x xs].
    { destruct Hp as [[_ Hs] _]. cbn in Hs. lia. }
    unfold is_mixed. rewrite (partition_max n x xs Hp), Nat.eqb_eq.
    destruct Hp as [[Hpos Hsum] Hs]. inversion Hpos as [|? ? Hx Hxs]; subst.
    cbn [fold_right List.length].
    pose proof (big_parts_zero xs Hxs) as Hb. pose proof (list_sum_ones xs Hxs) as Hge.
    unfold list_sum in *. unfold big_parts in *. cbn [filter].
    apply Sorted_StronglySorted in Hs; [|intros a b c; lia]. inversion Hs as [|? ? _ Hf]; subst.
    destruct (Nat.ltb_spec 1 x) as [H1|H1]; cbn [List.length].
    - lia.
    - assert (x = 1) by lia; subst x.
      assert (List.length (filter (fun x => 1 <? x) xs) = 0) as Hz.
      { clear -Hf. induction xs as [|y ys IH]; [reflexivity|]. inversion Hf; subst. cbn [filter].
        destruct (Nat.ltb_spec 1 y); [lia|]. auto. }
      lia.
  Qed.

  Lemma is_mixed_max_lt n p : 1 <= n -> partition_of n p ->
    (list_max p < n <-> 2 <= List.length p).
  Proof.
    intros Hn Hp. destruct p as [|x [|y ys]].
    - destruct Hp as [[_ Hs] _]. cbn in Hs. lia.
    - rewrite (partition_max n _ _ Hp). destruct Hp as [[_ Hs] _]. cbn in *. lia.
    - rewrite (partition_max n _ _ Hp). destruct Hp as [[Hpos Hs] _]. cbn in *.
      inversion Hpos as [|? ? _ H2]; inversion H2; subst. lia.
  Qed.

  Lemma in_mixed n p : 1 <= n ->
    (In p (generate_mixed_partitions_of_n so n) <-> partition_of n p /\ big_parts p <= 1).
  Proof.
    intros Hn. unfold generate_mixed_partitions_of_n. rewrite filter_In, in_partitions by exact Hn.
    split; intros [H1 H2]; split; auto; now apply (is_mixed_iff n).
  Qed.

  Lemma in_linked n p : 1 <= n ->
    (In p (generate_linked_disconnected_partitions_of_n so n) <-> partition_of n p /\ linked_shape p).
  Proof.
    intros Hn. unfold generate_linked_disconnected_partitions_of_n, linked_shape.
    rewrite filter_In, in_partitions by exact Hn. rewrite andb_true_iff, Nat.ltb_lt.
    split.
    - intros [H1 [H2 H3]]. split; [exact H1|]. split; [now apply (is_mixed_max_lt n)|now apply (is_mixed_iff n)].
    - intros [H1 [H2 H3]]. split; [exact H1|]. split; [now apply (is_mixed_iff n)|now apply (is_mixed_max_lt n)].
  Qed.

  Lemma in_unlinked n p : 1 <= n ->
    (In p (generate_un_linked_disconnected_partitions_of_n so n) <-> partition_of n p /\ unlinked_shape p).
  Proof.
    intros Hn. unfold generate_un_linked_disconnected_partitions_of_n, unlinked_shape.
    rewrite in_isort, (in_so so _ _ Hso), filter_In, (in_dedup _ nats_eqb_eq), in_partitions by exact Hn.
    rewrite negb_true_iff, <- not_true_iff_false, (existsb_eqb _ nats_eqb_eq), in_mixed by exact Hn.
    split.
    - intros [H1 H2]. split; [exact H1|]. destruct (le_lt_dec (big_parts p) 1); [tauto|lia].
    - intros [H1 H2]. split; [exact H1|]. lia.
  Qed.

  Lemma nodup_linked n : NoDup (generate_linked_disconnected_partitions_of_n so n).
  Proof. apply NoDup_filter, nodup_partitions. Qed.

  Lemma nodup_unlinked n : NoDup (generate_un_linked_disconnected_partitions_of_n so n).
  Proof.
    eapply Permutation_NoDup; [apply isort_perm|]. apply NoDup_so; [exact Hso|].
    apply NoDup_filter, nodup_dedup, nats_eqb_eq.
  Qed.

  Lemma sorted_linked n : strictly_decreasing (generate_linked_disconnected_partitions_of_n so n).
  Proof.
    unfold generate_linked_disconnected_partitions_of_n, strictly_decreasing.
    pose proof (sorted_partitions n) as H. unfold strictly_decreasing in H.
    induction H as [|x xs H IH F]; cbn; [constructor|].
    destruct (_ && _); [|exact IH]. constructor; [exact IH|].
    rewrite Forall_forall in *. intros y Hy. apply filter_In in Hy as [Hy _]. auto.
  Qed.

  Lemma sorted_unlinked n : strictly_decreasing (generate_un_linked_disconnected_partitions_of_n so n).
  Proof.
    unfold strictly_decreasing.
    eapply (StronglySorted_strict (fun x y => nats_geb x y = true)); [|apply nodup_unlinked|].
    - intros x y H Hn. apply nats_leb_lt; [exact H|congruence].
    - apply isort_sorted; [apply nats_geb_total|apply nats_geb_trans].
  Qed.

  (** The three shapes partition the partitions. *)
  Lemma shapes_cover n p : 1 <= n -> partition_of n p ->
    (p = [n] /\ ~ linked_shape p /\ ~ unlinked_shape p)
    \/ (p <> [n] /\ linked_shape p /\ ~ unlinked_shape p)
    \/ (p <> [n] /\ ~ linked_shape p /\ unlinked_shape p).
  Proof.
    intros Hn Hp. unfold linked_shape, unlinked_shape.
    destruct p as [|x [|y ys]].
    - destruct Hp as [[_ Hs] _]. cbn in Hs. lia.
    - left. destruct Hp as [[_ Hs] _]. cbn in Hs. split; [f_equal; lia|].
      unfold big_parts; cbn [filter]. destruct (1 <? x); cbn; lia.
    - right. destruct (le_lt_dec (big_parts (x :: y :: ys)) 1); [left|right];
        (split; [discriminate|]); cbn [List.length] in *; lia.
  Qed.

  Lemma unlinked_max n p : partition_of n p -> unlinked_shape p -> list_max p <= n - 2.
  Proof.
    intros Hp Hu. destruct p as [|x xs]; [unfold list_max; cbn; lia|].
    rewrite (partition_max n _ _ Hp). unfold unlinked_shape, big_parts in Hu. cbn [filter] in Hu.
    destruct Hp as [[Hpos Hsum] _]. cbn in Hsum.
    assert (1 <= List.length (filter (fun x => 1 <? x) xs)) as H
      by (destruct (1 <? x); cbn [List.length] in Hu; lia).
    clear Hu. enough (2 <= fold_right Nat.add 0 xs) by lia.
    destruct (filter _ xs) as [|z zs] eqn:E; [cbn in H; lia|].
    assert (In z (filter (fun x => 1 <? x) xs)) as Hz by (rewrite E; now left).
    apply filter_In in Hz as [Hz Hz']. apply Nat.ltb_lt in Hz'.
    apply in_le_list_sum in Hz. unfold list_sum in Hz. lia.
  Qed.
End Partitions.

(** None of the results depends on the iteration order of sets. *)
Lemma partitions_so so so' n :
  1 <= n -> set_order so -> set_order so' -> partitions so n = partitions so' n.
Proof.
  intros Hn Hso Hso'.
  assert (P : Permutation (partitions so n) (partitions so' n)).
  { apply NoDup_Permutation; [now apply nodup_partitions|now apply nodup_partitions|].
    intros p. rewrite !in_partitions; tauto. }
  eapply (sorted_unique nats_geb nats_geb_antisym); [| |exact P];
    unfold partitions; cbn [partitions_fuel];
    apply isort_sorted; apply nats_geb_total || apply nats_geb_trans.
Qed.

Lemma linked_so so so' n :
  1 <= n -> set_order so -> set_order so' ->
  generate_linked_disconnected_partitions_of_n so n
  = generate_linked_disconnected_partitions_of_n so' n.
Proof.
  intros Hn H H'. unfold generate_linked_disconnected_partitions_of_n.
  now rewrite (partitions_so so so').
Qed.

Lemma unlinked_so so so' n :
  1 <= n -> set_order so -> set_order so' ->
  generate_un_linked_disconnected_partitions_of_n so n
  = generate_un_linked_disconnected_partitions_of_n so' n.
Proof.
  intros Hn H H'.
  assert (P : Permutation (generate_un_linked_disconnected_partitions_of_n so n)
                          (generate_un_linked_disconnected_partitions_of_n so' n)).
  { apply NoDup_Permutation; [now apply nodup_unlinked|now apply nodup_unlinked|].
    intros p. rewrite !in_unlinked; tauto. }
  eapply (sorted_unique nats_geb nats_geb_antisym); [| |exact P];
    apply isort_sorted; apply nats_geb_total || apply nats_geb_trans.
Qed.

Lemma partition_split so n p : set_order so -> 1 <= n ->
    (In p (generate_partitions_of_n so n) <->
       p = [n] \/ In p (generate_linked_disconnected_partitions_of_n so n)
               \/ In p (generate_un_linked_disconnected_partitions_of_n so n)) /\
    ~ (p = [n] /\ In p (generate_linked_disconnected_partitions_of_n so n)) /\
    ~ (p = [n] /\ In p (generate_un_linked_disconnected_partitions_of_n so n)) /\
    ~ (In p (generate_linked_disconnected_partitions_of_n so n) /\
       In p (generate_un_linked_disconnected_partitions_of_n so n)).
Proof.
  intros Hso Hn. unfold generate_partitions_of_n.
  rewrite in_partitions, in_linked, in_unlinked by assumption.
  assert (Hself : partition_of n [n]).
  { split; [split; [constructor; [lia|constructor]|cbn; lia]|constructor; constructor]. }
  split; [split|].
  - intros Hp. pose proof (shapes_cover n p Hn Hp). tauto.
  - intros [->|[[H _]|[H _]]]; assumption.
  - split; [|split].
    + intros [-> [_ H]]. unfold linked_shape in H. cbn in H. lia.
    + intros [-> [_ H]]. unfold unlinked_shape, big_parts in H. cbn [filter] in H.
      destruct (1 <? n); cbn [List.length] in H; lia.
    + intros [[_ H] [_ H']]. unfold linked_shape, unlinked_shape in *. lia.
Qed.

(** ** The symmetriser *)
Lemma selects_fst {A} (l : list A) : map fst (selects l) = l.
Proof.
  induction l as [|x xs IH]; [reflexivity|]. cbn [selects map]. rewrite map_map. cbn [fst].
  f_equal. exact IH.
Qed.

Lemma selects_length {A} (l : list A) : List.length (selects l) = List.length l.
Proof. rewrite <- (selects_fst l) at 2. now rewrite map_length. Qed.

Lemma flat_map_const_length {A B} (f : A -> list B) l k :
  (forall x, In x l -> List.length (f x) = k) -> List.length (flat_map f l) = List.length l * k.
Proof.
  induction l as [|x xs IH]; intros H; [reflexivity|]. cbn [flat_map List.length].
  rewrite app_length, IH by (intros; apply H; now right). rewrite (H x) by now left. lia.
Qed.

Lemma perms_fuel_length {A} n (l : list A) :
  List.length l = n -> List.length (perms_fuel n l) = Factorial.fact n.
Proof.
  revert l; induction n as [|n IH]; intros l Hl; [reflexivity|]. cbn [perms_fuel].
  rewrite (flat_map_const_length _ _ (Factorial.fact n)).
  - rewrite selects_length, Hl. reflexivity.
  - intros [x r] H. rewrite map_length. cbn [snd]. apply IH.
    apply selects_perm, Permutation_length in H. cbn in H. lia.
Qed.

Lemma perms_fuel_nodup {A} n (l : list A) :
  List.length l = n -> NoDup l -> NoDup (perms_fuel n l).
Proof.
  revert l; induction n as [|n IH]; intros l Hl Hnd; cbn [perms_fuel]; [repeat constructor; auto|].
  apply NoDup_flat_map.
  - eapply NoDup_map_inv. rewrite selects_fst. exact Hnd.
  - intros [x r] H. pose proof (selects_perm _ _ _ H) as P. cbn [fst snd].
    apply NoDup_map_inj; [|congruence]. apply IH.
    + apply Permutation_length in P. cbn in P. lia.
    + eapply Permutation_NoDup in Hnd; [|symmetry; exact P]. now inversion Hnd.
  - intros [x r] [y s] b Hx Hy Hb Hb'. cbn [fst snd] in *.
    apply in_map_iff in Hb as [q [<- _]]. apply in_map_iff in Hb' as [q' [E _]]. inversion E; subst.
    assert (N : NoDup (map fst (selects l))) by (rewrite selects_fst; exact Hnd).
    clear -N Hx Hy. induction (selects l) as [|[a b] t IH]; [destruct Hx|].
    cbn in N. inversion N as [|? ? Hn N']; subst.
    destruct Hx as [E|Hx], Hy as [E'|Hy].
    + congruence.
    + inversion E; subst. exfalso. apply Hn. change x with (fst (x, s)). now apply in_map.
    + inversion E'; subst. exfalso. apply Hn. change x with (fst (x, r)). now apply in_map.
    + now apply IH.
Qed.

Lemma symmetrizing_axes_exact n :
    (forall ax, In ax (symmetrizing_axes n) <-> exists p, ax = 0 :: 1 :: p /\ Permutation p (seq 2 n)) /\
    NoDup (symmetrizing_axes n) /\
    List.length (symmetrizing_axes n) = Factorial.fact n.
Proof.
  unfold symmetrizing_axes, range, perms. replace (n + 2 - 2) with n by lia. rewrite seq_length.
  split; [|split].
  - intros ax. rewrite in_map_iff. split.
    + intros [p [<- Hp]]. exists p. split; [reflexivity|]. apply perms_fuel_spec in Hp; [exact Hp|apply seq_length].
    + intros [p [-> Hp]]. exists p. split; [reflexivity|]. apply perms_fuel_spec; [apply seq_length|exact Hp].
  - apply NoDup_map_inj; [|cbn; congruence]. apply perms_fuel_nodup; [apply seq_length|apply seq_NoDup].
  - rewrite map_length. apply perms_fuel_length, seq_length.
Qed.
