(** Proofs about the contractions of the e^T ansatz. *)
From Coq Require Import Lia Permutation.
From Verif Require Import PyBase PyStr PyBaseFacts ModelHelper ModelW ModelFullCC ModelZhz ModelEt ProofsHelper ProofsW
  ProofsFullCC ProofsZhz SpecEt.
Local Open Scope nat_scope.
Local Open Scope list_scope.

(** ** Bounded lists *)
Lemma in_bounded_lists k : forall M l, In l (bounded_lists k M) <-> List.length l = k /\ list_sum l <= M.
Proof.
  induction k as [|k IH]; intros M l; cbn [bounded_lists].
  - split.
    + intros [<-|[]]. cbn. split; [reflexivity|lia].
    + intros [E _]. destruct l; [now left|discriminate].
  - rewrite in_flat_map. split.
    + intros (a & Ha & H). apply in_map_iff in H as (l' & <- & H). apply IH in H as [E H].
      apply in_range in Ha. cbn [List.length list_sum fold_right]. unfold list_sum in *. lia.
    + intros [E H]. destruct l as [|a l]; [discriminate|]. cbn [List.length] in E. injection E as E.
      unfold list_sum in *. cbn [fold_right] in H. exists a. split; [apply in_range; lia|]. apply in_map, IH.
      split; [exact E|]. unfold list_sum. lia.
Qed.
Lemma nodup_bounded_lists k : forall M, NoDup (bounded_lists k M).
Proof.
  induction k as [|k IH]; intros M; cbn [bounded_lists]; [repeat constructor; tauto|].
  apply NoDup_flat_map; [apply seq_NoDup| |].
  - intros a _. apply NoDup_map_inj; [apply IH|]. intros ? ? _ _ [= E]. exact E.
  - intros a b l _ _ H1 H2. apply in_map_iff in H1 as (? & <- & _). apply in_map_iff in H2 as (? & E & _). congruence.
Qed.

Lemma filter_flat_map {A B} (f : B -> bool) (g : A -> list B) l :
  filter f (flat_map g l) = flat_map (fun x => filter f (g x)) l.
Proof. induction l as [|x l IH]; [reflexivity|]. cbn [flat_map]. rewrite filter_app, IH. reflexivity. Qed.
Lemma filter_map_comm {A B} (f : B -> bool) (g : A -> B) l : filter f (map g l) = map g (filter (fun x => f (g x)) l).
Proof. induction l as [|x l IH]; [reflexivity|]. cbn [map filter]. rewrite IH. now destruct (f (g x)). Qed.
Lemma flat_map_ext_in {A B} (f g : A -> list B) l : (forall x, In x l -> f x = g x) -> flat_map f l = flat_map g l.
Proof.
  induction l as [|x l IH]; intros H; [reflexivity|]. cbn [flat_map]. rewrite H, IH; [reflexivity| |now left].
  intros y Hy. apply H. now right.
Qed.
Lemma flat_map_nil {A B} (f : A -> list B) l : (forall x, In x l -> f x = []) -> flat_map f l = [].
Proof.
  induction l as [|x l IH]; intros H; [reflexivity|]. cbn [flat_map]. rewrite H by now left. apply IH.
  intros y Hy. apply H. now right.
Qed.

Lemma filter_none {A} (f : A -> bool) l : (forall x, In x l -> f x = false) -> filter f l = [].
Proof.
  induction l as [|x l IH]; intros H; [reflexivity|]. cbn [filter]. rewrite H by now left. apply IH.
  intros; apply H; now right.
Qed.

(** [bounded_lists] is the filtered [it.product(range(N+1), repeat=k)] of the
    code, for every N that is large enough. *)
Lemma bounded_lists_product k : forall M N, M <= N ->
  bounded_lists k M = filter (fun l => Nat.leb (list_sum l) M) (product (repeat (range 0 (N + 1)) k)).
Proof.
  induction k as [|k IH]; intros M N HN; [reflexivity|]. cbn [bounded_lists repeat product].
  rewrite filter_flat_map. replace (range 0 (N + 1)) with (range 0 (M + 1) ++ range (M + 1) (N + 1)) at 1.
  2:{ unfold range. replace (N + 1 - 0) with ((M + 1 - 0) + (N + 1 - (M + 1))) by lia. rewrite seq_app.
      f_equal; f_equal; lia. }
  rewrite flat_map_app.
  rewrite (flat_map_nil _ (range (M + 1) (N + 1))).
  - rewrite app_nil_r. apply flat_map_ext_in. intros a Ha. apply in_range in Ha.
    rewrite filter_map_comm, (IH (M - a) N) by lia. f_equal. apply filter_ext. intros l.
    unfold list_sum. cbn [fold_right]. apply Bool.eq_iff_eq_true. rewrite !Nat.leb_le. lia.
  - intros a Ha. apply in_range in Ha. rewrite filter_map_comm.
    rewrite filter_none; [reflexivity|]. intros l _. apply Nat.leb_gt. unfold list_sum. cbn. lia.
Qed.

Lemma in_z_perms M q p :
  In p (z_perms M q) <-> List.length (zp_t p) = q /\ zp_lhs p + zp_h p + list_sum (zp_t p) + zp_rest p = M.
Proof.
  unfold z_perms. rewrite in_flat_map. split.
  - intros (l & Hl & Hp). apply in_bounded_lists in Hl as [E H]. destruct l as [|a [|b t]]; [destruct Hp..|].
    cbn [List.length] in E. destruct Hp as [<-|[]]. cbn [zp_t zp_lhs zp_h zp_rest].
    unfold list_sum in *. cbn [fold_right] in H. lia.
  - intros [E H]. exists (zp_lhs p :: zp_h p :: zp_t p). split.
    + apply in_bounded_lists. cbn [List.length]. unfold list_sum in *. cbn [fold_right]. lia.
    + left. destruct p as [a t b r]. cbn [zp_t zp_lhs zp_h zp_rest] in *. f_equal. lia.
Qed.
Lemma nodup_z_perms M q : NoDup (z_perms M q).
Proof.
  unfold z_perms. apply NoDup_flat_map; [apply nodup_bounded_lists| |].
  - intros [|a [|b t]] _; repeat constructor; tauto.
  - intros [|a [|b t]] [|a' [|b' t']] p _ _; cbn [In]; try tauto.
    intros [<-|[]] [E|[]]. injection E. intros; now subst.
Qed.
Lemma z_perms_0 q : z_perms 0 q = [mkzp 0 (repeat 0 q) 0 0].
Proof.
  unfold z_perms.
  assert (E : forall k, bounded_lists k 0 = [repeat 0 k]).
  { induction k as [|k IH]; [reflexivity|]. cbn [bounded_lists]. change (range 0 (0 + 1)) with [0].
    cbn [flat_map]. change (0 - 0) with 0. rewrite IH. reflexivity. }
  rewrite E. cbn [repeat plus flat_map app]. f_equal.
Qed.

Lemma product_singles {A B} (f : A -> B) l : product (map (fun x => [f x]) l) = [map f l].
Proof. induction l as [|x l IH]; [reflexivity|]. cbn [map product flat_map]. rewrite IH. reflexivity. Qed.

Lemma list_sum_zeros {A} (f : A -> nat) l : (forall x, In x l -> f x = 0) -> list_sum (map f l) = 0.
Proof.
  unfold list_sum. induction l as [|x l IH]; intros H; [reflexivity|]. cbn [map fold_right].
  rewrite H by now left. apply IH. intros; apply H; now right.
Qed.

(** ** The amplitudes for a given connection of Z *)
Definition low_split (p : gop * nat) : four := (0, 0, g_n (fst p) - snd p, snd p).

Lemma splits_projection : forall l,
  Forall (fun p => snd p <= g_n (fst p)) l ->
  filter (fun p => Nat.leb (list_sum (map f_lhs p)) 0) (product (map (fun p => t_splits (g_n (fst p)) (snd p)) l))
  = [map low_split l].
Proof.
  induction l as [|p l IH]; intros F; [reflexivity|]. inversion F as [|? ? Hp Fl]; subst. cbn [map product].
  assert (E : t_splits (g_n (fst p)) (snd p)
              = map (fun a => (a, 0, g_n (fst p) - snd p - a, snd p)) (range 0 (g_n (fst p) - snd p + 1))).
  { unfold t_splits. now rewrite (proj2 (Nat.leb_le _ _) Hp). }
  rewrite E.
  set (d := g_n (fst p) - snd p). replace (range 0 (d + 1)) with (0 :: range 1 (d + 1)).
  2:{ unfold range. replace (d + 1 - 0) with (S (d + 1 - 1)) by lia. reflexivity. }
  cbn [map flat_map]. rewrite filter_app. rewrite filter_flat_map, (flat_map_nil _ (map _ _)).
  - rewrite app_nil_r, filter_map_comm.
    erewrite filter_ext; [rewrite IH by exact Fl|].
    + cbn [map]. unfold low_split at 2. fold d. f_equal. f_equal. repeat f_equal. lia.
    + intros x. cbn [map]. unfold list_sum, f_lhs. cbn [fold_right fst]. reflexivity.
  - intros f Hf. apply in_map_iff in Hf as (a & <- & Ha). apply in_range in Ha. rewrite filter_map_comm.
    rewrite filter_none; [reflexivity|]. intros x _. apply Nat.leb_gt. unfold list_sum, f_lhs. cbn. lia.
Qed.

Section Ground.
  Variable s : side.
  Variable lhs : gop.
  Variable h : hop.
  Variable t_list : list gop.
  Variable z : gop.
  Hypothesis Hlhs : g_m lhs = 0.
  Hypothesis Ht : Forall (fun t => g_m t = 0 /\ g_rank t = g_n t) t_list.
  Hypothesis Hz : g_n z = 0.
  Hypothesis Hbal : h_m h + g_m z = g_n lhs + h_n h + sum_n t_list.
  Let q := List.length t_list.

  Definition low : zperm := mkzp 0 (repeat 0 (List.length t_list)) 0 0.
  Definition ups : list zperm :=
    filter (z_perm_ok (g_n lhs) (h_n h) (map g_n t_list) (map g_rank t_list) 0 (g_m lhs) (h_m h))
      (z_perms (g_m z) (List.length t_list)).

  Lemma forallb_zero_low : forall l : list gop, Forall (fun t => g_m t = 0 /\ g_rank t = g_n t) l ->
    forallb (fun q0 : nat * nat * nat => Nat.leb (fst (fst q0)) (g_n lhs + h_n h + snd q0) && Nat.leb (snd q0) (snd (fst q0)))
      (combine (combine (map g_m l) (map g_rank l)) (repeat 0 (List.length l))) = true.
  Proof.
    induction l as [|t l IH]; intros F; [reflexivity|]. inversion F as [|? ? [E1 E2] Fl]; subst.
    cbn [map combine List.length repeat forallb]. rewrite IH by exact Fl. cbn [fst snd]. rewrite E1. reflexivity.
  Qed.
  Lemma sum_m_zero : sum_m t_list = 0.
  Proof. apply list_sum_zeros. intros t H. rewrite Forall_forall in Ht. now apply Ht. Qed.
  Lemma list_sum_repeat0 k : list_sum (repeat 0 k) = 0.
  Proof. induction k; [reflexivity|]. cbn. exact IHk. Qed.

  Lemma right_z_ground :
    right_z_connections lhs t_list h z = map (fun u => build_right_z z u low) ups.
  Proof.
    unfold right_z_connections, generate_all_valid_eT_z_connection_permutations. rewrite Hz, z_perms_0.
    cbn [filter]. unfold z_perm_ok at 2. cbn [zp_h zp_lhs zp_t zp_rest].
    rewrite list_sum_repeat0. rewrite forallb_zero_low by exact Ht. rewrite Hlhs. cbn [Nat.leb andb].
    fold low. unfold ups. rewrite Hlhs. generalize (filter (z_perm_ok (g_n lhs) (h_n h) (map g_n t_list) (map g_rank t_list) 0 0 (h_m h))
      (z_perms (g_m z) (List.length t_list))).
    intros l. induction l as [|u l IH]; [reflexivity|]. cbn [list_prod map app]. now rewrite IH.
  Qed.

  Lemma forallb_combine : forall (l : list gop) xs, Forall (fun t => g_m t = 0 /\ g_rank t = g_n t) l ->
    List.length xs = List.length l ->
    (forallb (fun q0 : nat * nat * nat => Nat.leb (fst (fst q0)) (0 + h_m h + snd q0) && Nat.leb (snd q0) (snd (fst q0)))
      (combine (combine (map g_n l) (map g_rank l)) xs) = true
     <-> Forall (fun p => snd p <= g_n (fst p) /\ g_n (fst p) <= h_m h + snd p) (combine l xs)).
  Proof.
    induction l as [|t l IH]; intros [|x xs] F E; try discriminate; [split; [constructor|reflexivity]|].
    inversion F as [|? ? [E1 E2] Fl]; subst. injection E as E. cbn [map combine forallb].
    rewrite andb_true_iff, IH by assumption. cbn [fst snd]. rewrite andb_true_iff, !Nat.leb_le, Forall_cons_iff.
    cbn [fst snd]. rewrite E2. split; intros [[? ?] ?]; (split; [lia|assumption]).
  Qed.
  Lemma sum_combine_le : forall (l : list gop) xs, List.length xs = List.length l ->
    Forall (fun p => snd p <= g_n (fst p)) (combine l xs) ->
    list_sum xs + list_sum (map (fun p => g_n (fst p) - snd p) (combine l xs)) = list_sum (map g_n l).
  Proof.
    unfold list_sum. induction l as [|t l IH]; intros [|x xs] E F; try discriminate; [reflexivity|].
    cbn [combine] in F. inversion F as [|? ? Hx Fl]; subst. cbn [fst snd] in Hx. injection E as E.
    cbn [map combine fold_right fst snd]. specialize (IH xs E Fl). lia.
  Qed.

  (** Exactly the splits of z with nothing left over. *)
  Lemma in_ups u : In u ups <->
    List.length (zp_t u) = q /\ zp_rest u = 0 /\ zp_lhs u + zp_h u + list_sum (zp_t u) = g_m z /\
    zp_lhs u <= g_n lhs /\ zp_h u <= h_n h /\
    Forall (fun p => snd p <= g_n (fst p) /\ g_n (fst p) <= h_m h + snd p) (combine t_list (zp_t u)).
  Proof.
    unfold ups. rewrite filter_In, in_z_perms. unfold z_perm_ok. rewrite !andb_true_iff, !Nat.leb_le, Hlhs.
    fold q. split.
    - intros [[El E] [[[[H1 H2] H3] H4] H5]]. rewrite forallb_combine in H4 by assumption. repeat split; try lia. exact H4.
    - intros (El & Er & E & H1 & H2 & F). split; [split; [exact El|lia]|].
      rewrite forallb_combine by assumption. repeat split; try lia; [|exact F].
      assert (F' : Forall (fun p => snd p <= g_n (fst p)) (combine t_list (zp_t u))).
      { eapply Forall_impl; [|exact F]. cbn. tauto. }
      pose proof (sum_combine_le _ _ El F'). lia.
  Qed.
  Lemma nodup_ups : NoDup ups.
  Proof. apply NoDup_filter, nodup_z_perms. Qed.

  (** Enough indices on h. *)
  Lemma enough u : In u ups ->
    Forall (fun p => snd p <= g_n (fst p)) (combine t_list (zp_t u)) /\
    list_sum (zp_t u) + list_sum (map (fun p => g_n (fst p) - snd p) (combine t_list (zp_t u))) = sum_n t_list /\
    list_sum (map (fun p => g_n (fst p) - snd p) (combine t_list (zp_t u))) <= h_m h.
  Proof.
    intros H. apply in_ups in H as (El & Er & E & H1 & H2 & F).
    assert (F' : Forall (fun p => snd p <= g_n (fst p)) (combine t_list (zp_t u))).
    { eapply Forall_impl; [|exact F]. cbn. tauto. }
    pose proof (sum_combine_le _ _ El F') as S. fold (sum_n t_list) in S. repeat split; [exact F'|exact S|].
    unfold sum_n in *. lia.
  Qed.

  Definition t_uppers : list (list four) := [map (fun _ => four_zeros) t_list].
  Definition t_lowers (u : zperm) : list (list four) := [map low_split (combine t_list (zp_t u))].

  Lemma range_shift : forall k i, range i (i + S k) = i :: range (i + 1) (i + S k).
  Proof. intros. unfold range. replace (i + S k - i) with (S (i + S k - (i + 1))) by lia. cbn [seq]. f_equal. f_equal. lia. Qed.
  Lemma mapM_py_nth {A} : forall (l pre : list A),
    mapM (py_nth (pre ++ l)) (range (List.length pre) (List.length pre + List.length l)) = Ok l.
  Proof.
    induction l as [|x l IH]; intros pre.
    - replace (range _ _) with (@nil nat); [reflexivity|]. unfold range. cbn [List.length]. now replace (_ - _) with 0 by lia.
    - cbn [List.length]. rewrite range_shift. cbn [mapM].
      assert (E : py_nth (pre ++ x :: l) (List.length pre) = Ok x).
      { unfold py_nth. rewrite nth_error_app2 by lia. now rewrite Nat.sub_diag. }
      rewrite E. cbn [bind]. specialize (IH (pre ++ [x])). rewrite app_length in IH. cbn [List.length] in IH.
      replace (List.length pre + S (List.length l)) with (List.length pre + 1 + List.length l) by lia.
      rewrite <- app_assoc in IH. cbn [app] in IH. rewrite IH. reflexivity.
  Qed.
  Lemma entries_ok xs : List.length xs = List.length t_list -> entries xs t_list = Ok xs.
  Proof. intros E. unfold entries. rewrite <- E. exact (mapM_py_nth xs []). Qed.

  Lemma all_right : forall (l : list gop) xs, List.length xs = List.length l ->
    Forall (fun p => snd p <= g_n (fst p)) (combine l xs) -> list_sum (map g_n l) = list_sum xs ->
    map (fun x => (0, 0, 0, x)) xs = map low_split (combine l xs).
  Proof.
    intros l xs E F S. pose proof (sum_combine_le l xs E F) as S2.
    assert (S3 : list_sum (map (fun p => g_n (fst p) - snd p) (combine l xs)) = 0) by lia. clear S S2.
    revert xs E F S3. unfold list_sum. induction l as [|t l IH]; intros [|x xs] E F S3; try discriminate; [reflexivity|].
    cbn [combine] in F. inversion F as [|? ? Hx Fl]; subst. injection E as E. cbn [map combine fold_right fst snd] in *.
    rewrite (IH xs E Fl) by lia. unfold low_split at 2. cbn [fst snd]. replace (g_n t - x) with 0 by lia. reflexivity.
  Qed.

  Lemma connection_perms u : In u ups ->
    generate_all_valid_eT_connection_permutations lhs t_list h (build_right_z z u low) = Ok (t_uppers, t_lowers u).
  Proof.
    intros Hu. pose proof (enough u Hu) as (F & S & L). apply in_ups in Hu as (El & Er & E & H1 & H2 & F0).
    unfold generate_all_valid_eT_connection_permutations, build_right_z. cbn [ez_n_t ez_m_t].
    unfold low. cbn [zp_t]. rewrite sum_m_zero, list_sum_repeat0. cbn [Nat.eqb].
    rewrite entries_ok by apply repeat_length. rewrite entries_ok by exact El. cbn [bind].
    assert (U : map (fun x : nat => (0, 0, 0, x)) (repeat 0 (List.length t_list)) = map (fun _ : gop => four_zeros) t_list).
    { clear. induction t_list as [|t l IH]; [reflexivity|]. cbn [List.length repeat map]. now rewrite IH. }
    destruct (Nat.eqb (sum_n t_list) (list_sum (zp_t u))) eqn:B; cbn [andb].
    - apply Nat.eqb_eq in B. rewrite U, (all_right t_list (zp_t u) El F B). reflexivity.
    - assert (A1 : product (map (fun p => t_splits (g_m (fst p)) (snd p)) (combine t_list (repeat 0 (List.length t_list)))) = t_uppers).
      { unfold t_uppers. rewrite <- U.
        replace (map (fun x : nat => (0, 0, 0, x)) (repeat 0 (List.length t_list)))
          with (map (fun p : gop * nat => four_zeros) (combine t_list (repeat 0 (List.length t_list)))).
        - rewrite <- product_singles. f_equal. apply map_ext_in. intros p Hp. pose proof Hp as Hp2. destruct p as [t x].
          apply in_combine_l in Hp. apply in_combine_r, repeat_spec in Hp2. subst x.
          rewrite Forall_forall in Ht. cbn [fst snd]. destruct (Ht t Hp) as [-> _]. reflexivity.
        - clear. induction t_list as [|t l IH]; [reflexivity|]. cbn [List.length repeat combine map]. now rewrite IH. }
      rewrite A1. unfold t_perms_within. rewrite Hlhs.
      assert (A2 : filter (fun p => Nat.leb (list_sum (map f_h p)) (h_n h) && Nat.leb (list_sum (map f_lhs p)) (g_n lhs)) t_uppers = t_uppers).
      { unfold t_uppers. cbn [filter]. rewrite !map_map.
        rewrite (list_sum_zeros (fun x => f_h four_zeros)) by reflexivity.
        rewrite (list_sum_zeros (fun x => f_lhs four_zeros)) by reflexivity. reflexivity. }
      rewrite A2. f_equal. f_equal.
      pose proof (splits_projection (combine t_list (zp_t u)) F) as SP.
      assert (A3 : forall P Q (l : list (list four)), filter (fun p => P p && Q p) l = filter P (filter Q l)).
      { intros P Q l. induction l as [|x l IH]; [reflexivity|]. cbn [filter]. rewrite IH.
        destruct (P x) eqn:EP, (Q x) eqn:EQ; cbn [andb filter]; rewrite ?EP; reflexivity. }
      rewrite A3, SP. cbn [filter]. rewrite map_map. unfold low_split at 1, f_h. cbn [fst snd].
      rewrite (proj2 (Nat.leb_le _ _) L). reflexivity.
  Qed.

  Lemma t_permutations_ground u : In u ups ->
    t_permutations lhs t_list h (build_right_z z u low) = Ok (t_uppers, t_lowers u).
  Proof.
    intros Hu.
    assert (D : (exists t, t_list = [t] /\ g_rank t = 0) \/
                t_permutations lhs t_list h (build_right_z z u low)
                = generate_all_valid_eT_connection_permutations lhs t_list h (build_right_z z u low)).
    { unfold t_permutations. clear. destruct t_list as [|t [|t' l]]; [now right| |now right].
      destruct (Nat.eqb (g_rank t) 0) eqn:R; [left|now right]. exists t. split; [reflexivity|now apply Nat.eqb_eq]. }
    destruct D as [(t & ET & R) | ->]; [|now apply connection_perms].
    apply in_ups in Hu as (El & Er & E & H1 & H2 & F0). unfold q in El. unfold t_permutations, t_uppers, t_lowers. rewrite ET in *.
    rewrite R. change (Nat.eqb 0 0) with true. cbn [List.length] in El.
    destruct (zp_t u) as [|x [|]] eqn:EX; try discriminate.
    cbn [map combine] in *. inversion Ht as [|? ? [T1 T2] _]; subst.
    inversion F0 as [|? ? [G1 G2] _]; subst. cbn [fst snd] in *.
    assert (x = 0) by lia. subst x. unfold low_split. cbn [fst snd]. rewrite <- T2, R. reflexivity.
  Qed.

  Definition built (p : gop * nat) : ett :=
    mket (g_rank (fst p)) (g_m (fst p)) (g_n (fst p)) 0 0 0 0 0 (g_n (fst p) - snd p) 0 (snd p).

  Lemma build_t_ground zz : ez_n_t zz = repeat 0 (List.length t_list) -> forall l pre pre_t,
    Forall (fun t => g_m t = 0 /\ g_rank t = g_n t) l -> t_list = pre_t ++ l -> List.length pre = List.length pre_t ->
    forall xs, ez_m_t zz = pre ++ xs -> List.length xs = List.length l ->
    Forall (fun p => snd p <= g_n (fst p)) (combine l xs) ->
    build_t_list s zz (List.length pre) l (map (fun _ => four_zeros) l) (map low_split (combine l xs))
    = Ok (map built (combine l xs)).
  Proof.
    intros EN l. induction l as [|t l IH]; intros pre pre_t Fl ET EP xs EX E F; [reflexivity|].
    destruct xs as [|x xs]; [discriminate|]. injection E as E. apply Forall_cons_iff in Fl as [[T1 T2] Fl'].
    cbn [combine] in F. apply Forall_cons_iff in F as [Hx F']. cbn [fst snd] in Hx.
    cbn [map combine build_t_list]. change (f_sum four_zeros) with 0. change (Nat.eqb 0 0) with true. cbn [negb].
    rewrite T1. change (Nat.eqb 0 0) with true. cbn [negb orb].
    assert (Ed : f_sum (low_split (t, x)) = g_n t) by (unfold f_sum, low_split, f_lhs, f_left, f_h, f_right; cbn [fst snd]; lia).
    rewrite Ed, Nat.eqb_refl. cbn [negb].
    assert (E1 : py_nth (ez_m_t zz) (List.length pre) = Ok x).
    { rewrite EX. unfold py_nth. rewrite nth_error_app2 by lia. now rewrite Nat.sub_diag. }
    assert (E2 : py_nth (ez_n_t zz) (List.length pre) = Ok 0).
    { rewrite EN. unfold py_nth. rewrite nth_error_repeat; [reflexivity|]. rewrite ET, app_length. cbn [List.length]. lia. }
    rewrite E1. cbn [bind]. change (f_right (low_split (t, x))) with x. rewrite Nat.eqb_refl. cbn [negb].
    rewrite E2. cbn [bind]. change (f_right four_zeros) with 0. change (Nat.eqb 0 0) with true. cbn [negb].
    specialize (IH (pre ++ [x]) (pre_t ++ [t])). rewrite !app_length in IH. cbn [List.length] in IH.
    rewrite IH; [| exact Fl' | rewrite <- app_assoc; exact ET | lia | rewrite <- app_assoc; exact EX | exact E | exact F'].
    cbn [bind]. unfold built at 2. cbn [fst snd]. rewrite T1. reflexivity.
  Qed.

  Definition ground_pair (u : zperm) : list ett * etz :=
    (map built (combine t_list (zp_t u)), build_right_z z u low).

  Lemma annotate_ground out perm u : In u ups ->
    annotate_z_pair s lhs h t_list (out, perm) (build_right_z z u low)
    = Ok ((out ++ [ground_pair u])%list, Some (fst (ground_pair u))).
  Proof.
    intros Hu. unfold annotate_z_pair. rewrite t_permutations_ground by exact Hu. cbn [bind fst snd].
    unfold t_uppers, t_lowers. cbn [list_prod map app foldM fst snd].
    pose proof (enough u Hu) as (F & _). apply in_ups in Hu as (El & _).
    pose proof (build_t_ground (build_right_z z u low) eq_refl t_list [] [] Ht eq_refl eq_refl (zp_t u) eq_refl El F) as B.
    cbn [List.length] in B. rewrite B. reflexivity.
  Qed.

  Lemma annotate_triplet_ground :
    annotate_triplet s lhs h (mkcarried [] [] None) (t_list, z)
    = Ok (mkcarried (map ground_pair ups) (map (fun u => build_right_z z u low) ups)
            (match rev ups with [] => None | u :: _ => Some (fst (ground_pair u)) end)).
  Proof.
    unfold annotate_triplet. cbn [c_zs c_out c_perm app]. rewrite right_z_ground.
    erewrite mapM_ok; [cbn [bind]|].
    2:{ intros x Hx. apply in_map_iff in Hx as (u & <- & Hu). rewrite connection_perms by exact Hu.
        instantiate (1 := fun x => (t_uppers, [map low_split (combine t_list (ez_m_t x))])). reflexivity. }
    assert (G : forall l out perm, (forall u, In u l -> In u ups) ->
      foldM (annotate_z_pair s lhs h t_list) (map (fun u => build_right_z z u low) l) (out, perm)
      = Ok ((out ++ map ground_pair l)%list, match rev l with [] => perm | u :: _ => Some (fst (ground_pair u)) end)).
    { induction l as [|u l IH]; intros out perm Hl; [cbn; now rewrite app_nil_r|].
      cbn [map foldM]. rewrite annotate_ground by (apply Hl; now left). cbn [bind].
      rewrite IH by (intros; apply Hl; now right). cbn [rev]. rewrite <- app_assoc. cbn [app]. f_equal. f_equal.
      destruct (rev l); reflexivity. }
    rewrite G by tauto. reflexivity.
  Qed.

  Lemma all_connections_ground :
    generate_all_o_eT_h_z_connection_permutations lhs h [(t_list, z)] s = Ok (map ground_pair ups).
  Proof.
    unfold generate_all_o_eT_h_z_connection_permutations. cbn [foldM]. rewrite annotate_triplet_ground. reflexivity.
  Qed.
End Ground.

(** ** Removing duplicates changes nothing *)
Lemma ett_eqb_eq a b : ett_eqb a b = true <-> a = b.
Proof.
  unfold ett_eqb. rewrite nats_eqb_eq. split; [|now intros ->]. destruct a, b. unfold ett_key. cbn. intros E.
  injection E. intros; now subst.
Qed.
Lemma etz_eqb_eq a b : etz_eqb a b = true <-> a = b.
Proof.
  unfold etz_eqb. rewrite (list_eqb_eq nats_eqb nats_eqb_eq). split; [|now intros ->]. destruct a, b. unfold etz_key. cbn. intros E.
  injection E. intros; now subst.
Qed.
Lemma et_perm_eqb_eq a b : et_perm_eqb a b = true <-> a = b.
Proof.
  unfold et_perm_eqb. rewrite andb_true_iff, (list_eqb_eq ett_eqb ett_eqb_eq), etz_eqb_eq. destruct a, b. cbn [fst snd].
  split; [intros [-> ->]; reflexivity|intros E; injection E; auto].
Qed.
Lemma keep_first_nodup {A} (eqb : A -> A -> bool) (Heq : forall x y, eqb x y = true <-> x = y) l : forall seen,
  NoDup l -> (forall x, In x l -> ~ In x seen) -> keep_first eqb seen l = l.
Proof.
  induction l as [|x l IH]; intros seen N D; [reflexivity|]. inversion N as [|? ? Nx Nl]; subst. cbn [keep_first].
  destruct (existsb (eqb x) seen) eqn:B.
  - apply existsb_exists in B as (y & Hy & E). apply Heq in E. subst y. destruct (D x); [now left|exact Hy].
  - f_equal. apply IH; [exact Nl|]. intros y Hy [->|Hs]; [tauto|]. apply (D y); [now right|exact Hs].
Qed.
Lemma count_nodup {A} (eqb : A -> A -> bool) (Heq : forall x y, eqb x y = true <-> x = y) l x :
  NoDup l -> In x l -> List.length (filter (eqb x) l) = 1.
Proof.
  induction l as [|y l IH]; intros N H; [destruct H|]. inversion N as [|? ? Ny Nl]; subst. cbn [filter].
  destruct (eqb x y) eqn:B.
  - apply Heq in B. subst y. cbn [List.length]. rewrite filter_none; [reflexivity|]. intros y Hy.
    destruct (eqb x y) eqn:B2; [|reflexivity]. apply Heq in B2. now subst.
  - destruct H as [->|H]; [rewrite (proj2 (Heq x x) eq_refl) in B; discriminate|]. now apply IH.
Qed.
Lemma remove_duplicates_nodup l : NoDup (map snd l) ->
  remove_duplicate_t_tuple_permutations l = map (fun p => ((isort ett_leb (fst p), snd p), 1)) l.
Proof.
  intros N. unfold remove_duplicate_t_tuple_permutations.
  set (f := fun p : list ett * etz => (isort ett_leb (fst p), snd p)).
  assert (N2 : NoDup (map f l)).
  { apply (NoDup_map_inv snd). rewrite map_map. exact N. }
  rewrite (keep_first_nodup _ et_perm_eqb_eq) by (auto; intros ? ? []).
  rewrite map_map. apply map_ext_in. intros p Hp. unfold f at 3. f_equal.
  apply (count_nodup _ et_perm_eqb_eq); [exact N2|now apply in_map].
Qed.

(** ** The terms of one h *)
Section Explicit.
  Variable s : side.
  Variable lhs : gop.
  Variable h : hop.
  Variable t_list : list gop.
  Variable z : gop.
  Hypothesis Hlhs : g_m lhs = 0.
  Hypothesis Ht : Forall (fun t => g_m t = 0 /\ g_rank t = g_n t) t_list.
  Hypothesis Hz : g_n z = 0.
  Hypothesis Hbal : h_m h + g_m z = g_n lhs + h_n h + sum_n t_list.

  Definition sorted_ts (u : zperm) : list ett := isort ett_leb (map built (combine t_list (zp_t u))).
  Definition ground_term (u : zperm) : etterm :=
    let ts := sorted_ts u in
    mketterm (mkel (g_n lhs) 0 (g_n lhs) (map et_n_lhs ts) (map et_m_lhs ts) 0 (g_n lhs - zp_lhs u) 0 (zp_lhs u))
      ts
      (mkeh (h_m h + h_n h) (h_m h) (h_n h) (g_n lhs - zp_lhs u) 0 (map et_n_h ts) (map et_m_h ts) 0 (zp_h u))
      (build_right_z z u (low t_list)) 1.

  Lemma explicit_ground u : In u (ups lhs h t_list z) ->
    explicit_eT_connection lhs h (sorted_ts u, build_right_z z u (low t_list), 1)
    = Ok (if Nat.eqb (zp_h u) (h_n h) then Some (ground_term u) else None).
  Proof.
    intros Hu. pose proof (enough lhs h t_list z Hlhs Ht Hz Hbal u Hu) as (F & S & L).
    apply (in_ups lhs h t_list z Hlhs Ht Hz Hbal) in Hu as (El & Er & E & H1 & H2 & F0).
    assert (P : Permutation (map built (combine t_list (zp_t u))) (sorted_ts u)) by apply isort_perm.
    assert (Z : forall (f : ett -> nat), (forall p, In p (combine t_list (zp_t u)) -> f (built p) = 0) -> list_sum (map f (sorted_ts u)) = 0).
    { intros f Hf. rewrite <- (list_sum_perm _ _ (Permutation_map f P)). rewrite map_map. apply list_sum_zeros. exact Hf. }
    assert (N : list_sum (map et_n_h (sorted_ts u)) = list_sum (map (fun p => g_n (fst p) - snd p) (combine t_list (zp_t u)))).
    { rewrite <- (list_sum_perm _ _ (Permutation_map et_n_h P)). rewrite map_map. reflexivity. }
    assert (M1 : list_sum (map et_m (sorted_ts u)) = 0).
    { apply Z. intros [t x] Hp. apply in_combine_l in Hp. rewrite Forall_forall in Ht. cbn. now apply Ht. }
    assert (M2 : list_sum (map et_n (sorted_ts u)) = sum_n t_list).
    { rewrite <- (list_sum_perm _ _ (Permutation_map et_n P)). rewrite map_map. unfold built. cbn [et_n]. clear - El.
      revert El. generalize (zp_t u). unfold sum_n, list_sum.
      induction t_list as [|t l IH]; intros [|x xs] E; try discriminate; [reflexivity|]. injection E as E.
      cbn [combine map fold_right fst]. f_equal. now apply IH. }
    unfold explicit_eT_connection. cbn [ez_n_lhs ez_m_lhs ez_n_h ez_m_h ez_m ez_n build_right_z].
    unfold low. cbn [zp_lhs zp_h].
    rewrite (Z et_n_lhs), (Z et_m_lhs), (Z et_m_h) by reflexivity. rewrite N, M1, M2, Hlhs, Hz.
    set (Y := list_sum (map (fun p => g_n (fst p) - snd p) (combine t_list (zp_t u)))) in *.
    cbn [plus]. rewrite !Nat.add_0_r.
    rewrite (proj2 (Nat.leb_le _ _) H1), (proj2 (Nat.leb_le _ _) H2), (proj2 (Nat.leb_le _ _) L). cbn [Nat.leb andb].
    destruct (Nat.eqb (zp_h u) (h_n h)) eqn:B.
    - apply Nat.eqb_eq in B. rewrite B, Nat.sub_diag.
      assert (E1 : h_m h - Y = g_n lhs - zp_lhs u) by lia.
      rewrite E1, Nat.eqb_refl. cbn [negb]. change (0 - 0) with 0. change (Nat.eqb 0 0) with true. cbn [negb].
      rewrite (proj2 (Nat.eqb_eq _ _) (eq_trans Hbal eq_refl)). cbn [negb]. unfold ground_term. rewrite B.
      f_equal.
    - apply Nat.eqb_neq in B.
      destruct (Nat.eqb (h_m h - Y) (g_n lhs - zp_lhs u)); cbn [negb]; [|reflexivity].
      destruct (Nat.eqb (h_n h - zp_h u) (0 - 0)) eqn:B2; cbn [negb]; [|reflexivity].
      apply Nat.eqb_eq in B2. lia.
  Qed.

  Lemma build_right_inj u u' : build_right_z z u (low t_list) = build_right_z z u' (low t_list) -> u = u'.
  Proof. destruct u, u'. unfold build_right_z. cbn. intros E. injection E. intros; now subst. Qed.

  Definition ground_terms : list etterm :=
    map ground_term (filter (fun u => Nat.eqb (zp_h u) (h_n h)) (ups lhs h t_list z)).

  Lemma ground_terms_ok :
    (do ps <- generate_all_o_eT_h_z_connection_permutations lhs h [(t_list, z)] s;
     generate_explicit_eT_z_connections lhs h (remove_duplicate_t_tuple_permutations ps)) = Ok ground_terms.
  Proof.
    rewrite (all_connections_ground s lhs h t_list z Hlhs Ht Hz Hbal). cbn [bind].
    rewrite remove_duplicates_nodup.
    2:{ rewrite map_map. apply NoDup_map_inj; [apply nodup_ups|]. intros u u' _ _ E. cbn [ground_pair snd] in E.
        now apply build_right_inj in E. }
    rewrite map_map. unfold generate_explicit_eT_z_connections.
    rewrite (concatM_ok _ (fun p => match explicit_eT_connection lhs h p with Ok o => option_list o | Err _ => [] end)).
    2:{ intros p Hp. apply in_map_iff in Hp as (u & <- & Hu). cbn [ground_pair fst snd]. fold (sorted_ts u).
        rewrite explicit_ground by exact Hu. reflexivity. }
    f_equal. unfold ground_terms. rewrite flat_map_concat_map, map_map.
    assert (G : forall l, (forall u, In u l -> In u (ups lhs h t_list z)) ->
      List.concat (map (fun u => match explicit_eT_connection lhs h (isort ett_leb (fst (ground_pair t_list z u)), snd (ground_pair t_list z u), 1) with
                                 | Ok o => option_list o | Err _ => [] end) l)
      = map ground_term (filter (fun u => Nat.eqb (zp_h u) (h_n h)) l)).
    { induction l as [|u l IH]; intros Hl; [reflexivity|]. cbn [map List.concat filter].
      rewrite IH by (intros; apply Hl; now right). cbn [ground_pair fst snd]. fold (sorted_ts u).
      rewrite explicit_ground by (apply Hl; now left). destruct (Nat.eqb (zp_h u) (h_n h)); reflexivity. }
    apply G. tauto.
  Qed.

  Lemma nodup_ground_terms : NoDup ground_terms.
  Proof.
    apply NoDup_map_inj; [apply NoDup_filter, nodup_ups|]. intros u u' _ _ E.
    apply build_right_inj. exact (f_equal tt_z E).
  Qed.
End Explicit.

(** ** Amplitudes t_1 only *)
Definition t1 : gop := mkgop "s_1" 1 0 1.
Definition one : gop := mkgop "1" 0 0 0.
Definition series_of (q : nat) : series_term :=
  match q with 0 => SOne one | 1 => SLin [t1] | _ => SProd [repeat t1 q] end.
Definition ts_of (q : nat) : list gop := match q with 0 => [one] | _ => repeat t1 q end.

Lemma product_repeat_single {A} (x : A) q : product (repeat [x] q) = [repeat x q].
Proof. induction q as [|q IH]; [reflexivity|]. cbn [repeat product flat_map]. rewrite IH. reflexivity. Qed.
Lemma taylor_1 e : 1 <= e -> generate_eT_taylor_expansion 1 e = Ok (map series_of (range 0 (e + 1))).
Proof.
  intros He. unfold generate_eT_taylor_expansion. change (generate_eT_operator 1) with [t1].
  destruct e as [|e]; [lia|]. cbn [Nat.eqb]. f_equal. unfold range.
  replace (S e + 1 - 0) with (S (S e)) by lia. replace (S e + 1 - 2) with e by lia. cbn [seq map]. f_equal. f_equal.
  apply map_ext_in. intros n Hn. apply in_seq in Hn. destruct n as [|[|n]]; [lia|lia|].
  rewrite product_repeat_single. reflexivity.
Qed.
Lemma prepare_series q : prepare_eTz_T_terms (series_of q) = Ok [ts_of q].
Proof. destruct q as [|[|q]]; reflexivity. Qed.

Lemma ts_of_ground q : Forall (fun t => g_m t = 0 /\ g_rank t = g_n t) (ts_of q).
Proof.
  destruct q as [|q]; cbn [ts_of]; [repeat constructor|]. apply Forall_forall. intros t H. apply repeat_spec in H. subst. now split.
Qed.
Lemma sum_n_ts q : sum_n (ts_of q) = q.
Proof.
  destruct q as [|q]; [reflexivity|]. unfold ts_of, sum_n, list_sum.
  assert (G : forall k, fold_right Nat.add 0 (map g_n (repeat t1 k)) = k); [|apply G].
  induction k as [|k IH]; [reflexivity|]. cbn [repeat map fold_right]. rewrite IH. reflexivity.
Qed.
Lemma length_ts q : List.length (ts_of q) = match q with 0 => 1 | _ => q end.
Proof. destruct q; [reflexivity|]. cbn [ts_of]. apply repeat_length. Qed.

Definition bit (x : nat) : Prop := x = 0 \/ x = 1.

Lemma ett_leb_total a b : ett_leb a b = true \/ ett_leb b a = true.
Proof. apply nats_leb_total. Qed.
Lemma ett_leb_trans a b c : ett_leb a b = true -> ett_leb b c = true -> ett_leb a c = true.
Proof. apply nats_leb_trans. Qed.
Lemma ett_leb_antisym a b : ett_leb a b = true -> ett_leb b a = true -> a = b.
Proof. intros H1 H2. apply ett_eqb_eq. apply nats_eqb_eq. now apply nats_leb_antisym. Qed.

Lemma built_bit x : bit x -> built (t1, x) = if Nat.eqb x 1 then t_with_z else t_with_h.
Proof. intros [->| ->]; reflexivity. Qed.

Lemma combine_repeat {A B} (a : A) (xs : list B) : combine (repeat a (List.length xs)) xs = map (pair a) xs.
Proof. induction xs as [|x xs IH]; [reflexivity|]. cbn. now rewrite IH. Qed.

Lemma bits_perm xs : Forall bit xs ->
  Permutation (map (fun x => built (t1, x)) xs)
    (repeat t_with_z (list_sum xs) ++ repeat t_with_h (List.length xs - list_sum xs)) /\ list_sum xs <= List.length xs.
Proof.
  unfold list_sum. induction 1 as [|x xs Hx F [IH L]]; [split; [reflexivity|cbn; lia]|]. cbn [map fold_right List.length].
  rewrite IH. destruct Hx as [->| ->]; (split; [|lia]).
  - cbn [plus]. replace (S (List.length xs) - fold_right Nat.add 0 xs) with (S (List.length xs - fold_right Nat.add 0 xs)) by lia.
    cbn [repeat]. change (built (t1, 0)) with t_with_h. apply Permutation_middle.
  - reflexivity.
Qed.

Lemma sorted_two a b : srt ett_leb (repeat t_with_z a ++ repeat t_with_h b).
Proof.
  assert (G : forall t b, ett_leb t t = true -> srt ett_leb (repeat t b)).
  { intros t b0 R. induction b0 as [|k IH]; [constructor|]. cbn [repeat]. constructor; [exact IH|].
    apply Forall_forall. intros x Hx. apply repeat_spec in Hx. now subst. }
  induction a as [|a IH]; [cbn; now apply G|]. cbn [repeat app]. constructor; [exact IH|].
  apply Forall_forall. intros x Hx. apply in_app_or in Hx as [Hx|Hx]; apply repeat_spec in Hx; now subst.
Qed.

Lemma sort_bits xs : Forall bit xs ->
  isort ett_leb (map (fun x => built (t1, x)) xs)
  = repeat t_with_z (list_sum xs) ++ repeat t_with_h (List.length xs - list_sum xs).
Proof.
  intros F. destruct (bits_perm xs F) as [P _].
  rewrite (isort_ext ett_leb ett_leb_total ett_leb_trans ett_leb_antisym _ _ P).
  apply isort_id; [exact ett_leb_total|exact ett_leb_trans|exact ett_leb_antisym|apply sorted_two].
Qed.

Lemma map_repeat {A B} (f : A -> B) a k : map f (repeat a k) = repeat (f a) k.
Proof. induction k as [|k IH]; [reflexivity|]. cbn [repeat map]. now rewrite IH. Qed.
Lemma ones_minus xs : Forall bit xs -> list_sum xs + list_sum (map (fun x => 1 - x) xs) = List.length xs /\ 
  (forall i, i < List.length xs -> nth i xs 0 + nth i (map (fun x => 1 - x) xs) 0 = 1).
Proof.
  unfold list_sum. induction 1 as [|x xs Hx F [IH1 IH2]]; [split; [reflexivity|cbn; lia]|].
  split; [cbn [map fold_right List.length]; destruct Hx; subst; lia|].
  intros [|i] Hi; cbn [nth map]; [destruct Hx; subst; reflexivity|]. apply IH2. cbn in Hi. lia.
Qed.

(** The contraction of a split of z. *)
Definition contraction_of (P q : nat) (u : zperm) : contraction :=
  let xs := match q with 0 => [] | _ => zp_t u end in
  mkcontraction (zp_lhs u) (zp_h u) xs (P - zp_lhs u) (map (fun x => 1 - x) xs).

Section OneH.
  Variable lhs : gop.
  Variable h : hop.
  Variable q : nat.
  Variable z : gop.
  Hypothesis Hlhs : g_m lhs = 0.
  Hypothesis Hz : g_n z = 0.
  Hypothesis Hzr : g_rank z = g_m z.
  Hypothesis Hbal : h_m h + g_m z = g_n lhs + h_n h + q.

  Lemma bal_ts : h_m h + g_m z = g_n lhs + h_n h + sum_n (ts_of q).
  Proof. rewrite sum_n_ts. exact Hbal. Qed.

  Lemma ups_bits u : In u (ups lhs h (ts_of q) z) ->
    match q with 0 => zp_t u = [0] | _ => List.length (zp_t u) = q /\ Forall bit (zp_t u) end.
  Proof.
    intros H. apply (in_ups lhs h (ts_of q) z Hlhs (ts_of_ground q) Hz bal_ts) in H as (El & _ & _ & _ & _ & F).
    rewrite length_ts in El. destruct q as [|k].
    - destruct (zp_t u) as [|x [|]]; try discriminate. inversion F as [|? ? [G _] _]; subst. cbn in G. f_equal. lia.
    - split; [exact El|]. cbn [ts_of] in F. rewrite <- El, combine_repeat in F.
      apply Forall_forall. intros x Hx. rewrite Forall_forall in F. destruct (F (t1, x)) as [G _]; [now apply in_map|].
      cbn in G. unfold bit. lia.
  Qed.

  Lemma ground_is_written u : In u (ups lhs h (ts_of q) z) -> zp_h u = h_n h ->
    complete (g_n lhs) q (h_m h) (h_n h) (g_m z) (contraction_of (g_n lhs) q u) /\
    ground_term lhs h (ts_of q) z u = written (g_n lhs) q (h_m h) (h_n h) (g_m z) (contraction_of (g_n lhs) q u).
  Proof.
    intros Hu Hn. pose proof (ups_bits u Hu) as B.
    pose proof (enough lhs h (ts_of q) z Hlhs (ts_of_ground q) Hz bal_ts u Hu) as (_ & _ & L).
    apply (in_ups lhs h (ts_of q) z Hlhs (ts_of_ground q) Hz bal_ts) in Hu as (El & Er & E & H1 & H2 & F).
    destruct u as [a t b r]. cbn [zp_lhs zp_t zp_h zp_rest] in *. subst r b.
    destruct q as [|k].
    - subst t. unfold complete, contraction_of. cbn [e_zp e_zh e_zt e_hp e_ht zp_lhs zp_h zp_t map List.length].
      change (list_sum [0]) with 0 in *. change (list_sum []) with 0. split; [repeat split; try lia|].
      unfold ground_term, sorted_ts, written, build_right_z, low. cbn -[Nat.add Nat.sub].
      rewrite Hz, Hzr. reflexivity.
    - destruct B as [Bl B]. destruct (ones_minus t B) as [SS N].
      assert (St : list_sum (map (fun p => g_n (fst p) - snd p) (combine (ts_of (S k)) t)) = list_sum (map (fun x => 1 - x) t)).
      { cbn [ts_of]. rewrite <- Bl, combine_repeat, map_map. reflexivity. }
      unfold complete, contraction_of. cbn [e_zp e_zh e_zt e_hp e_ht zp_lhs zp_h zp_t].
      split.
      { rewrite map_length, Bl. repeat split; try lia. intros i Hi. apply N. lia. }
      assert (T : sorted_ts (ts_of (S k)) (mkzp a t (h_n h) 0)
                  = repeat t_with_z (list_sum t) ++ repeat t_with_h (list_sum (map (fun x => 1 - x) t))).
      { unfold sorted_ts. cbn [zp_t ts_of]. rewrite <- Bl, combine_repeat, map_map, sort_bits by exact B. f_equal. f_equal. lia. }
      assert (M0 : forall (f : ett -> nat), f t_with_z = 0 -> f t_with_h = 0 ->
                   map f (repeat t_with_z (list_sum t) ++ repeat t_with_h (list_sum (map (fun x => 1 - x) t))) = repeat 0 (S k)).
      { intros f F1 F2. rewrite map_app, !map_repeat, F1, F2, <- repeat_app. f_equal. lia. }
      unfold ground_term. rewrite T. unfold written. cbn [e_zp e_zh e_zt e_hp e_ht zp_lhs zp_h zp_t].
      rewrite (M0 et_n_lhs), (M0 et_m_lhs), (M0 et_m_h) by reflexivity. rewrite map_app, !map_repeat. unfold build_right_z, low. cbn [zp_lhs zp_t zp_h zp_rest].
      rewrite length_ts, Hz, Hzr. reflexivity.
  Qed.

  Lemma in_ground_terms t :
    In t (ground_terms lhs h (ts_of q) z) <->
    exists c, complete (g_n lhs) q (h_m h) (h_n h) (g_m z) c /\ t = written (g_n lhs) q (h_m h) (h_n h) (g_m z) c.
  Proof.
    unfold ground_terms. rewrite in_map_iff. split.
    - intros (u & <- & H). apply filter_In in H as [Hu Hn]. apply Nat.eqb_eq in Hn.
      exists (contraction_of (g_n lhs) q u). now apply ground_is_written.
    - intros (c & C & ->). pose proof C as (C1 & C2 & C3 & C4 & C5 & C6 & C7).
      set (u := mkzp (e_zp c) (match q with 0 => [0] | _ => e_zt c end) (e_zh c) 0).
      assert (B : Forall bit (e_zt c) /\ e_ht c = map (fun x => 1 - x) (e_zt c)).
      { assert (G : forall k xs ys, List.length xs = k -> List.length ys = k ->
                      (forall i, i < k -> nth i xs 0 + nth i ys 0 = 1) -> Forall bit xs /\ ys = map (fun x => 1 - x) xs).
        { clear. induction k as [|k IH]; intros [|x xs] [|y ys] E1 E2 N; try discriminate; [split; [constructor|reflexivity]|].
          injection E1 as E1. injection E2 as E2. destruct (IH xs ys E1 E2) as [G1 G2].
          - intros i Hi. apply (N (S i)). lia.
          - pose proof (N 0 ltac:(lia)) as N0. cbn in N0. split; [constructor; [unfold bit; lia|exact G1]|].
            cbn [map]. f_equal; [lia|exact G2]. }
        now apply (G q). }
      destruct B as [B Hy].
      assert (Hc : contraction_of (g_n lhs) q u = c).
      { destruct c as [c1 c2 c3 c4 c5]. cbn in *. unfold contraction_of, u. cbn [zp_lhs zp_h zp_t]. destruct q as [|k].
        - destruct c3; [|discriminate]. subst c5. cbn. f_equal. lia.
        - subst c5. f_equal. lia. }
      assert (Hu : In u (ups lhs h (ts_of q) z)).
      { apply (in_ups lhs h (ts_of q) z Hlhs (ts_of_ground q) Hz bal_ts). unfold u. cbn [zp_lhs zp_h zp_t zp_rest].
        rewrite length_ts. destruct (ones_minus _ B) as [SS _]. destruct q as [|k].
        - destruct (e_zt c); [|discriminate]. change (list_sum []) with 0 in *. change (list_sum [0]) with 0.
          repeat split; try lia. repeat constructor; cbn; lia.
        - repeat split; try lia. cbn [ts_of]. rewrite <- C3, combine_repeat. apply Forall_forall. intros p Hp.
          apply in_map_iff in Hp as (x & <- & Hx). cbn [fst snd]. change (g_n t1) with 1.
          rewrite Forall_forall in B. pose proof (B x Hx) as Bx.
          assert (In (1 - x) (e_ht c)) by (rewrite Hy; now apply (in_map (fun x => 1 - x))).
          assert (1 - x <= list_sum (e_ht c)) by now apply in_le_list_sum. unfold bit in Bx. lia. }
      exists u. split.
      + rewrite <- Hc at 1. now apply ground_is_written.
      + apply filter_In. split; [exact Hu|]. apply Nat.eqb_eq. exact C2.
  Qed.

  (** A complete contraction passes the tests on the counts. *)
  Lemma complete_valid c : complete (g_n lhs) q (h_m h) (h_n h) (g_m z) c ->
    valid_eT_permutation lhs h (ts_of q, z) = true.
  Proof.
    intros (C1 & C2 & C3 & C4 & C5 & C6 & C7). unfold valid_eT_permutation.
    assert (Sm : sum_m (ts_of q) = 0).
    { apply list_sum_zeros. intros t Ht0. pose proof (ts_of_ground q) as G. rewrite Forall_forall in G. now apply G. }
    rewrite Sm, sum_n_ts, Hlhs, Hz.
    assert (E0 : Nat.eqb (0 + h_m h + g_m z + 0) (g_n lhs + h_n h + 0 + q) = true) by (apply Nat.eqb_eq; lia).
    rewrite E0. cbn [negb].
    assert (Sxy : list_sum (e_zt c) + list_sum (e_ht c) = q).
    { clear - C3 C4 C5. revert C3 C4 C5. generalize (e_zt c) (e_ht c). unfold list_sum.
      induction q as [|k IH]; intros [|x xs] [|y ys] E1 E2 N; try discriminate; [reflexivity|].
      injection E1 as E1. injection E2 as E2. pose proof (N 0 ltac:(lia)) as N0. cbn in N0.
      pose proof (IH xs ys E1 E2 (fun i Hi => N (S i) ltac:(lia))) as I. cbn [fold_right]. lia. }
    assert (J1 : z_joining_with_z_terms_eT lhs (ts_of q) h z = false).
    { unfold z_joining_with_z_terms_eT. rewrite Sm, sum_n_ts, Hlhs, Hz. apply orb_false_iff. rewrite !Nat.ltb_ge. lia. }
    assert (J2 : t_joining_with_t_terms_eT lhs (ts_of q) h z = false).
    { unfold t_joining_with_t_terms_eT. rewrite Sm, sum_n_ts, Hlhs, Hz. apply orb_false_iff. rewrite !Nat.ltb_ge. lia. }
    rewrite J1, J2. unfold omega_joining_with_itself_eT. rewrite Hlhs. cbn [Nat.eqb orb].
    unfold h_joining_with_itself_eT. destruct (Nat.eqb (h_m h) 0 || Nat.eqb (h_n h) 0) eqn:B; [reflexivity|].
    apply orb_false_iff in B as [B1 B2]. apply Nat.eqb_neq in B1, B2.
    assert (L1 : Nat.ltb 0 (h_n h) = true) by (apply Nat.ltb_lt; lia).
    assert (L2 : Nat.ltb 0 (g_m z) = true) by (apply Nat.ltb_lt; lia).
    rewrite L1, L2. rewrite orb_true_r. reflexivity.
  Qed.
End OneH.

(** ** All terms *)
Lemma filter_unique {A} (key : A -> nat) (f : A -> bool) K l :
  NoDup (map key l) -> (forall x, In x l -> f x = true -> key x = K) ->
  filter f l = [] \/ exists x, filter f l = [x] /\ In x l /\ f x = true.
Proof.
  induction l as [|x l IH]; intros N Hk; [now left|]. cbn [map] in N. inversion N as [|? ? Nx Nl]; subst.
  destruct (IH Nl) as [E|(y & E & Hy & Fy)]; [intros; apply Hk; auto; now right| |].
  - cbn [filter]. rewrite E. destruct (f x) eqn:B; [|now left]. right. exists x. repeat split; auto. now left.
  - cbn [filter]. rewrite E. destruct (f x) eqn:B.
    + exfalso. apply Nx. rewrite (Hk x) by (auto; now left). rewrite <- (Hk y) by (auto; now right). now apply in_map.
    + right. exists y. repeat split; auto. now right.
Qed.

Section AllH.
  Variable s : side.
  Variable lhs : gop.
  Variable q : nat.
  Variable H : list hop.
  Variable Z : list gop.
  Hypothesis Hlhs : g_m lhs = 0.
  Hypothesis HZ : Forall (fun z => g_n z = 0 /\ g_rank z = g_m z) Z.
  Hypothesis NZ : NoDup (map g_m Z).
  Hypothesis ZZ : Z <> [].

  Definition h_step (h : hop) : res (list etterm) :=
    match s, h_n h with
    | LHS, S _ => Ok []
    | _, _ =>
        match generate_valid_eT_z_n_operator_permutations lhs [ts_of q] h Z with
        | [] => Ok []
        | valid =>
            do ps <- generate_all_o_eT_h_z_connection_permutations lhs h valid s;
            generate_explicit_eT_z_connections lhs h (remove_duplicate_t_tuple_permutations ps)
        end
    end.

  (** which contractions belong to the side: the left hand side has no
      annihilation operators in its derivative *)
  Definition on_side (h : hop) : Prop := s = LHS -> h_n h = 0.

  Definition emits (h : hop) (t : etterm) : Prop :=
    on_side h /\ exists z c, In z Z /\ complete (g_n lhs) q (h_m h) (h_n h) (g_m z) c /\
      t = written (g_n lhs) q (h_m h) (h_n h) (g_m z) c.

  Lemma complete_balance P m n k c : complete P q m n k c -> m + k = P + n + q.
  Proof.
    intros (C1 & C2 & C3 & C4 & C5 & C6 & C7).
    assert (Sxy : list_sum (e_zt c) + list_sum (e_ht c) = q).
    { clear - C3 C4 C5. revert C3 C4 C5. generalize (e_zt c) (e_ht c). unfold list_sum.
      induction q as [|k IH]; intros [|x xs] [|y ys] E1 E2 N; try discriminate; [reflexivity|].
      injection E1 as E1. injection E2 as E2. pose proof (N 0 ltac:(lia)) as N0. cbn in N0.
      pose proof (IH xs ys E1 E2 (fun i Hi => N (S i) ltac:(lia))) as I. cbn [fold_right]. lia. }
    lia.
  Qed.

  Lemma valid_balance h z : In z Z -> valid_eT_permutation lhs h (ts_of q, z) = true ->
    h_m h + g_m z = g_n lhs + h_n h + q.
  Proof.
    intros Iz V. unfold valid_eT_permutation in V. rewrite sum_n_ts, Hlhs in V.
    assert (Sm : sum_m (ts_of q) = 0).
    { apply list_sum_zeros. intros t Ht0. pose proof (ts_of_ground q) as G. rewrite Forall_forall in G. now apply G. }
    rewrite Sm in V. rewrite Forall_forall in HZ. destruct (HZ z Iz) as [Zn _]. rewrite Zn in V.
    destruct (Nat.eqb (0 + h_m h + g_m z + 0) (g_n lhs + h_n h + 0 + q)) eqn:B; [|discriminate].
    apply Nat.eqb_eq in B. lia.
  Qed.

  Lemma h_step_exact h : exists l, h_step h = Ok l /\ NoDup l /\ forall t, In t l <-> emits h t.
  Proof.
    assert (Skip : s = LHS -> h_n h <> 0 -> exists l, Ok (@nil etterm) = Ok l /\ NoDup l /\ forall t, In t l <-> emits h t).
    { intros Es En. exists []. split; [reflexivity|split; [constructor|]]. intros t. split; [intros []|]. intros [O _]. destruct (En (O Es)). }
    assert (Keep : (s = LHS -> h_n h = 0) -> exists l,
      match generate_valid_eT_z_n_operator_permutations lhs [ts_of q] h Z with
        | [] => Ok []
        | valid =>
            do ps <- generate_all_o_eT_h_z_connection_permutations lhs h valid s;
            generate_explicit_eT_z_connections lhs h (remove_duplicate_t_tuple_permutations ps)
        end = Ok l /\ NoDup l /\ forall t, In t l <-> emits h t).
    { intros On. unfold generate_valid_eT_z_n_operator_permutations.
      cbn [list_prod]. rewrite app_nil_r, filter_map_comm.
      destruct (filter_unique g_m (fun z => valid_eT_permutation lhs h (ts_of q, z)) (g_n lhs + h_n h + q - h_m h) Z NZ) as [E|(z & E & Iz & V)].
      { intros z Iz V. pose proof (valid_balance h z Iz V). lia. }
      - rewrite E. cbn [map]. exists []. split; [reflexivity|split; [constructor|]]. intros t. split; [intros []|]. intros (_ & z & c & Iz & C & _).
        assert (In z []) as []. rewrite <- E. apply filter_In. split; [exact Iz|].
        rewrite Forall_forall in HZ. destruct (HZ z Iz) as [Zn Zr].
        apply (complete_valid lhs h q z) with (c := c); auto. now apply (complete_balance _ _ _ _ c).
      - rewrite E. cbn [map]. pose proof HZ as HZ'. rewrite Forall_forall in HZ'. destruct (HZ' z Iz) as [Zn Zr].
        pose proof (valid_balance h z Iz V) as B.
        exists (ground_terms lhs h (ts_of q) z). split; [|split].
        + apply ground_terms_ok; auto using ts_of_ground. now rewrite sum_n_ts.
        + apply nodup_ground_terms.
        + intros t. rewrite (in_ground_terms lhs h q z Hlhs Zn Zr B). split.
          * intros (c & C & ->). split; [exact On|]. exists z, c. auto.
          * intros (_ & z' & c & Iz' & C & ->). assert (z' = z) as ->; [|exists c; auto].
            pose proof (complete_balance _ _ _ _ c C) as B'.
            assert (K : g_m z' = g_m z) by lia. clear - NZ Iz Iz' K.
            induction Z as [|y l IH]; [destruct Iz|]. cbn [map] in NZ. inversion NZ as [|? ? N1 N2]; subst.
            destruct Iz as [->|Iz], Iz' as [->|Iz']; auto.
            -- destruct N1. rewrite <- K. now apply in_map.
            -- destruct N1. rewrite K. now apply in_map. }
    unfold h_step. destruct s; destruct (h_n h) eqn:En; try (apply Keep; congruence). apply Skip; congruence.
  Qed.

  Lemma filter_step : filter_out_valid_eTz_terms lhs (series_of q) H Z s = concatM h_step H.
  Proof.
    unfold filter_out_valid_eTz_terms. destruct Z as [|z0 Z0] eqn:EZ; [congruence|]. rewrite <- EZ.
    rewrite prepare_series. cbn [bind]. unfold h_step. rewrite EZ. reflexivity.
  Qed.

  Lemma terms_exact : exists l, filter_out_valid_eTz_terms lhs (series_of q) H Z s = Ok l /\
    (forall t, In t l <-> exists h, In h H /\ emits h t) /\
    (NoDup (map (fun h => (h_m h, h_n h)) H) -> NoDup l).
  Proof.
    rewrite filter_step. unfold concatM.
    assert (G : exists ls, mapM h_step H = Ok ls /\ Forall2 (fun h l => NoDup l /\ forall t, In t l <-> emits h t) H ls).
    { induction H as [|h l IH]; [exists []; split; [reflexivity|constructor]|].
      destruct IH as (ls & E & F). destruct (h_step_exact h) as (x & Ex & Nx & Ix). exists (x :: ls).
      cbn [mapM]. rewrite Ex. cbn [bind]. rewrite E. split; [reflexivity|]. constructor; auto. }
    destruct G as (ls & E & F). exists (List.concat ls). rewrite E. split; [reflexivity|]. clear E.
    induction F as [|h x H' ls' [Nx Ix] F [IH1 IH2]]; [split; [intros t; split; [intros []|intros (? & [] & _)]|constructor]|].
    cbn [List.concat]. split.
    - intros t. rewrite in_app_iff, IH1, Ix. split.
      + intros [E|(h' & I & E)]; [exists h|exists h']; split; auto; [now left|now right].
      + intros (h' & [->|I] & E); [now left|right; exists h'; auto].
    - cbn [map]. intros N. inversion N as [|? ? N1 N2]; subst. apply NoDup_app_intro; auto.
      intros t Hx Hl. apply Ix in Hx as (_ & z & c & _ & _ & ->). apply IH1 in Hl as (h' & I & _ & z' & c' & _ & _ & E).
      apply (f_equal tt_h) in E. unfold written in E. cbn [tt_h] in E. injection E. intros. apply N1.
      replace (h_m h, h_n h) with (h_m h', h_n h') by congruence. apply (in_map (fun h => (h_m h, h_n h))). exact I.
  Qed.
End AllH.

(** ** Statements *)
Lemma et_terms_exact s lhs e ser q st H Z :
  g_m lhs = 0 -> ground_z Z -> distinct_h H ->
  generate_eT_taylor_expansion 1 e = Ok ser -> nth_error ser q = Some st ->
  exists l, filter_out_valid_eTz_terms lhs st H Z s = Ok l /\ NoDup l /\
    forall t, In t l <-> contraction_of_lists s (g_n lhs) q H Z t.
Proof.
  intros Hlhs (Z1 & Z2 & Z3) HH ET EQ.
  assert (He : 1 <= e) by (destruct e; [discriminate|lia]).
  rewrite (taylor_1 e He) in ET. injection ET as <-.
  assert (st = series_of q) as ->.
  { rewrite nth_error_map in EQ. unfold range in EQ. rewrite Nat.sub_0_r in EQ.
    assert (L : q < e + 1).
    { destruct (Nat.lt_ge_cases q (e + 1)) as [L|L]; [exact L|].
      rewrite (proj2 (nth_error_None (seq 0 (e + 1)) q)) in EQ by (rewrite seq_length; exact L). discriminate. }
    assert (N : nth_error (seq 0 (e + 1)) q = Some q).
    { rewrite (nth_error_nth' _ 0) by (rewrite seq_length; exact L). f_equal. now rewrite seq_nth. }
    rewrite N in EQ. cbn in EQ. congruence. }
  destruct (terms_exact s lhs q H Z Hlhs Z2 Z3 Z1) as (l & E & I & N). exists l. split; [exact E|]. split; [now apply N|].
  intros t. rewrite I. unfold contraction_of_lists, emits. split.
  - intros (h & Hh & O & z & c & Hz & C & ->). exists h, z, c. repeat split; auto; apply C.
  - intros (h & z & c & Hh & Hz & O & C & ->). exists h. split; [exact Hh|]. split; [exact O|]. exists z, c. auto.
Qed.

Lemma sum_bits xs : forall ys k, List.length xs = k -> List.length ys = k ->
  (forall i, i < k -> nth i xs 0 + nth i ys 0 = 1) -> Forall bit xs /\ list_sum xs + list_sum ys = k.
Proof.
  induction xs as [|x xs IH]; intros [|y ys] [|k] E1 E2 N; try discriminate; [split; [constructor|reflexivity]|].
  injection E1 as E1. injection E2 as E2. pose proof (N 0 ltac:(lia)) as N0. cbn in N0.
  destruct (IH ys k E1 E2) as [F S]; [intros i Hi; apply (N (S i)); lia|].
  split; [constructor; [unfold bit; lia|exact F]|]. unfold list_sum in *. cbn [fold_right]. lia.
Qed.
Lemma bits_count xs : Forall bit xs -> Permutation xs (repeat 1 (list_sum xs) ++ repeat 0 (List.length xs - list_sum xs)) /\ list_sum xs <= List.length xs.
Proof.
  unfold list_sum. induction 1 as [|x xs Hx F [IH L]]; [split; [reflexivity|cbn; lia]|]. cbn [fold_right List.length].
  rewrite IH at 1. destruct Hx as [->| ->]; (split; [|lia]).
  - cbn [plus]. replace (S (List.length xs) - fold_right Nat.add 0 xs) with (S (List.length xs - fold_right Nat.add 0 xs)) by lia.
    cbn [repeat]. apply Permutation_middle.
  - reflexivity.
Qed.

Lemma sum_repeat0 k : list_sum (repeat 0 k) = 0.
Proof. induction k; [reflexivity|]. exact IHk. Qed.
Lemma sum_repeat1 k : list_sum (repeat 1 k) = k.
Proof. unfold list_sum in *. induction k as [|k IH]; [reflexivity|]. cbn [repeat fold_right]. rewrite IH. reflexivity. Qed.
Lemma list_sum_app a b : list_sum (a ++ b) = list_sum a + list_sum b.
Proof. unfold list_sum. induction a as [|x a IH]; [reflexivity|]. cbn [app fold_right]. rewrite IH. lia. Qed.

Lemma written_consistent P q m n k c : complete P q m n k c -> consistent (written P q m n k c).
Proof.
  intros (C1 & C2 & C3 & C4 & C5 & C6 & C7). destruct (sum_bits _ _ _ C3 C4 C5) as [B S].
  unfold consistent, written. cbn [tt_lhs tt_ts tt_h tt_z el_m el_n el_rank el_m_h el_n_h el_m_r el_n_r el_m_t el_n_t
    eh_m eh_n eh_rank eh_m_lhs eh_n_lhs eh_m_r eh_n_r eh_m_t eh_n_t ez_m ez_n ez_rank ez_m_lhs ez_n_lhs ez_m_h ez_n_h ez_m_t ez_n_t].
  destruct q as [|q].
  - destruct (e_zt c) as [|]; [|discriminate]. destruct (e_ht c) as [|]; [|discriminate]. change (list_sum []) with 0 in *.
    change (list_sum [0]) with 0. repeat split; try lia; repeat constructor.
  - destruct (bits_count _ B) as [Pm L]. rewrite C3 in Pm.
    rewrite list_sum_app, !sum_repeat0, sum_repeat1. cbn [plus].
    assert (M0 : forall (f : ett -> nat), f t_with_z = 0 -> f t_with_h = 0 ->
                 map f (repeat t_with_z (list_sum (e_zt c)) ++ repeat t_with_h (list_sum (e_ht c))) = repeat 0 (Datatypes.S q)).
    { intros f F1 F2. rewrite map_app, !map_repeat, F1, F2, <- repeat_app. f_equal. lia. }
    rewrite (M0 et_n_lhs), (M0 et_m_lhs), (M0 et_m_h), (M0 et_m_r) by reflexivity.
    rewrite !map_app, !map_repeat.
    repeat split; try lia; try reflexivity.
    + apply Forall_forall. intros t Ht. apply in_app_or in Ht as [Ht|Ht]; apply repeat_spec in Ht; subst; repeat split.
    + etransitivity; [exact Pm|]. replace (Datatypes.S q - list_sum (e_zt c)) with (list_sum (e_ht c)) by lia. reflexivity.
Qed.

Lemma et_terms_consistent s lhs e ser st H Z l t :
  g_m lhs = 0 -> ground_z Z -> distinct_h H ->
  generate_eT_taylor_expansion 1 e = Ok ser -> In st ser ->
  filter_out_valid_eTz_terms lhs st H Z s = Ok l -> In t l -> consistent t.
Proof.
  intros Hlhs HZ HH ET IS E It. apply In_nth_error in IS as (q & EQ).
  destruct (et_terms_exact s lhs e ser q st H Z Hlhs HZ HH ET EQ) as (l' & E' & _ & I). rewrite E in E'. injection E' as <-.
  apply I in It as (h & z & c & _ & _ & _ & C & ->). now apply written_consistent.
Qed.

(** ** Operators *)
Lemma s_name_0 n : 1 <= n -> s_name 0 n = ("s_" +++ str_nat n)%string.
Proof. intros Hn. unfold s_name. destruct n; [lia|]. reflexivity. Qed.

Lemma eT_operators_exact r :
  NoDup (generate_eT_operator r) /\ forall t, In t (generate_eT_operator r) <-> eT_operator r t.
Proof.
  unfold generate_eT_operator. split.
  - apply NoDup_map_inj; [apply NoDup_filter, seq_NoDup|]. intros x y _ _ [= _ E]. exact E.
  - intros t. rewrite in_map_iff. unfold eT_operator. split.
    + intros (n & <- & H). apply filter_In in H as [H1 H2]. apply in_range in H1. apply negb_true_iff, Nat.eqb_neq in H2.
      cbn [g_name g_rank g_m g_n]. rewrite s_name_0 by lia. repeat split; lia.
    + destruct t as [nm rk m n]. cbn [g_name g_rank g_m g_n]. intros (-> & -> & -> & Hn). exists n. split.
      * rewrite s_name_0 by lia. reflexivity.
      * apply filter_In. split; [apply in_range; lia|]. apply negb_true_iff, Nat.eqb_neq. lia.
Qed.

Lemma nodup_product {A} (T : list A) k : NoDup T -> NoDup (product (repeat T k)).
Proof.
  intros N. induction k as [|k IH]; [repeat constructor; tauto|]. cbn [repeat product]. apply NoDup_flat_map; [exact N| |].
  - intros x _. apply NoDup_map_inj; [exact IH|]. intros ? ? _ _ [= E]. exact E.
  - intros x y p _ _ H1 H2. apply in_map_iff in H1 as (? & <- & _). apply in_map_iff in H2 as (? & E & _). congruence.
Qed.
Lemma in_product_repeat {A} (T : list A) k p : In p (product (repeat T k)) <-> List.length p = k /\ Forall (fun x => In x T) p.
Proof.
  rewrite in_product. revert p. induction k as [|k IH]; intros p; cbn [repeat].
  - split; [intros H; inversion H; auto|]. intros [E _]. destruct p; [constructor|discriminate].
  - split.
    + intros H. inversion H as [|x ? l ? Hx Hl]; subst. apply IH in Hl as [E F]. cbn [List.length]. split; [lia|]. now constructor.
    + intros [E F]. destruct p as [|x p]; [discriminate|]. inversion F; subst. constructor; [assumption|]. apply IH. cbn in E. split; [lia|assumption].
Qed.

(** what [_prepare_eTz_T_terms] makes of an entry of the series *)
Lemma eT_expansion_exact r e :
  (e = 0 -> generate_eT_taylor_expansion r e = Err IndexErr) /\
  (1 <= e -> exists ser, generate_eT_taylor_expansion r e = Ok ser /\ List.length ser = e + 1 /\
     (exists one, nth_error ser 0 = Some (SOne one) /\ g_rank one = 0 /\ g_m one = 0 /\ g_n one = 0) /\
     (forall st, nth_error ser 1 = Some st -> exists l, st = SLin l /\ NoDup l /\ forall t, In t l <-> eT_operator r t) /\
     (forall k st, 2 <= k -> nth_error ser k = Some st -> exists l, st = SProd l /\ eT_power r k l)).
Proof.
  destruct (eT_operators_exact r) as [NT IT]. split; [intros ->; reflexivity|]. intros He.
  unfold generate_eT_taylor_expansion. destruct e as [|e]; [lia|]. cbn [Nat.eqb]. eexists. split; [reflexivity|].
  split; [|split; [|split]].
  - cbn [List.length]. rewrite map_length. unfold range. rewrite seq_length. lia.
  - exists (mkgop "1" 0 0 0). repeat split.
  - intros st [= <-]. exists (generate_eT_operator r). auto.
  - intros [|[|k]] st Hk; [lia|lia|]. cbn [nth_error]. rewrite nth_error_map. unfold range.
    destruct (nth_error (seq 2 (S e + 1 - 2)) k) as [n|] eqn:En; [|discriminate]. cbn. intros [= <-].
    assert (n = S (S k)) as ->.
    { assert (L : k < S e + 1 - 2) by (rewrite <- (seq_length (S e + 1 - 2) 2); apply nth_error_Some; congruence).
      rewrite (nth_error_nth' _ 0) in En by (rewrite seq_length; exact L). injection En as <-. now rewrite seq_nth. }
    exists (product (repeat (generate_eT_operator r) (S (S k)))). split; [reflexivity|]. split; [now apply nodup_product|].
    intros l. rewrite in_product_repeat. split; intros [E F]; (split; [exact E|]); (eapply Forall_impl; [|exact F]); intros t; apply IT.
Qed.

(** the operators of the ansatz *)
Lemma hamiltonian_distinct H : distinct_h (generate_full_cc_hamiltonian_operator H).
Proof.
  unfold distinct_h, generate_full_cc_hamiltonian_operator. rewrite map_map. cbn [h_m h_n].
  rewrite (map_ext _ (fun mn => mn)) by (intros [m n]; reflexivity). rewrite map_id. apply nodup_mn_pairs.
Qed.
Lemma pruned_distinct H : distinct_h (generate_pruned_H_operator H).
Proof.
  unfold distinct_h, generate_pruned_H_operator. pose proof (hamiltonian_distinct H) as N. unfold distinct_h in N. revert N.
  generalize (generate_full_cc_hamiltonian_operator H). intros l. induction l as [|h l IH]; intros N; [constructor|].
  cbn [map] in N. inversion N as [|? ? N1 N2]; subst. cbn [filter]. destruct (Nat.ltb (h_rank h) 3 || Nat.eqb (h_m h) 0); [|auto].
  cbn [map]. constructor; [|auto]. intros I. apply N1. apply in_map_iff in I as (x & E & Hx). apply filter_In in Hx as [Hx _].
  rewrite <- E. now apply (in_map (fun h => (h_m h, h_n h))).
Qed.
Lemma z_ground cc g : ground_z (filter (fun z => Nat.eqb (g_n z) 0) (generate_z_operator cc g)) /\
  forall k, (exists z, In z (filter (fun z => Nat.eqb (g_n z) 0) (generate_z_operator cc g)) /\ g_m z = k) <-> k <= cc.
Proof.
  destruct (z_operators_exact cc g) as [N I].
  assert (E : forall k, (exists z, In z (filter (fun z => Nat.eqb (g_n z) 0) (generate_z_operator cc g)) /\ g_m z = k) <-> k <= cc).
  { intros k. split.
    - intros (z & Hz & <-). apply filter_In in Hz as [Hz _]. apply I in Hz as (_ & _ & A & _). lia.
    - intros Hk. exists (mkgop (z_name k 0) k k 0). split; [|reflexivity]. apply filter_In. split; [|reflexivity].
      apply I. split; [|split; [cbn; lia|split; [cbn; lia|reflexivity]]].
      unfold SpecZhz.z_spelling, z_name. cbn [g_m g_n g_name]. destruct k; reflexivity. }
  split; [|exact E]. unfold ground_z. split; [|split].
  - intros E0. destruct (proj2 (E 0) ltac:(lia)) as (z & Hz & _). rewrite E0 in Hz. destruct Hz.
  - apply Forall_forall. intros z Hz. apply filter_In in Hz as [Hz B]. apply Nat.eqb_eq in B. apply I in Hz as (_ & R & _). lia.
  - apply NoDup_map_inj; [now apply NoDup_filter|]. intros x y Hx Hy Exy. apply filter_In in Hx as [Hx Bx], Hy as [Hy By].
    apply Nat.eqb_eq in Bx, By. apply I in Hx as (Sx & Rx & _), Hy as (Sy & Ry & _). unfold SpecZhz.z_spelling in Sx, Sy.
    destruct x as [nx rx mx ox], y as [ny ry my oy]. cbn in *. subst. reflexivity.
Qed.
Lemma z_filter_ground cc : filter (fun z => Nat.eqb (g_n z) 0) (generate_z_operator cc true) = generate_z_operator cc true.
Proof.
  assert (G : forall l : list gop, (forall z, In z l -> g_n z = 0) -> filter (fun z => Nat.eqb (g_n z) 0) l = l).
  { induction l as [|x l IH]; intros Hl; [reflexivity|]. cbn [filter]. rewrite Hl by now left. cbn [Nat.eqb]. f_equal. apply IH. intros; apply Hl; now right. }
  apply G. intros z Hz. apply (proj2 (z_operators_exact cc true)) in Hz as (_ & _ & _ & A). now apply A.
Qed.

(** ** Counterexamples *)
Lemma positions_refuted :
  exists ser st l t, generate_eT_taylor_expansion 1 2 = Ok ser /\ In st ser /\
    filter_out_valid_eTz_terms (mkgop "" 0 0 0) st (generate_full_cc_hamiltonian_operator 1)
      (generate_z_operator 1 true) RHS = Ok l /\ In t l /\ consistent t /\ ~ z_positions_agree t.
Proof.
  exists (map series_of (range 0 3)), (series_of 2). eexists. exists (written 0 2 1 0 1 (mkcontraction 0 0 [0; 1] 0 [1; 0])).
  split; [reflexivity|]. split; [cbn; auto|]. split; [vm_compute; reflexivity|]. split; [vm_compute; auto|]. split.
  - apply written_consistent. repeat split. intros [|[|i]] Hi; [reflexivity|reflexivity|cbn in Hi; lia].
  - intros [H _]. discriminate H.
Qed.
Definition z_and_ts_agree (t : etterm) : bool :=
  nats_eqb (isort Nat.leb (ez_m_t (tt_z t))) (isort Nat.leb (map et_n_r (tt_ts t))).
Lemma two_amplitudes_refuted :
  exists ser st l t, generate_eT_taylor_expansion 2 2 = Ok ser /\ In st ser /\
    filter_out_valid_eTz_terms (mkgop "" 0 0 0) st (generate_pruned_H_operator 1)
      (generate_z_operator 3 true) LHS = Ok l /\ In t l /\ ~ consistent t.
Proof.
  assert (W : exists t ser st l, generate_eT_taylor_expansion 2 2 = Ok ser /\ nth_error ser 2 = Some st /\
    filter_out_valid_eTz_terms (mkgop "" 0 0 0) st (generate_pruned_H_operator 1) (generate_z_operator 3 true) LHS = Ok l /\
    hd_error (filter (fun t => negb (z_and_ts_agree t)) l) = Some t).
  { do 4 eexists. split; [vm_compute; reflexivity|]. split; [reflexivity|]. split; [vm_compute; reflexivity|]. vm_compute. reflexivity. }
  destruct W as (t & ser & st & l & E1 & E2 & E3 & E4). exists ser, st, l, t.
  split; [exact E1|]. split; [now apply nth_error_In in E2|]. split; [exact E3|].
  assert (In t (filter (fun t => negb (z_and_ts_agree t)) l)) as I.
  { destruct (filter (fun t => negb (z_and_ts_agree t)) l) as [|x r]; [discriminate|]. injection E4 as ->. now left. }
  apply filter_In in I as [I B]. split; [exact I|]. intros C. apply negb_true_iff in B. unfold z_and_ts_agree in B.
  assert (nats_eqb (isort Nat.leb (ez_m_t (tt_z t))) (isort Nat.leb (map et_n_r (tt_ts t))) = true); [|congruence].
  apply nats_eqb_eq. apply isort_ext; [exact nat_leb_total|exact nat_leb_trans|exact nat_leb_antisym|]. unfold consistent in C. tauto.
Qed.
Lemma two_amplitudes_fail :
  exists ser st, generate_eT_taylor_expansion 2 2 = Ok ser /\ In st ser /\
    filter_out_valid_eTz_terms (mkgop "" 0 0 0) st (generate_full_cc_hamiltonian_operator 1)
      (generate_z_operator 3 true) RHS = Err NotImplementedErr.
Proof.
  do 2 eexists. split; [vm_compute; reflexivity|]. split; [right; right; left; reflexivity|]. vm_compute. reflexivity.
Qed.
