(** Proofs about the generation of the full coupled cluster terms. *)
From Coq Require Import Sorted.
From Verif Require Import PyBase PyBaseFacts ModelFullCC SpecFullCC ProofsHelper ProofsW ProofsLatexW.

(** ** Small facts *)

Lemma total_list_sum {A} (f : A -> nat) l : list_sum (map f l) = total f l.
Proof. induction l as [|x r IH]; cbn; [reflexivity|]. unfold total in IH. now rewrite <- IH. Qed.

Lemma total_perm {A} (f : A -> nat) l l' : Permutation l l' -> total f l = total f l'.
Proof. intros P. rewrite <- !total_list_sum. apply list_sum_perm, Permutation_map, P. Qed.

Lemma in_mn_pairs r m n : In (m, n) (mn_pairs r) <-> m + n <= r.
Proof.
  unfold mn_pairs. rewrite in_flat_map. split.
  - intros [a [Ha Hb]]. apply in_map_iff in Hb as [b [E Hb]]. injection E as -> ->.
    rewrite in_range in *. lia.
  - intros H. exists m. rewrite in_range. split; [lia|].
    apply in_map_iff. exists n. split; [reflexivity|]. rewrite in_range. lia.
Qed.

Lemma nodup_range a b : NoDup (range a b).
Proof. apply seq_NoDup. Qed.

Lemma nodup_mn_pairs r : NoDup (mn_pairs r).
Proof.
  unfold mn_pairs. apply NoDup_flat_map.
  - apply nodup_range.
  - intros a _. apply NoDup_map_inj; [apply nodup_range|]. intros x y _ _ E. now injection E.
  - intros x y z _ _ Hx Hy. apply in_map_iff in Hx as [? [<- _]]. apply in_map_iff in Hy as [? [E _]].
    now injection E.
Qed.

Lemma tamp_eqb_eq a b : tamp_eqb a b = true <-> a = b.
Proof.
  unfold tamp_eqb. rewrite nats_eqb_eq. destruct a, b; unfold tkey4; cbn.
  split; [intros [= -> -> -> ->]; reflexivity|now intros [= -> -> -> ->]].
Qed.

Lemma tamps_eqb_eq a b : tamps_eqb a b = true <-> a = b.
Proof. apply list_eqb_eq, tamp_eqb_eq. Qed.

Lemma tamp_leb_total x y : tamp_leb x y = true \/ tamp_leb y x = true.
Proof. apply nats_leb_total. Qed.
Lemma tamp_leb_trans x y z : tamp_leb x y = true -> tamp_leb y z = true -> tamp_leb x z = true.
Proof. apply nats_leb_trans. Qed.
Lemma tamp_leb_antisym x y : tamp_leb x y = true -> tamp_leb y x = true -> x = y.
Proof.
  intros H1 H2. pose proof (nats_leb_antisym _ _ H1 H2) as E. destruct x, y; unfold tkey4 in E; cbn in E.
  now injection E as -> -> -> ->.
Qed.

Lemma tamp_leb_le a b : tamp_leb a b = true <-> tamp_le a b.
Proof.
  destruct a as [a1 a2 a3 a4], b as [b1 b2 b3 b4]; unfold tamp_leb, nats_leb, tkey4, tamp_le; cbn.
  repeat match goal with |- context [Nat.eqb ?x ?y] => destruct (Nat.eqb_spec x y) end;
    rewrite ?Nat.leb_le; intuition lia.
Qed.

Lemma in_order_isort l : in_order (isort tamp_leb l).
Proof.
  unfold in_order.
  pose proof (isort_sorted tamp_leb tamp_leb_total tamp_leb_trans l) as H. unfold srt in H.
  induction H as [|x r Hs IH Hf]; constructor; auto.
  rewrite Forall_forall in *. intros y Hy. apply tamp_leb_le, Hf, Hy.
Qed.

Lemma isort_in_order l : in_order l -> isort tamp_leb l = l.
Proof.
  intros H. apply (isort_id tamp_leb tamp_leb_total tamp_leb_trans tamp_leb_antisym). unfold srt.
  induction H as [|x r Hs IH Hf]; constructor; auto.
  rewrite Forall_forall in *. intros y Hy. apply tamp_leb_le, Hf, Hy.
Qed.

Lemma isort_tamp_ext l l' : Permutation l l' -> isort tamp_leb l = isort tamp_leb l'.
Proof. apply (isort_ext tamp_leb tamp_leb_total tamp_leb_trans tamp_leb_antisym). Qed.

(** ** Connections *)

(** The amplitude a is the operator s with its indices distributed. *)
Definition distributes (s : gop) (a : tamp) : Prop := g_m s = up a /\ g_n s = down a.

Lemma in_splits M p : In p (splits M) <-> fst p + snd p = M.
Proof.
  unfold splits. rewrite in_map_iff. split.
  - intros [i [<- Hi]]. rewrite in_range in Hi. cbn. lia.
  - destruct p as [a b]; cbn. intros <-. exists a. rewrite in_range. split; [f_equal; lia|lia].
Qed.

Lemma in_product_splits (f : gop -> nat) l p :
  In p (product (map (fun s => splits (f s)) l)) <-> Forall2 (fun s q => fst q + snd q = f s) l p.
Proof.
  rewrite in_product. revert p. induction l as [|s r IH]; intros p; cbn.
  - split; intros H; inversion H; constructor.
  - split; intros H; inversion H; subst; constructor; try (now apply in_splits); now apply IH.
Qed.

Lemma combine_perms_distributes perm u l :
  Forall2 (fun s q => fst q + snd q = g_m s) perm u ->
  Forall2 (fun s q => fst q + snd q = g_n s) perm l ->
  List.length u = List.length l /\ Forall2 distributes perm (combine_perms u l) /\
  list_sum (map snd u) = total m_h (combine_perms u l) /\
  list_sum (map fst u) = total m_o (combine_perms u l) /\
  list_sum (map snd l) = total n_h (combine_perms u l) /\
  list_sum (map fst l) = total n_o (combine_perms u l).
Proof.
  intros Hu. revert l. induction Hu as [|s q perm u Hq Hu IH]; intros l Hl; inversion Hl; subst.
  - unfold combine_perms; cbn. repeat split; constructor.
  - destruct (IH _ H3) as (E & F & S1 & S2 & S3 & S4).
    cbn [List.length]. split; [now f_equal|].
    unfold combine_perms in *. cbn [combine map].
    split; [constructor; [unfold distributes, up, down; cbn; lia|exact F]|].
    unfold total, list_sum in *. cbn in *. lia.
Qed.

Lemma distributes_combine perm ts : Forall2 distributes perm ts ->
  exists u l, Forall2 (fun s q => fst q + snd q = g_m s) perm u /\
    Forall2 (fun s q => fst q + snd q = g_n s) perm l /\ combine_perms u l = ts.
Proof.
  induction 1 as [|s a perm ts [H1 H2] H (u & l & Hu & Hl & E)].
  - exists [], []. repeat split; constructor.
  - exists ((m_o a, m_h a) :: u), ((n_o a, n_h a) :: l). unfold up, down in *.
    split; [constructor; [cbn; lia|exact Hu]|]. split; [constructor; [cbn; lia|exact Hl]|].
    unfold combine_perms in *. cbn. rewrite E. now destruct a.
Qed.

(** The bounds checked while the splits are generated. *)
Definition within (omega : gop) (h : hop) (ts : list tamp) : Prop :=
  total m_h ts <= h_n h /\ total m_o ts <= g_n omega /\
  total n_h ts <= h_m h /\ total n_o ts <= g_m omega.

Definition all_connections omega h (valid : list (list gop)) : list (list tamp) :=
  flat_map (fun perm =>
    flat_map (fun u => map (combine_perms u) (lower_perms omega h perm)) (upper_perms omega h perm)) valid.

Lemma in_connections omega h valid ts :
  In ts (all_connections omega h valid) <->
  exists perm, In perm valid /\ Forall2 distributes perm ts /\ within omega h ts.
Proof.
  unfold all_connections, upper_perms, lower_perms. rewrite in_flat_map. split.
  - intros [perm [Hp H]]. exists perm. split; [exact Hp|].
    apply in_flat_map in H as [u [Hu H]]. apply in_map_iff in H as [l [<- Hl]].
    apply filter_In in Hu as [Hu Bu]. apply filter_In in Hl as [Hl Bl].
    apply in_product_splits in Hu. apply in_product_splits in Hl.
    apply andb_true_iff in Bu as [B1 B2]. apply andb_true_iff in Bl as [B3 B4].
    apply Nat.leb_le in B1, B2, B3, B4.
    destruct (combine_perms_distributes _ _ _ Hu Hl) as (_ & F & S1 & S2 & S3 & S4).
    split; [exact F|]. unfold within. lia.
  - intros [perm [Hp [F (W1 & W2 & W3 & W4)]]]. exists perm. split; [exact Hp|].
    destruct (distributes_combine _ _ F) as (u & l & Hu & Hl & <-).
    destruct (combine_perms_distributes _ _ _ Hu Hl) as (_ & _ & S1 & S2 & S3 & S4).
    apply in_flat_map. exists u. split.
    + apply filter_In. split; [apply in_product_splits; exact Hu|].
      apply andb_true_iff. rewrite !Nat.leb_le. lia.
    + apply in_map_iff. exists l. split; [reflexivity|]. apply filter_In.
      split; [apply in_product_splits; exact Hl|]. apply andb_true_iff. rewrite !Nat.leb_le. lia.
Qed.

Lemma concat_flat_map {A B} (f : A -> list B) l : List.concat (map f l) = flat_map f l.
Proof. symmetry. apply flat_map_concat_map. Qed.

Lemma connection_permutations_ok omega h valid :
  connection_permutations omega h valid = Ok (all_connections omega h valid).
Proof.
  unfold connection_permutations.
  erewrite mapM_ok with
    (g := fun perm => flat_map (fun u => map (combine_perms u) (lower_perms omega h perm)) (upper_perms omega h perm)).
  - cbn. f_equal. apply concat_flat_map.
  - intros perm _.
    erewrite mapM_ok with (g := fun ul => combine_perms (fst ul) (snd ul)).
    + f_equal. rewrite flat_map_concat_map, concat_map, map_map, <- flat_map_concat_map.
      apply flat_map_ext. intros u. rewrite map_map. reflexivity.
    + intros [u l] Hul. apply in_flat_map in Hul as [u' [Hu Hl]]. apply in_map_iff in Hl as [l' [E Hl]].
      injection E as -> ->. cbn [fst snd].
      unfold upper_perms, lower_perms in *. apply filter_In in Hu as [Hu _]. apply filter_In in Hl as [Hl _].
      apply in_product_splits in Hu. apply in_product_splits in Hl.
      destruct (combine_perms_distributes _ _ _ Hu Hl) as (-> & _). now rewrite Nat.eqb_refl.
Qed.

(** ** The terms of one Hamiltonian operator *)

Definition build (omega : gop) (h : hop) (ts : list tamp) : term :=
  (mkco (g_m omega + g_n omega) (g_m omega) (g_n omega)
        (g_m omega - total n_o ts) (g_n omega - total m_o ts) (map n_o ts) (map m_o ts),
   mkch (h_m h + h_n h) (h_m h) (h_n h) (h_m h - total n_h ts) (h_n h - total m_h ts)
        (map n_h ts) (map m_h ts), ts).

Definition balanced (omega : gop) (h : hop) (ts : list tamp) : bool :=
  Nat.eqb (h_m h - total n_h ts) (g_n omega - total m_o ts)
  && Nat.eqb (h_n h - total m_h ts) (g_m omega - total n_o ts).

Lemma explicit_connection_ok omega h ts : within omega h ts ->
  explicit_connection omega h ts = Ok (if balanced omega h ts then Some (build omega h ts) else None).
Proof.
  intros (W1 & W2 & W3 & W4). unfold explicit_connection, balanced, build.
  rewrite !total_list_sum.
  rewrite (proj2 (Nat.ltb_ge _ _) W4), (proj2 (Nat.ltb_ge _ _) W2),
          (proj2 (Nat.ltb_ge _ _) W3), (proj2 (Nat.ltb_ge _ _) W1). cbn [orb].
  destruct (Nat.eqb (h_m h - _) _); cbn; [|reflexivity].
  destruct (Nat.eqb (h_n h - _) _); reflexivity.
Qed.

Lemma catOptions_filter {A B} (p : A -> bool) (g : A -> B) l :
  catOptions (map (fun x => if p x then Some (g x) else None) l) = map g (filter p l).
Proof. induction l as [|x r IH]; cbn; [reflexivity|]. destruct (p x); cbn; now rewrite IH. Qed.

Lemma filter_map {A B} (p : B -> bool) (g : A -> B) l :
  filter p (map g l) = map g (filter (fun x => p (g x)) l).
Proof. induction l as [|x r IH]; cbn; [reflexivity|]. destruct (p (g x)); cbn; now rewrite IH. Qed.

Lemma filter_filter {A} (p q : A -> bool) l : filter p (filter q l) = filter (fun x => q x && p x) l.
Proof.
  induction l as [|x r IH]; cbn; [reflexivity|]. destruct (q x); cbn; [destruct (p x); now rewrite IH|exact IH].
Qed.

(** The f contraction is absent when it has to be. *)
Definition f_ok (remove_f : bool) (omega : gop) (ts : list tamp) : bool :=
  negb remove_f || Nat.eqb (g_m omega - total n_o ts) 0.

Section Exact.
  Variable so : list (list tamp) -> list (list tamp).
  Hypothesis Hso : set_order so.

  Definition unique_connections omega h (series : list (list gop)) : list (list tamp) :=
    so (dedup tamps_eqb (map (isort tamp_leb)
          (all_connections omega h (filter (valid_permutation omega h) series)))).

  Lemma within_perm omega h l l' : Permutation l l' -> within omega h l -> within omega h l'.
  Proof. intros P. unfold within. now rewrite !(total_perm _ _ _ P). Qed.

  Lemma in_unique omega h series ts :
    In ts (unique_connections omega h series) <->
    in_order ts /\ within omega h ts /\
    exists perm ts', In perm series /\ valid_permutation omega h perm = true /\
      Forall2 distributes perm ts' /\ Permutation ts' ts.
  Proof.
    unfold unique_connections. rewrite (in_so so _ _ Hso), (in_dedup _ tamps_eqb_eq), in_map_iff. split.
    - intros [ts' [<- H]]. apply in_connections in H as [perm [Hp [F W]]]. apply filter_In in Hp as [Hp V].
      split; [apply in_order_isort|]. split; [apply (within_perm _ _ _ _ (isort_perm tamp_leb ts') W)|].
      exists perm, ts'. repeat split; auto. apply isort_perm.
    - intros (O & W & perm & ts' & Hp & V & F & P). exists ts'. split.
      + rewrite (isort_tamp_ext _ _ P). apply isort_in_order, O.
      + apply in_connections. exists perm. split; [apply filter_In; auto|]. split; [exact F|].
        apply (within_perm _ _ _ _ (Permutation_sym P) W).
  Qed.

  Lemma nodup_unique omega h series : NoDup (unique_connections omega h series).
  Proof. apply (NoDup_so so _ Hso). apply nodup_dedup, tamps_eqb_eq. Qed.

  Lemma so_nil : so [] = [].
  Proof. apply Permutation_nil, Hso. Qed.

  Lemma h_terms_ok omega series rf h :
    h_terms so omega series rf h =
    Ok (map (build omega h)
         (filter (fun ts => balanced omega h ts && f_ok rf omega ts) (unique_connections omega h series))).
  Proof.
    unfold h_terms, generate_valid_s_n_operator_permutations.
    assert (E : (do conn <- connection_permutations omega h (filter (valid_permutation omega h) series);
                 do labeled <- generate_explicit_connections omega h (remove_duplicate_s_permutations so conn);
                 Ok (if rf && (Nat.leb 1 (g_m omega) && Nat.leb 1 (h_n h))
                     then remove_f_zero_terms labeled else labeled)) =
      Ok (map (build omega h)
         (filter (fun ts => balanced omega h ts && f_ok rf omega ts) (unique_connections omega h series)))).
    { rewrite connection_permutations_ok. cbn [bind].
      unfold remove_duplicate_s_permutations, generate_explicit_connections.
      fold (unique_connections omega h series).
      erewrite mapM_ok.
      2:{ intros ts H. apply in_unique in H as (_ & W & _). apply explicit_connection_ok, W. }
      cbn [bind]. rewrite catOptions_filter. f_equal.
      destruct rf; unfold f_ok; cbn [andb negb orb].
      - destruct (Nat.leb 1 (g_m omega) && Nat.leb 1 (h_n h)) eqn:G.
        + unfold remove_f_zero_terms. rewrite filter_map, filter_filter. apply (f_equal (map (build omega h))), filter_ext.
          intros ts. cbn [build fst co_m_h]. f_equal.
          destruct (g_m omega - total n_o ts); reflexivity.
        + apply (f_equal (map (build omega h))), filter_ext_in. intros ts Hts.
          destruct (balanced omega h ts) eqn:B; [|reflexivity]. cbn [andb]. symmetry.
          unfold balanced in B. apply andb_true_iff in B as [_ B]. apply Nat.eqb_eq in B.
          apply Nat.eqb_eq. apply andb_false_iff in G. rewrite !Nat.leb_gt in G. lia.
      - apply (f_equal (map (build omega h))), filter_ext. intros ts. now rewrite andb_true_r. }
    destruct (filter (valid_permutation omega h) series) eqn:V; [|exact E].
    unfold unique_connections. rewrite V. cbn. now rewrite so_nil.
  Qed.
End Exact.

(** ** All terms *)

Lemma Forall2_length {A B} {R : A -> B -> Prop} {l l'} : Forall2 R l l' -> List.length l = List.length l'.
Proof. induction 1; cbn; congruence. Qed.

Lemma distributes_totals perm ts : Forall2 distributes perm ts ->
  total g_m perm = total m_h ts + total m_o ts /\ total g_n perm = total n_h ts + total n_o ts.
Proof.
  induction 1 as [|s a perm ts [H1 H2] H IH]; cbn; [lia|]. unfold total in *. cbn.
  unfold up, down in *. lia.
Qed.

Lemma total_0_Forall {A} (f : A -> nat) l : total f l = 0 -> Forall (fun x => f x = 0) l.
Proof. induction l as [|x r IH]; cbn; [constructor|]. unfold total in *. cbn. intros H. constructor; [lia|apply IH; lia]. Qed.

Lemma Forall_total_0 {A} (f : A -> nat) l : Forall (fun x => f x = 0) l -> total f l = 0.
Proof. induction 1 as [|x r H _ IH]; cbn; [reflexivity|]. unfold total in *. cbn. lia. Qed.

(** The early checks never reject a complete contraction. *)
Lemma contraction_valid omega h perm ts f fbar :
  Forall2 distributes perm ts ->
  contraction (g_m omega) (g_n omega) (h_m h) (h_n h) ts f fbar ->
  valid_permutation omega h perm = true.
Proof.
  intros F (C1 & C2 & C3 & C4). destruct (distributes_totals _ _ F) as [T1 T2].
  unfold valid_permutation. rewrite !total_list_sum, T1, T2.
  rewrite (proj2 (Nat.eqb_eq _ _)) by lia. cbn [negb].
  unfold t_joining_with_t_terms. rewrite !total_list_sum, T1, T2.
  rewrite !(proj2 (Nat.ltb_ge _ _)) by lia. cbn [orb].
  replace (omega_joining_with_itself omega h perm) with false.
  2:{ symmetry. unfold omega_joining_with_itself.
      destruct (Nat.eqb_spec (g_m omega) 0) as [|Zm]; [reflexivity|].
      destruct (Nat.eqb_spec (g_n omega) 0) as [|Zn]; [reflexivity|]. cbn [orb].
      rewrite !(proj2 (Nat.ltb_lt 0 (g_n omega))), !(proj2 (Nat.ltb_lt 0 (g_m omega))) by lia. cbn [andb].
      destruct (Nat.ltb_spec 0 (h_m h)); [reflexivity|]. destruct (Nat.ltb_spec 0 (h_n h)); [reflexivity|].
      cbn [orb]. apply negb_false_iff.
      destruct (existsb _ perm) eqn:E; [reflexivity|exfalso].
      assert (Z : total g_m perm = 0).
      { apply Forall_total_0. apply Forall_forall. intros s Hs.
        destruct (Nat.ltb_spec 0 (g_m s)) as [L|L]; [|lia].
        assert (X : existsb (fun s => Nat.ltb 0 (g_m s) || Nat.ltb 0 (g_n s)) perm = true); [|congruence].
        apply existsb_exists. exists s. split; [exact Hs|]. apply orb_true_iff. left. now apply Nat.ltb_lt. }
      lia. }
  replace (h_joining_with_itself omega h perm) with false; [reflexivity|].
  symmetry. unfold h_joining_with_itself.
  destruct (Nat.eqb_spec (h_m h) 0) as [|Zm]; [reflexivity|].
  destruct (Nat.eqb_spec (h_n h) 0) as [|Zn]; [reflexivity|]. cbn [orb].
  rewrite !(proj2 (Nat.ltb_lt 0 (h_m h))), !(proj2 (Nat.ltb_lt 0 (h_n h))) by lia. cbn [andb].
  destruct (Nat.ltb_spec 0 (g_n omega)); [reflexivity|]. destruct (Nat.ltb_spec 0 (g_m omega)); [reflexivity|].
  cbn [orb]. apply negb_false_iff.
  destruct (existsb _ perm) eqn:E; [reflexivity|exfalso].
  assert (Z : total g_n perm = 0).
  { apply Forall_total_0. apply Forall_forall. intros s Hs.
    destruct (Nat.ltb_spec 0 (g_n s)) as [L|L]; [|lia].
    assert (X : existsb (fun s => Nat.ltb 0 (g_n s) || Nat.ltb 0 (g_m s)) perm = true); [|congruence].
    apply existsb_exists. exists s. split; [exact Hs|]. apply orb_true_iff. left. now apply Nat.ltb_lt. }
  lia.
Qed.

Lemma contraction_perm om on hm hn ts ts' f fbar : Permutation ts ts' ->
  contraction om on hm hn ts f fbar -> contraction om on hm hn ts' f fbar.
Proof. intros P. unfold contraction. now rewrite !(total_perm _ _ _ P). Qed.

(** within and balanced together are a complete contraction *)
Lemma balanced_contraction omega h ts :
  within omega h ts -> balanced omega h ts = true ->
  contraction (g_m omega) (g_n omega) (h_m h) (h_n h) ts
    (g_m omega - total n_o ts) (g_n omega - total m_o ts).
Proof.
  unfold within, balanced, contraction. rewrite andb_true_iff, !Nat.eqb_eq. lia.
Qed.

Lemma contraction_balanced omega h ts f fbar :
  contraction (g_m omega) (g_n omega) (h_m h) (h_n h) ts f fbar ->
  within omega h ts /\ balanced omega h ts = true /\
  f = g_m omega - total n_o ts /\ fbar = g_n omega - total m_o ts.
Proof.
  unfold within, balanced, contraction. rewrite andb_true_iff, !Nat.eqb_eq. lia.
Qed.

(** The operators of S *)
Lemma in_generate_s cc ground s :
  In s (generate_s_operator cc ground) <->
  s = mkgop (s_name (g_m s) (g_n s)) (g_m s + g_n s) (g_m s) (g_n s) /\
  1 <= g_m s + g_n s <= cc /\ (ground = true -> g_n s = 0).
Proof.
  unfold generate_s_operator. rewrite in_map_iff. split.
  - intros [[m n] [<- H]]. apply filter_In in H as [H B]. apply in_mn_pairs in H. cbn in *.
    split; [reflexivity|]. apply andb_true_iff in B as [B1 B2].
    apply negb_true_iff in B1, B2. split.
    + apply andb_false_iff in B2. rewrite !Nat.eqb_neq in B2. lia.
    + intros ->. destruct n; [reflexivity|discriminate].
  - intros (E & B & G). exists (g_m s, g_n s). split; [symmetry; exact E|]. apply filter_In.
    split; [apply in_mn_pairs; lia|]. cbn. apply andb_true_iff. rewrite !negb_true_iff. split.
    + destruct ground; [|reflexivity]. rewrite G by reflexivity. reflexivity.
    + apply andb_false_iff. rewrite !Nat.eqb_neq. lia.
Qed.

Definition series_k (cc : nat) (ground : bool) (k : nat) : list (list gop) :=
  match k with
  | 0 => [[mkgop "1" 0 0 0]]
  | 1 => map (fun x => [x]) (generate_s_operator cc ground)
  | _ => product (repeat (generate_s_operator cc ground) k)
  end.

Lemma in_series_k cc ground k perm : 1 <= k ->
  (In perm (series_k cc ground k) <->
   List.length perm = k /\ Forall (fun s => In s (generate_s_operator cc ground)) perm).
Proof.
  intros Hk. destruct k as [|[|k]]; [lia| |].
  - cbn. rewrite in_map_iff. split.
    + intros [x [<- H]]. split; [reflexivity|]. constructor; [exact H|constructor].
    + intros [L F]. destruct perm as [|x [|? ?]]; try discriminate. inversion F; subst.
      exists x. split; auto.
  - exact (in_product_repeat (generate_s_operator cc ground) (S (S k)) perm).
Qed.

(** Every distribution of operators of S is a list of amplitudes and back. *)
Lemma amplitudes_distribute cc ground ts : Forall (amplitude cc ground) ts ->
  exists perm, Forall2 distributes perm ts /\ Forall (fun s => In s (generate_s_operator cc ground)) perm.
Proof.
  induction 1 as [|t ts [H1 H2] H (perm & F & I)].
  - exists []. split; constructor.
  - exists (mkgop (s_name (up t) (down t)) (up t + down t) (up t) (down t) :: perm). split.
    + constructor; [split; reflexivity|exact F].
    + constructor; [|exact I]. apply in_generate_s. cbn. auto.
Qed.

Lemma distributes_amplitudes cc ground perm ts :
  Forall2 distributes perm ts -> Forall (fun s => In s (generate_s_operator cc ground)) perm ->
  Forall (amplitude cc ground) ts.
Proof.
  induction 1 as [|s t perm ts [H1 H2] H IH]; intros I; [constructor|]. inversion I; subst.
  constructor; [|now apply IH]. apply in_generate_s in H4 as (_ & B & G).
  unfold amplitude. rewrite <- H1, <- H2. auto.
Qed.

Section All.
  Variable so : list (list tamp) -> list (list tamp).
  Hypothesis Hso : set_order so.
  Variables (omega : gop) (cc : nat) (ground rf : bool).

  Definition terms_of (k : nat) (h : hop) : list term :=
    map (build omega h)
      (filter (fun ts => balanced omega h ts && f_ok rf omega ts)
         (unique_connections so omega h (series_k cc ground k))).

  Definition request h k us f fbar : Prop :=
    List.length us = k /\ Forall (amplitude cc ground) us /\ in_order us /\
    contraction (g_m omega) (g_n omega) (h_m h) (h_n h) us f fbar /\ (rf = true -> f = 0).

  Lemma f_ok_iff ts : f_ok rf omega ts = true <-> (rf = true -> g_m omega - total n_o ts = 0).
  Proof.
    unfold f_ok. destruct rf; cbn; [rewrite Nat.eqb_eq; intuition|intuition discriminate].
  Qed.

  Lemma build_describes h ts f fbar : ts <> [] ->
    contraction (g_m omega) (g_n omega) (h_m h) (h_n h) ts f fbar ->
    describes (g_m omega) (g_n omega) (h_m h) (h_n h) ts f fbar (build omega h ts).
  Proof.
    intros Hn C. destruct (contraction_balanced omega h ts f fbar C) as (_ & B & -> & ->).
    unfold balanced in B. rewrite andb_true_iff, !Nat.eqb_eq in B. destruct B as [B1 B2].
    unfold describes, build. destruct ts; [congruence|]. cbn [factors]. now rewrite B1, B2.
  Qed.

  Lemma in_terms_of k h t :
    In t (terms_of k h) <->
    exists us f fbar, request h k us f fbar /\
      describes (g_m omega) (g_n omega) (h_m h) (h_n h) us f fbar t.
  Proof.
    unfold terms_of. rewrite in_map_iff. split.
    - intros [ts [<- H]]. apply filter_In in H as [H B]. apply andb_true_iff in B as [B Bf].
      pose proof (proj1 (f_ok_iff ts) Bf) as Bf'. clear Bf. rename Bf' into Bf. apply (in_unique so Hso) in H as (O & W & perm & ts' & Hp & V & F & P).
      pose proof (balanced_contraction _ _ _ W B) as C.
      destruct k as [|k].
      + cbn in Hp. destruct Hp as [<-|[]]. inversion F as [|? a ? ? [D1 D2] F2]; subst. inversion F2; subst.
        apply Permutation_length_1_inv in P as ->.
        destruct a as [a b c d]. unfold up, down in *. cbn in D1, D2.
        assert (a = 0 /\ b = 0 /\ c = 0 /\ d = 0) as (-> & -> & -> & ->) by lia.
        exists [], (g_m omega), (g_n omega). unfold contraction in C; cbn in C.
        rewrite !Nat.sub_0_r in *. cbn in Bf. try rewrite Nat.sub_0_r in Bf. split.
        * unfold request, contraction. cbn. repeat split; try lia; auto; constructor.
        * unfold describes, build. cbn. destruct C as (_ & -> & _ & ->). now rewrite !Nat.sub_0_r.
      + apply in_series_k in Hp as [L I]; [|lia].
        exists ts, (g_m omega - total n_o ts), (g_n omega - total m_o ts). split.
        * unfold request. split.
          { rewrite <- (Permutation_length P), <- (Forall2_length F). exact L. }
          split; [|auto]. apply (Permutation_Forall P). eapply distributes_amplitudes; eauto.
        * apply build_describes; [|exact C]. intros ->. apply Permutation_sym, Permutation_nil in P. subst.
          inversion F; subst. discriminate.
    - intros (us & f & fbar & (L & A & O & C & Hf) & D).
      destruct k as [|k].
      + destruct us; [|discriminate]. unfold describes in D. cbn in D.
        exists [t_one]. split.
        * rewrite D. unfold build, t_one. cbn. unfold contraction in C. cbn in C.
          destruct C as (E1 & E2 & E3 & E4). rewrite !Nat.sub_0_r, E1, E2, E3, E4 in *. congruence.
        * unfold contraction in C. cbn in C. apply filter_In. split.
          { apply (in_unique so Hso). split; [unfold in_order; repeat constructor|].
            split; [unfold within; cbn; lia|].
            exists [mkgop "1" 0 0 0], [t_one]. split; [now left|]. split.
            - apply contraction_valid with (ts := [t_one]) (f := f) (fbar := fbar).
              + repeat constructor.
              + unfold contraction. cbn. lia.
            - split; [repeat constructor|reflexivity]. }
          apply andb_true_iff. split; [|apply f_ok_iff; cbn; intros R; specialize (Hf R); lia].
          unfold balanced. cbn. rewrite andb_true_iff, !Nat.eqb_eq. lia.
      + assert (Hn : us <> []) by (intros ->; discriminate).
        pose proof (build_describes h us f fbar Hn C) as D'.
        exists us. split; [unfold describes in *; congruence|].
        destruct (contraction_balanced omega h us f fbar C) as (W & B & Ef & Eb).
        apply filter_In. split.
        * apply (in_unique so Hso). split; [exact O|]. split; [exact W|].
          destruct (amplitudes_distribute _ _ _ A) as (perm & F & I).
          exists perm, us. split.
          { apply in_series_k; [lia|]. split; [rewrite (Forall2_length F); exact L|exact I]. }
          split; [eapply contraction_valid; eauto|]. auto.
        * apply andb_true_iff. split; [exact B|]. apply f_ok_iff. intros R. rewrite <- Ef. auto.
  Qed.

  Lemma build_inj h ts ts' : build omega h ts = build omega h ts' -> ts = ts'.
  Proof. unfold build. now intros [=]. Qed.

  Lemma nodup_terms_of k h : NoDup (terms_of k h).
  Proof.
    unfold terms_of. apply NoDup_map_inj.
    - apply NoDup_filter, nodup_unique, Hso.
    - intros x y _ _. apply build_inj.
  Qed.
End All.

Lemma S_nonempty cc ground : 1 <= cc -> generate_s_operator cc ground <> [].
Proof.
  intros H E.
  assert (I : In (mkgop (s_name 1 0) 1 1 0) (generate_s_operator cc ground)).
  { apply in_generate_s. cbn. repeat split; lia. }
  rewrite E in I. exact I.
Qed.

Lemma product_repeat_head {A} (l : list A) k : l <> [] ->
  exists f r, product (repeat l k) = f :: r /\ List.length f = k.
Proof.
  intros H. destruct (product (repeat l k)) as [|f r] eqn:E.
  - exfalso. destruct l as [|x l]; [congruence|].
    assert (I : In (repeat x k) (product (repeat (x :: l) k))).
    { apply in_product_repeat. split; [apply repeat_length|]. apply Forall_forall. intros y Hy.
      apply repeat_spec in Hy. subst. now left. }
    rewrite E in I. exact I.
  - exists f, r. split; [reflexivity|].
    assert (I : In f (product (repeat l k))) by (rewrite E; now left).
    apply in_product_repeat in I as [L _]. exact L.
Qed.

Definition entry (cc : nat) (ground : bool) (k : nat) : series_term :=
  match k with
  | 0 => SOne (mkgop "1" 0 0 0)
  | 1 => SLin (generate_s_operator cc ground)
  | _ => SProd (product (repeat (generate_s_operator cc ground) k))
  end.

Lemma range_S a b : a < b -> range a b = a :: range (S a) b.
Proof. intros H. unfold range. replace (b - a) with (S (b - S a)) by lia. reflexivity. Qed.

Lemma expansion_entries cc S ground :
  generate_s_taylor_expansion cc S ground = map (entry cc ground) (range 0 (S + 1)).
Proof.
  unfold generate_s_taylor_expansion.
  rewrite (range_S 0) by lia. cbn [map entry]. f_equal.
  destruct S as [|[|S]]; [reflexivity|reflexivity|].
  cbn [Nat.leb]. rewrite (range_S 1) by lia. cbn [map entry app]. f_equal.
  apply map_ext_in. intros k Hk. apply in_range in Hk. destruct k as [|[|k]]; try lia. reflexivity.
Qed.

Lemma wrap_entry cc ground k : 1 <= cc -> wrap_series (entry cc ground k) = Ok (series_k cc ground k).
Proof.
  intros H. destruct k as [|[|k]].
  - reflexivity.
  - cbn. pose proof (S_nonempty cc ground H). now destruct (generate_s_operator cc ground).
  - cbn [entry series_k wrap_series].
    destruct (product_repeat_head _ (S (S k)) (S_nonempty cc ground H)) as (f & r & -> & L).
    rewrite L. reflexivity.
Qed.

Lemma full_cc_terms_ok so omega H cc S ground rf : set_order so -> 1 <= cc ->
  full_cc_terms so omega H cc S ground rf =
  Ok (flat_map (fun k => flat_map (terms_of so omega cc ground rf k)
                           (generate_full_cc_hamiltonian_operator H)) (range 0 (S + 1))).
Proof.
  intros Hso Hcc. unfold full_cc_terms, valid_term_list. rewrite expansion_entries.
  assert (E : mapM (fun s => filter_out_valid_s_terms so omega (generate_full_cc_hamiltonian_operator H) s rf)
                (map (entry cc ground) (range 0 (S + 1)))
              = Ok (map (fun k => flat_map (terms_of so omega cc ground rf k)
                           (generate_full_cc_hamiltonian_operator H)) (range 0 (S + 1)))).
  { generalize (range 0 (S + 1)). intros l. induction l as [|k l IH]; [reflexivity|].
    cbn [map mapM]. unfold filter_out_valid_s_terms at 1. rewrite wrap_entry by exact Hcc. cbn [bind].
    rewrite (mapM_ok _ (terms_of so omega cc ground rf k)) by (intros h _; apply h_terms_ok, Hso).
    cbn [bind]. rewrite IH. cbn [bind]. now rewrite concat_flat_map. }
  rewrite E. cbn [bind]. now rewrite concat_flat_map.
Qed.

Lemma in_full_cc_hamiltonian H h :
  In h (generate_full_cc_hamiltonian_operator H) <->
  h = mkhop (h_m h + h_n h) (h_m h) (h_n h) /\ h_m h + h_n h <= H.
Proof.
  unfold generate_full_cc_hamiltonian_operator. rewrite in_map_iff. split.
  - intros [[m n] [<- Hp]]. apply in_mn_pairs in Hp. cbn. auto.
  - intros [E L]. exists (h_m h, h_n h). split; [symmetry; exact E|]. now apply in_mn_pairs.
Qed.

Lemma nodup_full_cc_hamiltonian H : NoDup (generate_full_cc_hamiltonian_operator H).
Proof.
  apply NoDup_map_inj; [apply nodup_mn_pairs|]. intros [a b] [c d] _ _ [=]. now subst.
Qed.

(** The exact content of the list. *)
Theorem full_cc_terms_exact so omega H cc S ground rf : set_order so -> 1 <= cc ->
  exists l, full_cc_terms so omega H cc S ground rf = Ok l /\ NoDup l /\
    forall t, In t l <->
      exists hm hn us f fbar,
        requested (g_m omega) (g_n omega) H cc S ground rf hm hn us f fbar /\ in_order us /\
        describes (g_m omega) (g_n omega) hm hn us f fbar t.
Proof.
  intros Hso Hcc. eexists. split; [apply full_cc_terms_ok; assumption|]. split.
  - apply NoDup_flat_map.
    + apply nodup_range.
    + intros k _. apply NoDup_flat_map.
      * apply nodup_full_cc_hamiltonian.
      * intros h _. apply nodup_terms_of, Hso.
      * intros h h' t Hh Hh' I I'. apply (in_terms_of so Hso) in I as (us & f & fb & _ & D).
        apply (in_terms_of so Hso) in I' as (us' & f' & fb' & _ & D').
        unfold describes in *. rewrite D in D'. injection D' as E1 E2 E3.
        apply in_full_cc_hamiltonian in Hh as [-> _]. apply in_full_cc_hamiltonian in Hh' as [-> _].
        cbn in *. congruence.
    + intros k k' t _ _ I I'. apply in_flat_map in I as [h [_ I]]. apply in_flat_map in I' as [h' [_ I']].
      apply (in_terms_of so Hso) in I as (us & f & fb & (L & A & _) & D).
      apply (in_terms_of so Hso) in I' as (us' & f' & fb' & (L' & A' & _) & D').
      unfold describes in *. assert (E : factors us = factors us') by congruence.
      assert (us = us'); [|congruence].
      destruct us as [|u us], us' as [|u' us']; cbn in E; auto.
      * injection E as <- <-. inversion A' as [|? ? [X _] _]. unfold up, down in X. cbn in X. lia.
      * injection E as -> ->. inversion A as [|? ? [X _] _]. unfold up, down in X. cbn in X. lia.
  - intros t. rewrite in_flat_map. split.
    + intros [k [Hk I]]. apply in_range in Hk. apply in_flat_map in I as [h [Hh I]].
      apply in_full_cc_hamiltonian in Hh as [_ Hr].
      apply (in_terms_of so Hso) in I as (us & f & fb & (L & A & O & C & Hf) & D).
      exists (h_m h), (h_n h), us, f, fb. unfold requested. repeat split; auto; try lia; try apply C.
    + intros (hm & hn & us & f & fb & (Hr & L & A & C & Hf) & O & D).
      exists (List.length us). split; [apply in_range; lia|]. apply in_flat_map.
      exists (mkhop (hm + hn) hm hn). split; [apply in_full_cc_hamiltonian; auto|].
      apply (in_terms_of so Hso). exists us, f, fb. unfold request. cbn. auto 10.
Qed.

(** ** Operators *)

Lemma length_str_repeat c n : String.length (str_repeat (String c EmptyString) n) = n.
Proof. induction n as [|n IH]; cbn; [reflexivity|]. now f_equal. Qed.

Lemma length_append a b : String.length (a +++ b) = String.length a + String.length b.
Proof. induction a as [|c a IH]; cbn; [reflexivity|]. now f_equal. Qed.

Lemma length_omega_name m n : String.length (omega_name m n) = m + n.
Proof. unfold omega_name. rewrite length_append. now rewrite !length_str_repeat. Qed.

Lemma omega_operator_exact cc P :
  NoDup (generate_omega_operator cc P) /\
  (forall o, In o (generate_omega_operator cc P) <->
     o = mkgop (omega_name (g_m o) (g_n o)) (g_m o + g_n o) (g_m o) (g_n o) /\
     g_m o + g_n o <= cc /\ g_m o + g_n o <= P) /\
  StronglySorted (fun a b => g_rank a <= g_rank b) (generate_omega_operator cc P).
Proof.
  unfold generate_omega_operator.
  set (l := map _ (filter _ _)).
  assert (I : forall o, In o l <-> o = mkgop (omega_name (g_m o) (g_n o)) (g_m o + g_n o) (g_m o) (g_n o) /\
     g_m o + g_n o <= cc /\ g_m o + g_n o <= P).
  { intros o. unfold l. rewrite in_map_iff. split.
    - intros [[m n] [<- H]]. apply filter_In in H as [H L]. apply in_mn_pairs in H. apply Nat.leb_le in L.
      cbn in *. auto.
    - intros (E & H1 & H2). exists (g_m o, g_n o). split; [symmetry; exact E|]. apply filter_In.
      split; [apply in_mn_pairs; exact H1|]. now apply Nat.leb_le. }
  split; [|split].
  - apply (Permutation_NoDup (isort_perm name_len_leb l)). apply NoDup_map_inj.
    + apply NoDup_filter, nodup_mn_pairs.
    + intros [a b] [c d] _ _ [=]. now subst.
  - intros o. rewrite in_isort. apply I.
  - assert (S : StronglySorted (fun a b => name_len_leb a b = true) (isort name_len_leb l)).
    { apply isort_sorted; unfold name_len_leb; intros *; rewrite !Nat.leb_le; lia. }
    assert (F : Forall (fun o => String.length (g_name o) = g_rank o) (isort name_len_leb l)).
    { apply Forall_forall. intros o Ho. apply in_isort, I in Ho as [E _]. rewrite E. cbn.
      apply length_omega_name. }
    induction S as [|x r Hs IH Hf]; constructor.
    + apply IH. now inversion F.
    + inversion F; subst. rewrite Forall_forall in *. intros y Hy. specialize (Hf y Hy).
      unfold name_len_leb in Hf. apply Nat.leb_le in Hf. rewrite (H2 y Hy) in Hf. lia.
Qed.

Lemma full_cc_hamiltonian_exact H :
  NoDup (generate_full_cc_hamiltonian_operator H) /\
  forall h, In h (generate_full_cc_hamiltonian_operator H) <->
    h = mkhop (h_m h + h_n h) (h_m h) (h_n h) /\ h_m h + h_n h <= H.
Proof. split; [apply nodup_full_cc_hamiltonian|apply in_full_cc_hamiltonian]. Qed.

Lemma s_operator_exact cc ground :
  NoDup (generate_s_operator cc ground) /\
  forall s, In s (generate_s_operator cc ground) <->
    s = mkgop (s_name (g_m s) (g_n s)) (g_m s + g_n s) (g_m s) (g_n s) /\
    1 <= g_m s + g_n s <= cc /\ (ground = true -> g_n s = 0).
Proof.
  split; [|apply in_generate_s]. apply NoDup_map_inj.
  - apply NoDup_filter, nodup_mn_pairs.
  - intros [a b] [c d] _ _ [=]. now subst.
Qed.

Lemma nodup_product {A} (ls : list (list A)) : Forall (@NoDup A) ls -> NoDup (product ls).
Proof.
  induction 1 as [|l r Hl Hr IH]; cbn; [constructor; [auto|constructor]|].
  apply NoDup_flat_map; auto.
  - intros x _. apply NoDup_map_inj; [exact IH|]. now intros ? ? _ _ [=].
  - intros x y b _ _ Hx Hy. apply in_map_iff in Hx as [? [<- _]]. apply in_map_iff in Hy as [? [[=] _]]. congruence.
Qed.

(** The k-th entry, as the lists of operators it stands for. *)
Lemma taylor_exact cc S ground : 1 <= cc ->
  exists series, mapM wrap_series (generate_s_taylor_expansion cc S ground) = Ok series /\
    List.length series = S + 1 /\
    nth_error series 0 = Some [[mkgop "1" 0 0 0]] /\
    forall k perms, 1 <= k -> nth_error series k = Some perms ->
      NoDup perms /\
      forall p, In p perms <-> List.length p = k /\ Forall (fun s => In s (generate_s_operator cc ground)) p.
Proof.
  intros Hcc. rewrite expansion_entries. exists (map (series_k cc ground) (range 0 (S + 1))).
  split; [|split; [|split]].
  - generalize (range 0 (S + 1)). intros l. induction l as [|k l IH]; [reflexivity|].
    cbn [map mapM]. rewrite wrap_entry by exact Hcc. cbn [bind]. rewrite IH. reflexivity.
  - rewrite map_length, length_range. lia.
  - rewrite (range_S 0) by lia. reflexivity.
  - intros k perms Hk E. rewrite nth_error_map in E.
    destruct (nth_error (range 0 (S + 1)) k) as [j|] eqn:N; [|discriminate]. injection E as <-.
    assert (j = k).
    { unfold range in N. assert (L : k < S + 1 - 0).
      { assert (X : nth_error (seq 0 (S + 1 - 0)) k <> None) by congruence. apply nth_error_Some in X.
        now rewrite seq_length in X. }
      rewrite (nth_error_nth' _ 0) in N by (now rewrite seq_length). rewrite seq_nth in N by exact L.
      injection N as <-. reflexivity. }
    subst j. split; [|intros p; now apply in_series_k].
    destruct k as [|[|k]]; [lia| |].
    + cbn. apply NoDup_map_inj; [apply s_operator_exact|]. now intros ? ? _ _ [=].
    + cbn [series_k]. apply nodup_product. apply Forall_forall. intros l Hl. apply repeat_spec in Hl as ->.
      apply s_operator_exact.
Qed.

(** ** Separation *)

Lemma is_connected_spec t : is_connected t = false <-> disconnected t.
Proof.
  unfold is_connected, disconnected. rewrite negb_false_iff, andb_true_iff, !Nat.eqb_eq. reflexivity.
Qed.

Lemma separate_loop_exact o flag ts :
  (forall t, In t ts -> disconnected t -> co_rank o = 1 -> takes_projection (co_m o) (co_n o) t) ->
  exists g, separate_loop o flag ts = Ok g /\
    (g = Unlinked <-> unlinked (co_m o) (co_n o) ts) /\
    (g = Fully <-> flag = false /\ fully_connected ts) /\
    (g = Linked <-> ~ unlinked (co_m o) (co_n o) ts /\ (flag = true \/ exists t, In t ts /\ disconnected t)).
Proof.
  revert flag. induction ts as [|t ts IH]; intros flag H; cbn [separate_loop].
  - exists (if flag then Linked else Fully). split; [reflexivity|]. unfold unlinked, fully_connected.
    assert (N1 : ~ exists t : tamp, In t [] /\ disconnected t) by (intros [? [[] _]]).
    assert (N2 : ~ exists t : tamp, In t [] /\ disconnected t /\ takes_projection (co_m o) (co_n o) t) by (intros [? [[] _]]).
    destruct flag; (split; [split; [discriminate|tauto]|]); split; split; try discriminate; intuition (try discriminate; try constructor).
  - assert (H' : forall t0, In t0 ts -> disconnected t0 -> co_rank o = 1 -> takes_projection (co_m o) (co_n o) t0)
      by (intros; apply H; auto; now right).
    destruct (is_connected t) eqn:C.
    + assert (ND : ~ disconnected t) by (rewrite <- is_connected_spec; congruence).
      destruct (IH flag H') as (g & E & G1 & G2 & G3). exists g. split; [exact E|].
      assert (U : unlinked (co_m o) (co_n o) (t :: ts) <-> unlinked (co_m o) (co_n o) ts).
      { unfold unlinked. split; intros [x [Hx Px]]; exists x; (split; [|exact Px]); [|now right].
        destruct Hx as [->|Hx]; [destruct Px; contradiction|auto]. }
      split; [rewrite U; exact G1|]. split.
      * rewrite G2. unfold fully_connected. split; intros [A B]; (split; [exact A|]); [now constructor|now inversion B].
      * assert (EX : (exists x, In x (t :: ts) /\ disconnected x) <-> (exists x, In x ts /\ disconnected x)).
        { split; intros [x [Hx Px]]; exists x; (split; [|exact Px]); [|now right].
          destruct Hx as [->|Hx]; [contradiction|auto]. }
        rewrite G3, U, EX. reflexivity.
    + apply is_connected_spec in C.
      destruct (Nat.eqb (m_o t) (co_n o) && Nat.eqb (n_o t) (co_m o)) eqn:P.
      * apply andb_true_iff in P. rewrite !Nat.eqb_eq in P.
        assert (U : unlinked (co_m o) (co_n o) (t :: ts)) by (exists t; split; [now left|split; assumption]).
        exists Unlinked. split; [reflexivity|]. split; [tauto|]. split; (split; [discriminate|]).
        -- intros [_ F]. inversion F; subst. contradiction.
        -- intros [F _]. contradiction.
      * apply andb_false_iff in P. rewrite !Nat.eqb_neq in P.
        assert (NT : ~ takes_projection (co_m o) (co_n o) t) by (intros [? ?]; tauto).
        destruct (Nat.eqb_spec (co_rank o) 1) as [R|R].
        { exfalso. apply NT. apply H; auto. now left. }
        destruct (IH true H') as (g & E & G1 & G2 & G3). exists g. split; [exact E|].
        assert (U : unlinked (co_m o) (co_n o) (t :: ts) <-> unlinked (co_m o) (co_n o) ts).
        { unfold unlinked. split; intros [x [Hx Px]]; exists x; (split; [|exact Px]); [|now right].
          destruct Hx as [->|Hx]; [destruct Px; contradiction|auto]. }
        split; [rewrite U; exact G1|]. split.
        -- rewrite G2. split; [intros [? _]; discriminate|]. intros [_ F]. inversion F; subst. contradiction.
        -- rewrite G3, U. split; intros [A B]; split; auto. right. exists t. split; [now left|auto].
Qed.

Lemma amplitude_not_one cc ground t : amplitude cc ground t -> t <> t_one.
Proof. intros [H _] ->. unfold up, down, t_one in H. cbn in H. lia. Qed.

Lemma in_total_le {A} (f : A -> nat) l x : In x l -> f x <= total f l.
Proof.
  induction l as [|y r IH]; [easy|]. unfold total in *. cbn. intros [->|H]; [lia|]. specialize (IH H). lia.
Qed.

Lemma group_of_exact om on hm hn us f fbar cc ground t :
  Forall (amplitude cc ground) us -> contraction om on hm hn us f fbar ->
  describes om on hm hn us f fbar t ->
  exists g, group_of t = Ok g /\
    (g = Fully <-> fully_connected us) /\
    (g = Linked <-> linked om on us) /\
    (g = Unlinked <-> unlinked om on us).
Proof.
  intros A C ->. unfold group_of.
  destruct us as [|u us].
  - cbn. exists Fully. split; [reflexivity|]. split; [split; [constructor|reflexivity]|].
    split; (split; [discriminate|]); [intros [[? [[] _]] _]|intros [? [[] _]]].
  - cbn [factors].
    assert (B : is_bare_h (u :: us) = false).
    { unfold is_bare_h. destruct us; [|reflexivity]. inversion A; subst.
      destruct (tamp_eqb u t_one) eqn:E; [|reflexivity]. apply tamp_eqb_eq in E.
      exfalso. eapply amplitude_not_one; eauto. }
    rewrite B. set (o := mkco _ _ _ _ _ _ _).
    destruct (separate_loop_exact o false (u :: us)) as (g & E & G1 & G2 & G3).
    { intros t Ht [D1 D2] R. cbn in R. cbn.
      pose proof (proj1 (Forall_forall _ _) A t Ht) as [X _]. unfold up, down in X.
      destruct C as (C1 & _ & C3 & _).
      pose proof (in_total_le n_o _ _ Ht). pose proof (in_total_le m_o _ _ Ht).
      unfold takes_projection. lia. }
    cbn in G1, G2, G3. exists g. split; [exact E|]. split; [rewrite G2; tauto|]. split; [|exact G1].
    rewrite G3. unfold linked. split.
    + intros [NU [X|X]]; [discriminate|]. split; [exact X|]. intros t Ht Hd HT. apply NU. exists t. auto.
    + intros [X Y]. split; [|now right]. intros (t & Ht & Hd & HT). exact (Y t Ht Hd HT).
Qed.

Definition group_eqb (a b : group) : bool :=
  match a, b with Fully, Fully | Linked, Linked | Unlinked, Unlinked => true | _, _ => false end.

Lemma seperate_ok (gf : term -> group) l : (forall t, In t l -> group_of t = Ok (gf t)) ->
  seperate_s_terms_by_connection l =
  Ok (filter (fun t => group_eqb (gf t) Fully) l, filter (fun t => group_eqb (gf t) Linked) l,
      filter (fun t => group_eqb (gf t) Unlinked) l).
Proof.
  induction l as [|t l IH]; intros H; cbn; [reflexivity|].
  rewrite H by now left. cbn. rewrite IH by (intros; apply H; now right). cbn.
  destruct (gf t); reflexivity.
Qed.

Lemma group_partition (gf : term -> group) l :
  Permutation l (filter (fun t => group_eqb (gf t) Fully) l ++ filter (fun t => group_eqb (gf t) Linked) l
                 ++ filter (fun t => group_eqb (gf t) Unlinked) l).
Proof.
  induction l as [|t l IH]; cbn; [constructor|].
  destruct (gf t); cbn; try (now constructor).
  - apply Permutation_cons_app. exact IH.
  - rewrite app_assoc. apply Permutation_cons_app. rewrite <- app_assoc. exact IH.
Qed.

Lemma sublist_filter {A} (p : A -> bool) l : sublist (filter p l) l.
Proof. induction l as [|x r IH]; cbn; [constructor|]. destruct (p x); now constructor. Qed.

Theorem separation_exact so omega H cc S ground rf : set_order so -> 1 <= cc ->
  exists l fully linked_ unlinked_,
    full_cc_terms so omega H cc S ground rf = Ok l /\
    seperate_s_terms_by_connection l = Ok (fully, linked_, unlinked_) /\
    Permutation l (fully ++ linked_ ++ unlinked_) /\
    sublist fully l /\ sublist linked_ l /\ sublist unlinked_ l /\
    forall t hm hn us f fbar, In t l ->
      Forall (amplitude cc ground) us ->
      contraction (g_m omega) (g_n omega) hm hn us f fbar ->
      describes (g_m omega) (g_n omega) hm hn us f fbar t ->
      (In t fully <-> fully_connected us) /\
      (In t linked_ <-> linked (g_m omega) (g_n omega) us) /\
      (In t unlinked_ <-> unlinked (g_m omega) (g_n omega) us).
Proof.
  intros Hso Hcc. destruct (full_cc_terms_exact so omega H cc S ground rf Hso Hcc) as (l & E & _ & I).
  set (gf := fun t => match group_of t with Ok g => g | Err _ => Fully end).
  assert (G : forall t, In t l -> group_of t = Ok (gf t)).
  { intros t Ht. apply I in Ht as (hm & hn & us & f & fb & (_ & _ & A & C & _) & _ & D).
    destruct (group_of_exact _ _ _ _ _ _ _ _ _ _ A C D) as (g & Eg & _). unfold gf. now rewrite Eg. }
  do 4 eexists. split; [exact E|]. split; [apply (seperate_ok gf), G|].
  split; [apply group_partition|]. do 3 (split; [apply sublist_filter|]).
  intros t hm hn us f fb Ht A C D.
  destruct (group_of_exact _ _ _ _ _ _ _ _ _ _ A C D) as (g & Eg & G1 & G2 & G3).
  rewrite !filter_In. unfold gf. rewrite Eg.
  assert (X : forall a, group_eqb g a = true <-> g = a) by (intros a; destruct g, a; cbn; split; congruence).
  rewrite !X, G1, G2, G3. tauto.
Qed.

(** ** f terms *)
Lemma f_removal_exact so omega H cc S ground : set_order so -> 1 <= cc ->
  exists l, full_cc_terms so omega H cc S ground false = Ok l /\
    full_cc_terms so omega H cc S ground true = Ok (filter (fun t => Nat.eqb (co_m_h (fst (fst t))) 0) l).
Proof.
  intros Hso Hcc. rewrite !full_cc_terms_ok by assumption. eexists. split; [reflexivity|]. f_equal.
  assert (F : forall {A B} (p : B -> bool) (g : A -> list B) l0,
    filter p (flat_map g l0) = flat_map (fun x => filter p (g x)) l0).
  { intros A B p g l0. induction l0 as [|x r IH]; cbn; [reflexivity|]. now rewrite filter_app, IH. }
  rewrite F. apply flat_map_ext. intros k. rewrite F. apply flat_map_ext. intros h.
  unfold terms_of. rewrite filter_map, filter_filter. apply (f_equal (map (build omega h))), filter_ext.
  intros ts. unfold f_ok. cbn [negb orb build fst co_m_h]. now rewrite andb_true_r.
Qed.

(** ** Operators, in the words of the specification *)
Lemma spells_name m n name : spells name m n <-> name = omega_name m n.
Proof.
  unfold spells.
  assert (L : list_ascii_of_string (omega_name m n) = (repeat "d"%char m ++ repeat "b"%char n)%list).
  { unfold omega_name. induction m as [|m IH]; cbn; [|now f_equal].
    induction n as [|n IH]; cbn; [reflexivity|now f_equal]. }
  split; [intros E|now intros ->].
  rewrite <- L in E. rewrite <- (string_of_list_ascii_of_string name), E.
  apply string_of_list_ascii_of_string.
Qed.

Lemma projections_exact cc P :
  NoDup (generate_omega_operator cc P) /\
  (forall o, In o (generate_omega_operator cc P) <-> projection cc P o) /\
  StronglySorted (fun a b => g_rank a <= g_rank b) (generate_omega_operator cc P).
Proof.
  destruct (omega_operator_exact cc P) as (A & B & C). split; [exact A|]. split; [|exact C].
  intros o. rewrite B. unfold projection. rewrite spells_name. destruct o as [nm r m n]; cbn.
  split; [intros ([= -> ->] & ? & ?); auto|intros (-> & -> & ? & ?); auto].
Qed.

Lemma hamiltonian_terms_exact H :
  NoDup (generate_full_cc_hamiltonian_operator H) /\
  forall h, In h (generate_full_cc_hamiltonian_operator H) <-> hamiltonian_term H h.
Proof.
  destruct (full_cc_hamiltonian_exact H) as [A B]. split; [exact A|]. intros h. rewrite B.
  unfold hamiltonian_term. destruct h as [r m n]; cbn.
  split; [intros ([= ->] & ?); auto|intros (-> & ?); auto].
Qed.

Lemma cluster_name m n : s_name m n =
  ("s" ++ (match m with 0 => "" | m => "^" ++ str_nat m end)
       ++ (match n with 0 => "" | n => "_" ++ str_nat n end))%string.
Proof. destruct m, n; reflexivity. Qed.

Lemma clusters_exact cc ground :
  NoDup (generate_s_operator cc ground) /\
  forall s, In s (generate_s_operator cc ground) <-> cluster cc ground s.
Proof.
  destruct (s_operator_exact cc ground) as [A B]. split; [exact A|]. intros s. rewrite B.
  unfold cluster. destruct s as [nm r m n]. pose proof (cluster_name m n) as CN. cbn [g_name g_m g_n g_rank].
  split.
  - intros ([= -> ->] & ? & ?). repeat split; try assumption; try lia. rewrite CN. now destruct m, n.
  - intros (-> & ? & ? & E). repeat split; try assumption; try lia. f_equal. rewrite CN, E. now destruct m, n.
Qed.

Lemma taylor_products cc S ground : 1 <= cc ->
  exists series, mapM wrap_series (generate_s_taylor_expansion cc S ground) = Ok series /\
    List.length series = S + 1 /\
    nth_error series 0 = Some [[mkgop "1" 0 0 0]] /\
    forall k perms, 1 <= k -> nth_error series k = Some perms ->
      NoDup perms /\
      forall p, In p perms <-> List.length p = k /\ Forall (cluster cc ground) p.
Proof.
  intros Hcc. destruct (taylor_exact cc S ground Hcc) as (series & A & B & C & D).
  exists series. split; [exact A|]. split; [exact B|]. split; [exact C|].
  intros k perms Hk E. destruct (D k perms Hk E) as [N I]. split; [exact N|].
  intros p. rewrite I. rewrite !Forall_forall. split; intros [L F]; (split; [exact L|]); intros s Hs;
    apply (clusters_exact cc ground); auto.
Qed.

(** ** The three readings of [full_cc_terms_exact] *)
Lemma full_cc_sound so omega H cc S ground rf : set_order so -> 1 <= cc ->
  exists l, full_cc_terms so omega H cc S ground rf = Ok l /\
    forall t, In t l -> exists hm hn us f fbar,
      requested (g_m omega) (g_n omega) H cc S ground rf hm hn us f fbar /\
      describes (g_m omega) (g_n omega) hm hn us f fbar t.
Proof.
  intros Hso Hcc. destruct (full_cc_terms_exact so omega H cc S ground rf Hso Hcc) as (l & E & _ & I).
  exists l. split; [exact E|]. intros t Ht. apply I in Ht as (hm & hn & us & f & fb & R & _ & D).
  exists hm, hn, us, f, fb. auto.
Qed.

Lemma requested_perm om on H cc S ground rf hm hn us us' f fb : Permutation us us' ->
  requested om on H cc S ground rf hm hn us f fb -> requested om on H cc S ground rf hm hn us' f fb.
Proof.
  intros P (A & B & C & D & E). split; [exact A|]. split; [rewrite <- (Permutation_length P); exact B|].
  split; [eapply Permutation_Forall; eauto|]. split; [|exact E].
  eapply contraction_perm; eauto.
Qed.

Lemma full_cc_complete so omega H cc S ground rf : set_order so -> 1 <= cc ->
  exists l, full_cc_terms so omega H cc S ground rf = Ok l /\
    forall hm hn us f fbar,
      requested (g_m omega) (g_n omega) H cc S ground rf hm hn us f fbar ->
      exists us' t, Permutation us us' /\ in_order us' /\
        describes (g_m omega) (g_n omega) hm hn us' f fbar t /\ In t l.
Proof.
  intros Hso Hcc. destruct (full_cc_terms_exact so omega H cc S ground rf Hso Hcc) as (l & E & _ & I).
  exists l. split; [exact E|]. intros hm hn us f fb R. exists (isort tamp_leb us). eexists.
  split; [apply isort_perm|]. split; [apply in_order_isort|]. split; [reflexivity|].
  apply I. do 5 eexists. split; [eapply requested_perm; [apply isort_perm|exact R]|].
  split; [apply in_order_isort|reflexivity].
Qed.

Lemma factors_inj cc ground us vs : Forall (amplitude cc ground) us -> Forall (amplitude cc ground) vs ->
  factors us = factors vs -> us = vs.
Proof.
  destruct us as [|u us], vs as [|v vs]; cbn; intros A B E; auto; injection E; intros; subst.
  - inversion B; subst. exfalso. eapply amplitude_not_one; [eassumption|reflexivity].
  - inversion A; subst. exfalso. eapply amplitude_not_one; [eassumption|reflexivity].
Qed.

Lemma full_cc_once so omega H cc S ground rf : set_order so -> 1 <= cc ->
  exists l, full_cc_terms so omega H cc S ground rf = Ok l /\
    NoDup l /\
    forall t t' hm hn us us' f fbar,
      In t l -> In t' l -> Permutation us us' ->
      Forall (amplitude cc ground) us ->
      describes (g_m omega) (g_n omega) hm hn us f fbar t ->
      describes (g_m omega) (g_n omega) hm hn us' f fbar t' ->
      t = t'.
Proof.
  intros Hso Hcc. destruct (full_cc_terms_exact so omega H cc S ground rf Hso Hcc) as (l & E & N & I).
  exists l. split; [exact E|]. split; [exact N|]. intros t t' hm hn us us' f fb Ht Ht' P A D D'.
  assert (A' : Forall (amplitude cc ground) us') by (eapply Permutation_Forall; eauto).
  apply I in Ht as (hm1 & hn1 & vs & f1 & fb1 & (_ & _ & Av & _) & O & D1).
  apply I in Ht' as (hm2 & hn2 & ws & f2 & fb2 & (_ & _ & Aw & _) & O' & D2).
  assert (us = vs) by (eapply factors_inj; eauto; rewrite D in D1; now injection D1).
  assert (us' = ws) by (eapply factors_inj; eauto; rewrite D' in D2; now injection D2).
  subst vs ws. assert (us = us').
  { rewrite <- (isort_in_order us O), <- (isort_in_order us' O'). now apply isort_tamp_ext. }
  subst us'. now rewrite D, D'.
Qed.
