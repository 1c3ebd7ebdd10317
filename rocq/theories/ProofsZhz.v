(** Proofs about the contractions of the z t symmetrised equations. *)
From Coq Require Import Lia Permutation.
From Verif Require Import PyBase PyStr PyBaseFacts ModelHelper ModelW ModelFullCC ModelZhz ProofsHelper ProofsW ProofsFullCC
  SpecFullCC SpecFullCCLatex SpecZhz.

(** ** No exceptions *)
Lemma concatM_ok {A B} (f : A -> res (list B)) (g : A -> list B) l :
  (forall x, In x l -> f x = Ok (g x)) -> concatM f l = Ok (flat_map g l).
Proof.
  intros H. unfold concatM. assert (E : mapM f l = Ok (map g l)).
  { induction l as [|x l IH]; [reflexivity|]. cbn [mapM map]. rewrite H by now left. cbn [bind].
    rewrite IH by (intros; apply H; now right). reflexivity. }
  rewrite E. cbn [bind]. now rewrite flat_map_concat_map.
Qed.

Lemma in_triples M t : In t (triples M) <-> at_lhs t + at_h t + at_z t = M.
Proof.
  unfold triples. rewrite in_map_iff. destruct t as [[a b] c]. unfold at_lhs, at_h, at_z. cbn [fst snd]. split.
  - intros [[x y] [E H]]. apply filter_In in H as [_ H]. cbn [fst snd] in *. apply Nat.leb_le in H.
    injection E as -> -> <-. lia.
  - intros H. exists (a, b). split; [cbn [fst snd]; f_equal; lia|]. apply filter_In. cbn [fst snd]. split; [|apply Nat.leb_le; lia].
    apply in_prod; unfold range; apply in_seq; lia.
Qed.
Lemma list_prod_flat {A B} (a : list A) (b : list B) : list_prod a b = flat_map (fun x => map (pair x) b) a.
Proof. induction a as [|x a IH]; [reflexivity|]. cbn [list_prod flat_map]. now rewrite IH. Qed.
Lemma nodup_prod {A B} (a : list A) (b : list B) : NoDup a -> NoDup b -> NoDup (list_prod a b).
Proof.
  intros Ha Hb. rewrite list_prod_flat. apply NoDup_flat_map; [exact Ha| |].
  - intros x _. apply NoDup_map_inj; [exact Hb|]. intros; congruence.
  - intros x y p _ _ H1 H2. apply in_map_iff in H1 as (? & <- & _). apply in_map_iff in H2 as (? & E & _). congruence.
Qed.
Lemma nodup_triples M : NoDup (triples M).
Proof.
  unfold triples. apply NoDup_map_inj.
  - apply NoDup_filter, nodup_prod; apply seq_NoDup.
  - intros [a b] [c d] _ _ [= E1 E2 _]. cbn [fst snd] in *. now subst.
Qed.

Definition sum3 (t : three) : nat := at_lhs t + at_h t + at_z t.
Lemma in_connection_perms Ml Mr lhs h r l u :
  In u (connection_perms Ml Mr lhs h r l) <->
  sum3 (fst u) = Ml /\ sum3 (snd u) = Mr /\ at_h (fst u) + at_h (snd u) <= h /\
  at_lhs (fst u) + at_lhs (snd u) <= lhs /\ at_z (fst u) <= r /\ at_z (snd u) <= l.
Proof.
  unfold connection_perms. rewrite filter_In. destruct u as [a b]. rewrite in_prod_iff, !in_triples, !andb_true_iff, !Nat.leb_le.
  cbn [fst snd]. unfold sum3. tauto.
Qed.
Lemma nodup_connection_perms Ml Mr lhs h r l : NoDup (connection_perms Ml Mr lhs h r l).
Proof. apply NoDup_filter, nodup_prod; apply nodup_triples. Qed.

(** ** The pure functions *)
Definition bz (z : option gop) (u l : three) : option zcon :=
  match z with
  | None => None
  | Some z => Some (mkz (g_rank z) (g_m z) (g_n z) (at_lhs u) (at_lhs l) (at_h u) (at_h l) (at_z u) (at_z l))
  end.
Lemma three_zero_ok t : sum3 t = 0 -> t = (0, 0, 0).
Proof. destruct t as [[a b] c]. unfold sum3, at_lhs, at_h, at_z. cbn [fst snd]. intros H. repeat f_equal; lia. Qed.
Lemma build_ok z u l : sum3 u = g_m (z_counts z) -> sum3 l = g_n (z_counts z) -> build_z z u l = Ok (bz z u l).
Proof.
  destruct z as [z|]; [reflexivity|]. cbn [z_counts g_m g_n]. intros Hu Hl.
  now rewrite (three_zero_ok u Hu), (three_zero_ok l Hl).
Qed.

Definition pair_of (perm : option gop * option gop) (u l : three * three) : list zpair :=
  let p := (bz (fst perm) (fst u) (fst l), bz (snd perm) (snd u) (snd l)) in
  if z_z_consistent (fst p) (snd p) then [p] else [].

Definition uppers lhs h perm := fst (generate_all_valid_z_connection_permutations lhs h (z_counts (fst perm)) (z_counts (snd perm))).
Definition lowers lhs h perm := snd (generate_all_valid_z_connection_permutations lhs h (z_counts (fst perm)) (z_counts (snd perm))).
Definition pairs_of lhs h perm : list zpair :=
  flat_map (fun u => flat_map (fun l => pair_of perm u l) (lowers lhs h perm)) (uppers lhs h perm).

Lemma pairs_ok lhs h perms :
  generate_all_o_h_z_connection_permutations lhs h perms = Ok (flat_map (pairs_of lhs h) perms).
Proof.
  unfold generate_all_o_h_z_connection_permutations. apply concatM_ok. intros [zl zr] _.
  cbn [fst snd]. cbn [generate_all_valid_z_connection_permutations]. 
  unfold pairs_of, uppers, lowers. cbn [generate_all_valid_z_connection_permutations fst snd].
  apply concatM_ok. intros u Hu. apply concatM_ok. intros l Hl.
  apply in_connection_perms in Hu as (U1 & U2 & _). apply in_connection_perms in Hl as (L1 & L2 & _).
  rewrite !build_ok by assumption. cbn [bind]. reflexivity.
Qed.

Definition ex (lhs : gop) (h : hop) (p : zpair) : list zterm :=
  let '(zl, zr) := p in
  let m_l := count_of z_n_lhs zl in let n_l := count_of z_m_lhs zl in
  let m_r := count_of z_n_lhs zr in let n_r := count_of z_m_lhs zr in
  let hm_l := count_of z_n_h zl in let hn_l := count_of z_m_h zl in
  let hm_r := count_of z_n_h zr in let hn_r := count_of z_m_h zr in
  let m_h := g_m lhs - (m_l + m_r) in let n_h := g_n lhs - (n_l + n_r) in
  let m_lhs := h_m h - (hm_l + hm_r) in let n_lhs := h_n h - (hn_l + hn_r) in
  if Nat.eqb m_lhs n_h && Nat.eqb n_lhs m_h
  then [(mkl (g_m lhs + g_n lhs) (g_m lhs) (g_n lhs) m_l n_l m_h n_h m_r n_r,
         mkhz (h_m h + h_n h) (h_m h) (h_n h) m_lhs n_lhs hm_l hn_l hm_r hn_r, p)]
  else [].

Lemma ex_ok lhs h zl zr :
  (zl, zr) <> (None, None) ->
  count_of z_n_lhs zl + count_of z_n_lhs zr <= g_m lhs -> count_of z_m_lhs zl + count_of z_m_lhs zr <= g_n lhs ->
  count_of z_n_h zl + count_of z_n_h zr <= h_m h -> count_of z_m_h zl + count_of z_m_h zr <= h_n h ->
  (do o <- explicit_z_connection lhs h (zl, zr); Ok (option_list o)) = Ok (ex lhs h (zl, zr)).
Proof.
  intros N A B C D. unfold explicit_z_connection, ex.
  rewrite !(proj2 (Nat.leb_le _ _)) by assumption. cbn [andb].
  destruct zl, zr; try congruence; destruct (Nat.eqb _ _); cbn [negb andb bind option_list]; try reflexivity;
    destruct (Nat.eqb _ _); reflexivity.
Qed.

Definition present (perm : option gop * option gop) : Prop := perm <> (None, None).

Lemma in_pair_of lhs h perm p : In p (pairs_of lhs h perm) <->
  exists u l, In u (uppers lhs h perm) /\ In l (lowers lhs h perm) /\
    p = (bz (fst perm) (fst u) (fst l), bz (snd perm) (snd u) (snd l)) /\ z_z_consistent (fst p) (snd p) = true.
Proof.
  unfold pairs_of. rewrite in_flat_map. split.
  - intros (u & Hu & H). apply in_flat_map in H as (l & Hl & H). exists u, l. repeat split; auto; unfold pair_of in H;
      destruct (z_z_consistent _ _) eqn:E; cbn in H; try tauto; destruct H as [<-|[]]; auto.
  - intros (u & l & Hu & Hl & -> & C). exists u. split; [exact Hu|]. apply in_flat_map. exists l. split; [exact Hl|].
    unfold pair_of. cbn [fst snd] in C |- *. rewrite C. now left.
Qed.

Lemma terms_ok lhs h perms : Forall present perms ->
  (do ps <- generate_all_o_h_z_connection_permutations lhs h perms; generate_explicit_z_connections lhs h ps)
  = Ok (flat_map (ex lhs h) (flat_map (pairs_of lhs h) perms)).
Proof.
  intros P. rewrite pairs_ok. cbn [bind]. unfold generate_explicit_z_connections. apply concatM_ok.
  intros [zl zr] H. apply in_flat_map in H as (perm & Hp & H). rewrite Forall_forall in P. specialize (P _ Hp).
  apply in_pair_of in H as (u & l & Hu & Hl & E & _). injection E as -> ->.
  apply in_connection_perms in Hu as (U1 & U2 & U3 & U4 & U5 & U6). apply in_connection_perms in Hl as (L1 & L2 & L3 & L4 & L5 & L6).
  destruct perm as [[gl|] [gr|]]; cbn [fst snd bz count_of z_n_lhs z_m_lhs z_n_h z_m_h] in *; try (apply ex_ok; cbn [count_of z_n_lhs z_m_lhs z_n_h z_m_h]; try congruence; lia).
Qed.

Lemma all_present k l r : Forall present (all_z_permutations (sides k l r)).
Proof.
  apply Forall_forall. intros p H. destruct k; cbn [sides all_z_permutations] in H; apply in_map_iff in H as (x & <- & _); intros E; discriminate.
Qed.
Lemma sides_ok k l r : l <> [] -> r <> [] -> sides_nonempty (sides k l r) = true.
Proof. destruct k, l, r; try easy. Qed.

Definition all_terms lhs H perms : list zterm :=
  flat_map (fun h => flat_map (ex lhs h) (flat_map (pairs_of lhs h) (generate_valid_z_n_operator_permutations lhs h perms))) H.

Lemma filter_out_ok lhs H k l r : l <> [] -> r <> [] ->
  filter_out_valid_z_terms lhs H (sides k l r) = Ok (all_terms lhs H (all_z_permutations (sides k l r))).
Proof.
  intros Hl Hr. unfold filter_out_valid_z_terms. rewrite sides_ok by assumption. apply concatM_ok.
  intros h _. apply terms_ok. pose proof (all_present k l r) as P. rewrite Forall_forall in *. intros p Hp.
  apply P. unfold generate_valid_z_n_operator_permutations in Hp. now apply filter_In in Hp as [? _].
Qed.

(** ** Membership *)
Definition permutation_of (k : kind) (l r : list gop) (perm : option gop * option gop) : Prop :=
  match k with
  | left_only => exists z, In z l /\ perm = (Some z, None)
  | right_only => exists z, In z r /\ perm = (None, Some z)
  | both_sides => exists a b, In a l /\ In b r /\ perm = (Some a, Some b)
  end.
Lemma in_all_z k l r perm : In perm (all_z_permutations (sides k l r)) <-> permutation_of k l r perm.
Proof.
  destruct k; cbn [sides all_z_permutations permutation_of]; rewrite in_map_iff.
  - split; intros (z & A & B); eauto.
  - split; intros (z & A & B); eauto.
  - split.
    + intros ([a b] & <- & B). apply in_prod_iff in B as [? ?]. exists a, b. auto.
    + intros (a & b & A & B & ->). exists (a, b). split; [reflexivity|]. now apply in_prod.
Qed.

Lemma valid_of_counts lhs h perm :
  let l := z_counts (fst perm) in let r := z_counts (snd perm) in
  g_m lhs + h_m h + g_m l + g_m r = g_n lhs + h_n h + g_n l + g_n r ->
  g_m l <= g_n lhs + h_n h + g_n r -> g_n l <= g_m lhs + h_m h + g_m r ->
  g_m r <= g_n lhs + h_n h + g_n l -> g_n r <= g_m lhs + h_m h + g_m l ->
  g_m lhs <= h_n h + g_n l + g_n r -> h_n h <= g_m lhs + g_m l + g_m r ->
  valid_z_permutation lhs h perm = true.
Proof.
  intros l r E A B C D F G. unfold valid_z_permutation. fold l r.
  rewrite (proj2 (Nat.eqb_eq _ _) E). cbn [negb].
  unfold z_joining_with_z_terms. rewrite !(proj2 (Nat.ltb_ge _ _)) by lia. cbn [orb].
  replace (omega_joining_with_itself lhs h [l; r]) with false.
  2:{ symmetry. unfold omega_joining_with_itself.
      destruct (Nat.eqb_spec (g_m lhs) 0) as [|Zm]; [reflexivity|].
      destruct (Nat.eqb_spec (g_n lhs) 0) as [|Zn]; [reflexivity|]. cbn [orb].
      rewrite !(proj2 (Nat.ltb_lt 0 (g_n lhs))), !(proj2 (Nat.ltb_lt 0 (g_m lhs))) by lia. cbn [andb].
      destruct (Nat.ltb_spec 0 (h_m h)); [reflexivity|]. destruct (Nat.ltb_spec 0 (h_n h)); [reflexivity|].
      cbn [orb]. apply negb_false_iff. cbn [existsb].
      destruct (Nat.ltb_spec 0 (g_n l)); [cbn; rewrite ?orb_true_r; reflexivity|].
      destruct (Nat.ltb_spec 0 (g_n r)); [cbn; rewrite ?orb_true_r; reflexivity|]. lia. }
  replace (h_joining_with_itself lhs h [l; r]) with false; [reflexivity|].
  symmetry. unfold h_joining_with_itself.
  destruct (Nat.eqb_spec (h_m h) 0) as [|Zm]; [reflexivity|].
  destruct (Nat.eqb_spec (h_n h) 0) as [|Zn]; [reflexivity|]. cbn [orb].
  rewrite !(proj2 (Nat.ltb_lt 0 (h_m h))), !(proj2 (Nat.ltb_lt 0 (h_n h))) by lia. cbn [andb].
  destruct (Nat.ltb_spec 0 (g_n lhs)); [reflexivity|]. destruct (Nat.ltb_spec 0 (g_m lhs)); [reflexivity|].
  cbn [orb]. apply negb_false_iff. cbn [existsb].
  destruct (Nat.ltb_spec 0 (g_m l)); [cbn; rewrite ?orb_true_r; reflexivity|].
  destruct (Nat.ltb_spec 0 (g_m r)); [cbn; rewrite ?orb_true_r; reflexivity|]. lia.
Qed.

Lemma in_ex lhs h p t : In t (ex lhs h p) ->
  t = (mkl (g_m lhs + g_n lhs) (g_m lhs) (g_n lhs) (count_of z_n_lhs (fst p)) (count_of z_m_lhs (fst p))
         (g_m lhs - (count_of z_n_lhs (fst p) + count_of z_n_lhs (snd p))) (g_n lhs - (count_of z_m_lhs (fst p) + count_of z_m_lhs (snd p)))
         (count_of z_n_lhs (snd p)) (count_of z_m_lhs (snd p)),
       mkhz (h_m h + h_n h) (h_m h) (h_n h)
         (h_m h - (count_of z_n_h (fst p) + count_of z_n_h (snd p))) (h_n h - (count_of z_m_h (fst p) + count_of z_m_h (snd p)))
         (count_of z_n_h (fst p)) (count_of z_m_h (fst p)) (count_of z_n_h (snd p)) (count_of z_m_h (snd p)), p) /\
  h_m h - (count_of z_n_h (fst p) + count_of z_n_h (snd p)) = g_n lhs - (count_of z_m_lhs (fst p) + count_of z_m_lhs (snd p)) /\
  h_n h - (count_of z_m_h (fst p) + count_of z_m_h (snd p)) = g_m lhs - (count_of z_n_lhs (fst p) + count_of z_n_lhs (snd p)).
Proof.
  destruct p as [zl zr]. unfold ex. cbn [fst snd].
  destruct (Nat.eqb_spec (h_m h - (count_of z_n_h zl + count_of z_n_h zr)) (g_n lhs - (count_of z_m_lhs zl + count_of z_m_lhs zr)));
  destruct (Nat.eqb_spec (h_n h - (count_of z_m_h zl + count_of z_m_h zr)) (g_m lhs - (count_of z_n_lhs zl + count_of z_n_lhs zr)));
  cbn [andb In]; intros H; try contradiction. destruct H as [<-|[]]. auto.
Qed.

(** The pairing read from the choices of the loops. *)
Definition choice (om on : nat) (u l : three * three) : pairing nat :=
  mkpairing (at_lhs (fst l)) (om - (at_lhs (fst l) + at_lhs (snd l))) (at_lhs (snd l))
    (at_lhs (fst u)) (at_h (fst u)) (at_z (fst u))
    (on - (at_lhs (fst u) + at_lhs (snd u))) (at_h (fst l)) (at_h (snd l))
    (at_lhs (snd u)) (at_z (snd u)) (at_h (snd u)).

Ltac counts := cbn [c_pl c_ph c_pr c_lp c_lh c_lr c_hp c_hl c_hr c_rp c_rl c_rh p_up p_down l_up l_down h_up h_down r_up r_down] in *;
  unfold p_up, p_down, l_up, l_down, h_up, h_down, r_up, r_down, sum3 in *;
  cbn [c_pl c_ph c_pr c_lp c_lh c_lr c_hp c_hl c_hr c_rp c_rl c_rh] in *.

Definition zranks (l : list gop) : Prop := Forall (fun z => g_rank z = g_m z + g_n z) l.

Lemma eq8 {A} (f : nat -> nat -> nat -> nat -> nat -> nat -> nat -> nat -> nat -> A) a b c d e g h i j a' b' c' d' e' g' h' i' j' :
  a = a' -> b = b' -> c = c' -> d = d' -> e = e' -> g = g' -> h = h' -> i = i' -> j = j' ->
  f a b c d e g h i j = f a' b' c' d' e' g' h' i' j'.
Proof. intros; subst; reflexivity. Qed.

Lemma sound lhs H k l r t : zranks l -> zranks r ->
  In t (all_terms lhs H (all_z_permutations (sides k l r))) ->
  exists c, contracts (g_m lhs) (g_n lhs) (in_h H) (in_z l) (in_z r) k c /\ t = recorded k c.
Proof.
  intros Rl Rr Ht. unfold all_terms in Ht. apply in_flat_map in Ht as (h & Hh & Ht).
  apply in_flat_map in Ht as (p & Hp & Ht). apply in_flat_map in Hp as (perm & Hperm & Hp).
  apply filter_In in Hperm as [Hperm _]. apply in_all_z in Hperm.
  apply in_pair_of in Hp as (u & lo & Hu & Hl & Ep & Cp). apply in_ex in Ht as (-> & E1 & E2).
  apply in_connection_perms in Hu as (U1 & U2 & U3 & U4 & U5 & U6). apply in_connection_perms in Hl as (L1 & L2 & L3 & L4 & L5 & L6).
  subst p. exists (choice (g_m lhs) (g_n lhs) u lo).
  assert (Ih : forall m n, m = h_m h -> n = h_n h -> in_h H m n) by (intros; subst; apply in_map_iff; eauto).
  unfold zranks in *. rewrite Forall_forall in *.
  assert (Iz : forall l z m n, In z l -> m = g_m z -> n = g_n z -> in_z l m n).
  { intros q z m n Hz -> ->. unfold in_z. apply in_map_iff. eauto. }
  unfold contracts, fits_kind, recorded, choice.
  destruct k; cbn [permutation_of] in Hperm.
  - destruct Hperm as (z & Hz & ->). cbn [fst snd bz count_of z_counts g_m g_n z_n_lhs z_m_lhs z_n_h z_m_h has_left has_right] in *.
    pose proof (three_zero_ok _ U2) as Zu. pose proof (three_zero_ok _ L2) as Zl. rewrite Zu, Zl in *. cbn [at_lhs at_h at_z fst snd] in *.
    specialize (Rl z Hz). counts. split.
    + repeat split; try discriminate; try lia; try (intros; eapply Iz; eauto; lia); try (apply Ih; lia).
    + f_equal; [f_equal; apply eq8; lia|f_equal; f_equal; apply eq8; lia].
  - destruct Hperm as (z & Hz & ->). cbn [fst snd bz count_of z_counts g_m g_n z_n_lhs z_m_lhs z_n_h z_m_h has_left has_right] in *.
    pose proof (three_zero_ok _ U1) as Zu. pose proof (three_zero_ok _ L1) as Zl. rewrite Zu, Zl in *. cbn [at_lhs at_h at_z fst snd] in *.
    specialize (Rr z Hz). counts. split.
    + repeat split; try discriminate; try lia; try (intros; eapply Iz; eauto; lia); try (apply Ih; lia).
    + f_equal; [f_equal; apply eq8; lia|f_equal; f_equal; apply eq8; lia].
  - destruct Hperm as (a & b & Ha & Hb & ->). cbn [fst snd bz count_of z_counts z_n_lhs z_m_lhs z_n_h z_m_h has_left has_right] in *.
    specialize (Rl a Ha). specialize (Rr b Hb). cbn [z_z_consistent z_m_x z_n_x] in Cp.
    apply andb_true_iff in Cp as [C1 C2]. apply Nat.eqb_eq in C1. apply Nat.eqb_eq in C2. counts. split.
    + repeat split; try discriminate; try lia; try (intros; eapply Iz; eauto; lia); try (apply Ih; lia).
    + f_equal; [f_equal; apply eq8; lia|f_equal; f_equal; apply eq8; lia].
Qed.

Lemma ex_intro_ lhs h p : 
  h_m h - (count_of z_n_h (fst p) + count_of z_n_h (snd p)) = g_n lhs - (count_of z_m_lhs (fst p) + count_of z_m_lhs (snd p)) ->
  h_n h - (count_of z_m_h (fst p) + count_of z_m_h (snd p)) = g_m lhs - (count_of z_n_lhs (fst p) + count_of z_n_lhs (snd p)) ->
  In (mkl (g_m lhs + g_n lhs) (g_m lhs) (g_n lhs) (count_of z_n_lhs (fst p)) (count_of z_m_lhs (fst p))
         (g_m lhs - (count_of z_n_lhs (fst p) + count_of z_n_lhs (snd p))) (g_n lhs - (count_of z_m_lhs (fst p) + count_of z_m_lhs (snd p)))
         (count_of z_n_lhs (snd p)) (count_of z_m_lhs (snd p)),
       mkhz (h_m h + h_n h) (h_m h) (h_n h)
         (h_m h - (count_of z_n_h (fst p) + count_of z_n_h (snd p))) (h_n h - (count_of z_m_h (fst p) + count_of z_m_h (snd p)))
         (count_of z_n_h (fst p)) (count_of z_m_h (fst p)) (count_of z_n_h (snd p)) (count_of z_m_h (snd p)), p) (ex lhs h p).
Proof.
  destruct p as [zl zr]. unfold ex. cbn [fst snd]. intros E1 E2.
  rewrite (proj2 (Nat.eqb_eq _ _) E1), (proj2 (Nat.eqb_eq _ _) E2). cbn [andb]. now left.
Qed.

(** The choices of the loops that give a pairing. *)
Definition up_choice (c : pairing nat) : three * three := ((c_lp c, c_lh c, c_lr c), (c_rp c, c_rh c, c_rl c)).
Definition down_choice (c : pairing nat) : three * three := ((c_pl c, c_hl c, c_rl c), (c_pr c, c_hr c, c_lr c)).

Lemma complete lhs H k l r c : zranks l -> zranks r ->
  contracts (g_m lhs) (g_n lhs) (in_h H) (in_z l) (in_z r) k c ->
  In (recorded k c) (all_terms lhs H (all_z_permutations (sides k l r))).
Proof.
  intros Rl Rr (Em & En & Hh & (K1 & K2) & Zl & Zr). unfold all_terms.
  unfold in_h in Hh. apply in_map_iff in Hh as (h & Eh & Hh). injection Eh as Ehm Ehn.
  apply in_flat_map. exists h. split; [exact Hh|]. apply in_flat_map.
  assert (Q : exists perm, permutation_of k l r perm /\
     g_m (z_counts (fst perm)) = l_up c /\ g_n (z_counts (fst perm)) = l_down c /\
     g_m (z_counts (snd perm)) = r_up c /\ g_n (z_counts (snd perm)) = r_down c).
  { unfold in_z in *. destruct k; cbn [has_left has_right permutation_of] in *.
    - destruct (proj1 (in_map_iff _ _ _) (Zl eq_refl)) as (z & E & Hz). injection E as E1 E2.
      exists (Some z, None). destruct K2 as [K2 K3]; [reflexivity|]. cbn [fst snd z_counts g_m g_n]. eauto 10.
    - destruct (proj1 (in_map_iff _ _ _) (Zr eq_refl)) as (z & E & Hz). injection E as E1 E2.
      exists (None, Some z). destruct K1 as [K1 K3]; [reflexivity|]. cbn [fst snd z_counts g_m g_n]. eauto 10.
    - destruct (proj1 (in_map_iff _ _ _) (Zl eq_refl)) as (a & E & Ha). injection E as E1 E2.
      destruct (proj1 (in_map_iff _ _ _) (Zr eq_refl)) as (b & E & Hb). injection E as E3 E4.
      exists (Some a, Some b). cbn [fst snd z_counts]. eauto 12. }
  destruct Q as (perm & Qp & Q1 & Q2 & Q3 & Q4).
  set (p := (bz (fst perm) (fst (up_choice c)) (fst (down_choice c)), bz (snd perm) (snd (up_choice c)) (snd (down_choice c)))).
  assert (V : valid_z_permutation lhs h perm = true).
  { apply valid_of_counts; rewrite ?Q1, ?Q2, ?Q3, ?Q4, ?Ehm, ?Ehn, <- ?Em, <- ?En; counts; lia. }
  assert (Pin : In p (pairs_of lhs h perm)).
  { apply in_pair_of. exists (up_choice c), (down_choice c). split; [|split; [|split; [reflexivity|]]].
    - apply in_connection_perms. unfold up_choice, at_lhs, at_h, at_z. rewrite Q1, Q3, Q2, Q4, Ehn, <- En.
      unfold sum3, at_lhs, at_h, at_z. cbn [fst snd]. counts. lia.
    - apply in_connection_perms. unfold down_choice, at_lhs, at_h, at_z. rewrite Q1, Q3, Q2, Q4, Ehm, <- Em.
      unfold sum3, at_lhs, at_h, at_z. cbn [fst snd]. counts. lia.
    - unfold p. cbn [fst snd]. destruct perm as [[a|] [b|]]; cbn [fst snd bz z_z_consistent z_m_x z_n_x]; try reflexivity.
      unfold up_choice, down_choice, at_z. cbn [fst snd]. now rewrite !Nat.eqb_refl. }
  exists p. split.
  { apply in_flat_map. exists perm. split; [|exact Pin]. unfold generate_valid_z_n_operator_permutations.
    apply filter_In. split; [now apply in_all_z|exact V]. }
  unfold zranks in *. rewrite Forall_forall in *.
  assert (E : count_of z_n_lhs (fst p) = c_pl c /\ count_of z_m_lhs (fst p) = c_lp c /\
              count_of z_n_lhs (snd p) = c_pr c /\ count_of z_m_lhs (snd p) = c_rp c /\
              count_of z_n_h (fst p) = c_hl c /\ count_of z_m_h (fst p) = c_lh c /\
              count_of z_n_h (snd p) = c_hr c /\ count_of z_m_h (snd p) = c_rh c).
  { unfold p, up_choice, down_choice, at_lhs, at_h, at_z.
    destruct k; cbn [permutation_of] in Qp.
    - destruct Qp as (z & _ & ->). destruct K2 as [K2 K3]; [reflexivity|].
      cbn [fst snd bz count_of z_n_lhs z_m_lhs z_n_h z_m_h]. unfold at_lhs, at_h. cbn [fst snd]. counts. lia.
    - destruct Qp as (z & _ & ->). destruct K1 as [K2' K3]; [reflexivity|].
      cbn [fst snd bz count_of z_n_lhs z_m_lhs z_n_h z_m_h]. unfold at_lhs, at_h. cbn [fst snd]. counts. lia.
    - destruct Qp as (a & b & _ & _ & ->).
      cbn [fst snd bz count_of z_n_lhs z_m_lhs z_n_h z_m_h]. unfold at_lhs, at_h. cbn [fst snd]. lia. }
  destruct E as (A1 & A2 & A3 & A4 & A5 & A6 & A7 & A8).
  pose proof (ex_intro_ lhs h p) as I. rewrite A1, A2, A3, A4, A5, A6, A7, A8 in I.
  replace (recorded k c) with
    (mkl (g_m lhs + g_n lhs) (g_m lhs) (g_n lhs) (c_pl c) (c_lp c) (g_m lhs - (c_pl c + c_pr c))
       (g_n lhs - (c_lp c + c_rp c)) (c_pr c) (c_rp c),
     mkhz (h_m h + h_n h) (h_m h) (h_n h) (h_m h - (c_hl c + c_hr c)) (h_n h - (c_lh c + c_rh c)) 
       (c_hl c) (c_lh c) (c_hr c) (c_rh c), p).
  { apply I; rewrite ?Ehm, ?Ehn, <- ?Em, <- ?En; counts; lia. }
  unfold recorded. rewrite Ehm, Ehn, <- Em, <- En. f_equal; [f_equal; apply eq8; counts; lia|].
  unfold p, up_choice, down_choice. destruct k; cbn [permutation_of has_left has_right] in *.
  - destruct Qp as (z & Hz & ->). cbn [fst snd bz z_counts] in *. unfold at_lhs, at_h, at_z. cbn [fst snd].
    rewrite (Rl _ Hz), Q1, Q2. reflexivity.
  - destruct Qp as (z & Hz & ->). cbn [fst snd bz z_counts] in *. unfold at_lhs, at_h, at_z. cbn [fst snd].
    rewrite (Rr _ Hz), Q3, Q4. reflexivity.
  - destruct Qp as (a & b & Ha & Hb & ->). cbn [fst snd bz z_counts] in *. unfold at_lhs, at_h, at_z. cbn [fst snd].
    rewrite (Rl _ Ha), (Rr _ Hb), Q1, Q2, Q3, Q4. reflexivity.
Qed.

(** ** Each once *)
Lemma nodup_of_map {A B} (f : A -> B) l : NoDup (map f l) -> NoDup l.
Proof.
  induction l as [|x l IH]; [constructor|]. cbn [map]. intros H. inversion H; subst. constructor; [|auto].
  intros C. apply H2. now apply in_map.
Qed.
Lemma map_nodup_inj {A B} (f : A -> B) l x y : NoDup (map f l) -> In x l -> In y l -> f x = f y -> x = y.
Proof.
  induction l as [|a l IH]; cbn [map In]; [easy|]. intros H Hx Hy E. inversion H; subst.
  destruct Hx as [<-|Hx], Hy as [<-|Hy]; auto.
  - exfalso. apply H2. rewrite E. now apply in_map.
  - exfalso. apply H2. rewrite <- E. now apply in_map.
Qed.

Definition gcounts (z : gop) : nat * nat := (g_m z, g_n z).

Lemma nodup_all_z k l r : NoDup l -> NoDup r -> NoDup (all_z_permutations (sides k l r)).
Proof.
  intros Nl Nr. destruct k; cbn [sides all_z_permutations]; apply NoDup_map_inj; auto using nodup_prod; intros; try congruence.
  destruct x, y. cbn [fst snd] in *. congruence.
Qed.

(** A pair of records tells where it comes from. *)
Lemma bz_inj z z' u l u' l' : (z = None <-> z' = None) -> bz z u l = bz z' u' l' ->
  gcounts (z_counts z) = gcounts (z_counts z') /\ (z <> None -> u = u' /\ l = l').
Proof.
  destruct z as [z|], z' as [z'|]; intros Hn E.
  - cbn [bz] in E. injection E as _ E1 E2 E3 E4 E5 E6 E7 E8. cbn [z_counts]. unfold gcounts. split; [congruence|]. intros _.
    destruct u as [[? ?] ?], u' as [[? ?] ?], l as [[? ?] ?], l' as [[? ?] ?]. unfold at_lhs, at_h, at_z in *. cbn [fst snd] in *. subst. auto.
  - destruct Hn as [_ Hn]. discriminate Hn. reflexivity.
  - destruct Hn as [Hn _]. discriminate Hn. reflexivity.
  - split; [reflexivity|congruence].
Qed.

Lemma same_shape k l r p q : permutation_of k l r p -> permutation_of k l r q ->
  (fst p = None <-> fst q = None) /\ (snd p = None <-> snd q = None).
Proof.
  destruct k; cbn [permutation_of]; intros Hp Hq.
  - destruct Hp as (? & _ & ->), Hq as (? & _ & ->). cbn. intuition discriminate.
  - destruct Hp as (? & _ & ->), Hq as (? & _ & ->). cbn. intuition discriminate.
  - destruct Hp as (? & ? & _ & _ & ->), Hq as (? & ? & _ & _ & ->). cbn. intuition discriminate.
Qed.

Lemma same_counts k l r p q : NoDup (map gcounts l) -> NoDup (map gcounts r) ->
  permutation_of k l r p -> permutation_of k l r q ->
  gcounts (z_counts (fst p)) = gcounts (z_counts (fst q)) -> gcounts (z_counts (snd p)) = gcounts (z_counts (snd q)) -> p = q.
Proof.
  intros Nl Nr. destruct k; cbn [permutation_of]; intros Hp Hq E1 E2.
  - destruct Hp as (a & Ha & ->), Hq as (b & Hb & ->). cbn [fst snd z_counts] in *.
    now rewrite (map_nodup_inj _ _ _ _ Nl Ha Hb E1).
  - destruct Hp as (a & Ha & ->), Hq as (b & Hb & ->). cbn [fst snd z_counts] in *.
    now rewrite (map_nodup_inj _ _ _ _ Nr Ha Hb E2).
  - destruct Hp as (a & b & Ha & Hb & ->), Hq as (a' & b' & Ha' & Hb' & ->). cbn [fst snd z_counts] in *.
    now rewrite (map_nodup_inj _ _ _ _ Nl Ha Ha' E1), (map_nodup_inj _ _ _ _ Nr Hb Hb' E2).
Qed.

Lemma choice_unique lhs h perm u lo u' lo' :
  In u (uppers lhs h perm) -> In lo (lowers lhs h perm) -> In u' (uppers lhs h perm) -> In lo' (lowers lhs h perm) ->
  (bz (fst perm) (fst u) (fst lo), bz (snd perm) (snd u) (snd lo))
  = (bz (fst perm) (fst u') (fst lo'), bz (snd perm) (snd u') (snd lo')) -> u = u' /\ lo = lo'.
Proof.
  intros Hu Hl Hu' Hl' E. injection E as E1 E2.
  apply in_connection_perms in Hu as (U1 & U2 & _). apply in_connection_perms in Hl as (L1 & L2 & _).
  apply in_connection_perms in Hu' as (U1' & U2' & _). apply in_connection_perms in Hl' as (L1' & L2' & _).
  assert (A : fst u = fst u' /\ fst lo = fst lo').
  { destruct (fst perm) as [z|] eqn:Ez.
    - apply (bz_inj (Some z) (Some z)) in E1; [|tauto]. apply E1. discriminate.
    - cbn [z_counts g_m g_n] in *. rewrite (three_zero_ok _ U1), (three_zero_ok _ U1'), (three_zero_ok _ L1), (three_zero_ok _ L1'). auto. }
  assert (B : snd u = snd u' /\ snd lo = snd lo').
  { destruct (snd perm) as [z|] eqn:Ez.
    - apply (bz_inj (Some z) (Some z)) in E2; [|tauto]. apply E2. discriminate.
    - cbn [z_counts g_m g_n] in *. rewrite (three_zero_ok _ U2), (three_zero_ok _ U2'), (three_zero_ok _ L2), (three_zero_ok _ L2'). auto. }
  destruct u, u', lo, lo'. cbn [fst snd] in *. destruct A, B. subst. auto.
Qed.

Lemma in_pair_of1 perm u lo p : In p (pair_of perm u lo) -> p = (bz (fst perm) (fst u) (fst lo), bz (snd perm) (snd u) (snd lo)).
Proof. unfold pair_of. cbn [fst snd]. destruct (z_z_consistent _ _); cbn [In]; [intros [<-|[]]; reflexivity|easy]. Qed.

Lemma nodup_pairs_of lhs h perm : NoDup (pairs_of lhs h perm).
Proof.
  unfold pairs_of. apply NoDup_flat_map; [apply nodup_connection_perms| |].
  - intros u Hu. apply NoDup_flat_map; [apply nodup_connection_perms| |].
    + intros lo _. unfold pair_of. cbn [fst snd]. destruct (z_z_consistent _ _); repeat constructor. easy.
    + intros lo lo' p Hl Hl' H1 H2. apply in_pair_of1 in H1, H2. rewrite H1 in H2.
      now destruct (choice_unique lhs h perm u lo u lo' Hu Hl Hu Hl' H2).
  - intros u u' p Hu Hu' H1 H2. apply in_flat_map in H1 as (lo & Hl & H1). apply in_flat_map in H2 as (lo' & Hl' & H2).
    apply in_pair_of1 in H1, H2. rewrite H1 in H2.
    now destruct (choice_unique lhs h perm u lo u' lo' Hu Hl Hu' Hl' H2).
Qed.

Lemma nodup_ex lhs h p : NoDup (ex lhs h p).
Proof. destruct p as [zl zr]. unfold ex. destruct (_ && _); repeat constructor; easy. Qed.

Lemma nodup_all lhs H k l r : h_list H -> NoDup (map gcounts l) -> NoDup (map gcounts r) ->
  NoDup (all_terms lhs H (all_z_permutations (sides k l r))).
Proof.
  intros NH Nl Nr. unfold all_terms. apply NoDup_flat_map; [exact (nodup_of_map _ _ NH)| |].
  - intros h _. apply NoDup_flat_map.
    + apply NoDup_flat_map.
      * apply NoDup_filter, nodup_all_z; eapply nodup_of_map; eassumption.
      * intros perm _. apply nodup_pairs_of.
      * intros p q x Hp Hq H1 H2. apply filter_In in Hp as [Hp _]. apply filter_In in Hq as [Hq _].
        apply in_all_z in Hp, Hq. destruct (same_shape _ _ _ _ _ Hp Hq) as [S1 S2].
        apply in_pair_of in H1 as (u & lo & _ & _ & E1 & _). apply in_pair_of in H2 as (u' & lo' & _ & _ & E2 & _).
        rewrite E1 in E2. injection E2 as E3 E4. apply bz_inj in E3; [|exact S1]. apply bz_inj in E4; [|exact S2].
        exact (same_counts k l r p q Nl Nr Hp Hq (proj1 E3) (proj1 E4)).
    + intros p _. apply nodup_ex.
    + intros p q t _ _ H1 H2. apply in_ex in H1 as (E1 & _). apply in_ex in H2 as (E2 & _). rewrite E1 in E2. now injection E2.
  - intros h h' t Hh Hh' H1 H2. apply in_flat_map in H1 as (p & _ & H1). apply in_flat_map in H2 as (q & _ & H2).
    apply in_ex in H1 as (E1 & _). apply in_ex in H2 as (E2 & _). rewrite E1 in E2.
    apply (map_nodup_inj _ _ _ _ NH Hh Hh'). injection E2. intros. congruence.
Qed.

Theorem z_terms_exact lhs H k l r : h_list H -> z_list l -> z_list r ->
  exists ts, filter_out_valid_z_terms lhs H (sides k l r) = Ok ts /\ NoDup ts /\
    forall t, In t ts <->
      exists c, contracts (g_m lhs) (g_n lhs) (in_h H) (in_z l) (in_z r) k c /\ t = recorded k c.
Proof.
  intros NH (l0 & Nl & Rl) (r0 & Nr & Rr). eexists. split; [now apply filter_out_ok|]. split; [now apply nodup_all|].
  intros t. split; [now apply sound|]. intros (c & Hc & ->). now apply complete.
Qed.

(** The recorded term tells the contraction. *)
Lemma recorded_inj k c d : fits_kind k c -> fits_kind k d -> recorded k c = recorded k d -> c = d.
Proof.
  intros (A1 & A2) (B1 & B2) E. destruct c, d. unfold recorded in E.
  destruct k; cbn [has_left has_right] in *; counts; injection E; intros; subst; f_equal; lia.
Qed.

(** ** The operators of the ansatz *)
Lemma z_operators_exact cc ground :
  NoDup (generate_z_operator cc ground) /\
  forall z, In z (generate_z_operator cc ground) <-> z_operator cc ground z.
Proof.
  unfold generate_z_operator. split.
  - apply NoDup_map_inj; [apply NoDup_filter, nodup_mn_pairs|]. intros [a b] [c d] _ _ [= _ _ -> ->]. reflexivity.
  - intros z. rewrite in_map_iff. unfold z_operator, z_spelling, z_allowed. split.
    + intros ([m n] & <- & H). apply filter_In in H as [H B]. apply in_mn_pairs in H. cbn [fst snd g_m g_n g_name g_rank] in *.
      split; [|split; [reflexivity|split; [exact H|]]].
      * unfold z_name. destruct m, n; reflexivity.
      * intros ->. destruct n; [reflexivity|discriminate].
    + intros (S & R & L & G). exists (g_m z, g_n z). cbn [fst snd]. split.
      * destruct z as [nm rk m n]. cbn [g_m g_n g_name g_rank] in *. subst. unfold z_name. destruct m, n; reflexivity.
      * apply filter_In. split; [now apply in_mn_pairs|]. cbn [fst snd]. destruct ground; [|reflexivity]. now rewrite G.
Qed.

Lemma z_operator_list cc ground : z_list (generate_z_operator cc ground).
Proof.
  split; [|split].
  - intros E. assert (X : In (mkgop (z_name 0 0) 0 0 0) (generate_z_operator cc ground)).
    { unfold generate_z_operator. apply in_map_iff. exists (0, 0). split; [reflexivity|]. apply filter_In. split; [apply in_mn_pairs; lia|].
      now destruct ground. }
    now rewrite E in X.
  - unfold generate_z_operator. rewrite map_map. cbn [g_m g_n]. apply NoDup_map_inj; [apply NoDup_filter, nodup_mn_pairs|].
    intros [a b] [c d] _ _ [= -> ->]. reflexivity.
  - apply Forall_forall. intros z Hz. apply z_operators_exact in Hz as (_ & R & _). exact R.
Qed.
Lemma in_z_operators cc ground m n : in_z (generate_z_operator cc ground) m n <-> z_allowed cc ground m n.
Proof.
  unfold in_z. rewrite in_map_iff. split.
  - intros (z & [= <- <-] & H). now apply z_operators_exact in H as (_ & _ & A).
  - intros A. exists (mkgop (z_name m n) (m + n) m n). split; [reflexivity|]. apply z_operators_exact.
    split; [|split; [reflexivity|exact A]]. unfold z_spelling, z_name. cbn [g_m g_n g_name]. destruct m, n; reflexivity.
Qed.

Lemma pruned_list H : h_list (pruned_hamiltonian H).
Proof.
  unfold h_list, pruned_hamiltonian. apply NoDup_map_inj.
  - apply NoDup_filter. apply NoDup_map_inj; [apply nodup_mn_pairs|]. intros [a b] [c d] _ _ [= ]. now subst.
  - intros x y Hx Hy [= E1 E2]. apply filter_In in Hx as [Hx _]. apply filter_In in Hy as [Hy _].
    apply in_map_iff in Hx as ([a b] & <- & _). apply in_map_iff in Hy as ([c d] & <- & _). cbn in *. now subst.
Qed.
Lemma in_pruned H m n : in_h (pruned_hamiltonian H) m n <-> h_allowed H m n.
Proof.
  unfold in_h, pruned_hamiltonian, h_allowed. rewrite in_map_iff. split.
  - intros (h & [= <- <-] & Hh). apply filter_In in Hh as [Hh B]. apply in_map_iff in Hh as ([a b] & <- & Hp).
    apply in_mn_pairs in Hp. cbn [h_rank h_m h_n fst snd] in *. split; [exact Hp|].
    apply orb_true_iff in B as [B|B]; [left; now apply Nat.ltb_lt|right; now apply Nat.eqb_eq].
  - intros (L & B). exists (mkhop (m + n) m n). split; [reflexivity|]. apply filter_In. split.
    + apply in_map_iff. exists (m, n). split; [reflexivity|]. now apply in_mn_pairs.
    + cbn [h_rank h_m h_n]. apply orb_true_iff. destruct B as [B| ->]; [left; now apply Nat.ltb_lt|now right].
Qed.

Theorem z_terms_of_ansatz lhs H cc ground k :
  exists ts, filter_out_valid_z_terms lhs (pruned_hamiltonian H) (sides k (generate_z_operator cc ground) (generate_z_operator cc ground)) = Ok ts /\
    NoDup ts /\
    forall t, In t ts <->
      exists c, contracts (g_m lhs) (g_n lhs) (h_allowed H) (z_allowed cc ground) (z_allowed cc ground) k c /\ t = recorded k c.
Proof.
  destruct (z_terms_exact lhs (pruned_hamiltonian H) k _ _ (pruned_list H) (z_operator_list cc ground) (z_operator_list cc ground))
    as (ts & E & N & I). exists ts. split; [exact E|]. split; [exact N|]. intros t. rewrite I. unfold contracts.
  split; intros (c & (A & B & C & D & F & G) & T); exists c; rewrite ?in_pruned, ?in_z_operators in *; intuition (try (now apply in_pruned || now apply in_z_operators));
    try (apply in_z_operators; auto).
Qed.
