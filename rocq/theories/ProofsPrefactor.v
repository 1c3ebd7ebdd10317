(** Proofs about the cancellation of common factors. *)
From Coq Require Import Sorted.
From Verif Require Import PyBase PyBaseFacts ModelPrefactor SpecPrefactor ProofsHelper.

Section Simplify.
  Context {A : Type}.
  Variable eqb : A -> A -> bool.
  Hypothesis eqb_eq : forall a b, eqb a b = true <-> a = b.
  Variable so : list A -> list A.
  Hypothesis Hso : set_order so.

  Lemma dec : forall a b : A, {a = b} + {a <> b}.
  Proof. intros a b. destruct (eqb a b) eqn:E; [left|right]; [|intros ->]; rewrite <- ?eqb_eq; [auto|].
    assert (eqb b b = true) by now apply eqb_eq. congruence. Defined.

  Notation cnt k l := (count_occ dec l k).

  Lemma count_in_occ k l : count_in eqb k l = cnt k l.
  Proof.
    unfold count_in. induction l as [|x l IH]; [reflexivity|]. cbn.
    destruct (dec x k) as [->|N].
    - assert (eqb k k = true) as -> by now apply eqb_eq. cbn. now rewrite IH.
    - destruct (eqb k x) eqn:E; [apply eqb_eq in E; congruence|]. exact IH.
  Qed.

  Lemma existsb_in k l : existsb (eqb k) l = true <-> In k l.
  Proof.
    rewrite existsb_exists. split.
    - intros [x [H E]]. apply eqb_eq in E. now subst.
    - intros H. exists k. split; [exact H|]. now apply eqb_eq.
  Qed.

  Lemma cnt_repeat k x n : cnt k (repeat x n) = if dec x k then n else 0.
  Proof. induction n as [|n IH]; cbn; destruct (dec x k); auto. Qed.

  Lemma cnt_extend (g : A -> nat) keys k : NoDup keys ->
    cnt k (flat_map (fun x => repeat x (g x)) keys) = if in_dec dec k keys then g k else 0.
  Proof.
    induction 1 as [|x l Hx Hn IH]; [reflexivity|].
    cbn [flat_map]. rewrite count_occ_app, cnt_repeat, IH.
    destruct (in_dec dec k (x :: l)) as [I|NI], (in_dec dec k l) as [I'|NI'], (dec x k) as [->|N];
      cbn in *; try tauto; try lia.
  Qed.

  Lemma flat_map_map {X Y Z} (f : Y -> list Z) (g : X -> Y) l : flat_map f (map g l) = flat_map (fun x => f (g x)) l.
  Proof. induction l as [|x l IH]; cbn; [reflexivity|]. now rewrite IH. Qed.

  Definition meet (num den : list A) : bool := existsb (fun k => existsb (eqb k) den) num.

  Lemma meet_spec num den : meet num den = true <-> exists k, In k num /\ In k den.
  Proof.
    unfold meet. rewrite existsb_exists. split; intros [k [H E]]; exists k; (split; [exact H|]);
      now apply existsb_in.
  Qed.

  Lemma simplify_cases num den :
    simplify_prefactor eqb so num den =
    if negb (meet num den) then (num, den)
    else (flat_map (fun k => repeat k (if existsb (eqb k) den then cnt k num - cnt k den else cnt k num)) (so (dedup eqb num)),
          flat_map (fun k => repeat k (if existsb (eqb k) num then cnt k den - cnt k num else cnt k den)) (so (dedup eqb den))).
  Proof.
    unfold simplify_prefactor, meet. destruct num as [|a num]; [reflexivity|].
    destruct den as [|b den].
    - assert (existsb (fun k => existsb (eqb k) []) (a :: num) = false) as ->; [|reflexivity].
      destruct (existsb (fun k => existsb (eqb k) []) (a :: num)) eqn:E; [|reflexivity].
      apply existsb_exists in E as [x [_ E]]. discriminate.
    - destruct (negb _) eqn:M; [reflexivity|].
      unfold extend_counts, count_dict.
      rewrite !flat_map_map. f_equal.
      + rewrite !flat_map_concat_map. f_equal. apply map_ext_in. intros k Hk.
        assert (I : existsb (eqb k) (a :: num) = true).
        { apply existsb_in. apply (Permutation_in _ (Permutation_sym (Hso _))) in Hk.
          exact (proj1 (in_dedup eqb eqb_eq _ _) Hk). }
        cbn [fst snd]. rewrite I. cbn [andb]. rewrite !count_in_occ.
        destruct (existsb (eqb k) (b :: den)) eqn:D; cbn [fst snd]; [|reflexivity].
        unfold cancel. destruct (Nat.ltb_spec (cnt k (b :: den)) (cnt k (a :: num))); [reflexivity|].
        destruct (Nat.ltb_spec (cnt k (a :: num)) (cnt k (b :: den))); cbn [fst snd]; f_equal; lia.
      + rewrite !flat_map_concat_map. f_equal. apply map_ext_in. intros k Hk.
        assert (I : existsb (eqb k) (b :: den) = true).
        { apply existsb_in. apply (Permutation_in _ (Permutation_sym (Hso _))) in Hk.
          exact (proj1 (in_dedup eqb eqb_eq _ _) Hk). }
        cbn [fst snd]. rewrite I. rewrite !andb_true_r, !count_in_occ.
        destruct (existsb (eqb k) (a :: num)) eqn:D; cbn [fst snd]; [|reflexivity].
        unfold cancel. destruct (Nat.ltb_spec (cnt k (b :: den)) (cnt k (a :: num))); cbn [fst snd]; [f_equal; lia|].
        destruct (Nat.ltb_spec (cnt k (a :: num)) (cnt k (b :: den))); cbn [fst snd]; f_equal; lia.
  Qed.

  Lemma nodup_keys l : NoDup (so (dedup eqb l)).
  Proof. eapply Permutation_NoDup; [apply Hso|]. apply (nodup_dedup eqb eqb_eq). Qed.
  Lemma in_keys k l : In k (so (dedup eqb l)) <-> In k l.
  Proof.
    rewrite <- (in_dedup eqb eqb_eq k l). split; intros H; [apply (Permutation_in _ (Permutation_sym (Hso _)) H)|].
    apply (Permutation_in _ (Hso _) H).
  Qed.

  Lemma simplify_counts num den k :
    let '(n, d) := simplify_prefactor eqb so num den in
    cnt k n = cnt k num - cnt k den /\ cnt k d = cnt k den - cnt k num.
  Proof.
    rewrite simplify_cases. destruct (meet num den) eqn:M; cbn [negb].
    - rewrite !cnt_extend by apply nodup_keys.
      assert (Z : forall l, ~ In k l -> cnt k l = 0) by (intros l H; now apply count_occ_not_In).
      destruct (in_dec dec k (so (dedup eqb num))) as [I|I], (in_dec dec k (so (dedup eqb den))) as [I'|I'];
        rewrite in_keys in I, I'.
      + rewrite (proj2 (existsb_in k den) I'), (proj2 (existsb_in k num) I). auto.
      + assert (existsb (eqb k) den = false) as ->.
        { destruct (existsb (eqb k) den) eqn:E; [apply existsb_in in E; contradiction|reflexivity]. }
        rewrite (Z den I'). lia.
      + assert (existsb (eqb k) num = false) as ->.
        { destruct (existsb (eqb k) num) eqn:E; [apply existsb_in in E; contradiction|reflexivity]. }
        rewrite (Z num I). lia.
      + rewrite (Z num I), (Z den I'). auto.
    - destruct (in_dec dec k num) as [I|I].
      + assert (~ In k den).
        { intros I'. assert (meet num den = true) by (apply meet_spec; exists k; auto). congruence. }
        apply (count_occ_not_In dec) in H. rewrite H. lia.
      + apply (count_occ_not_In dec) in I. rewrite I. lia.
  Qed.

  Lemma value_perm (w : A -> nat) l l' : Permutation l l' -> value w l = value w l'.
  Proof. unfold value. induction 1; cbn in *; try nia; congruence. Qed.
  Lemma value_app (w : A -> nat) l l' : value w (l ++ l') = value w l * value w l'.
  Proof. unfold value. induction l as [|x l IH]; cbn; [lia|]. rewrite IH. lia. Qed.

  Lemma cancelled_fraction (w : A -> nat) num den num' den' :
    cancelled num den num' den' -> same_fraction w num den num' den'.
  Proof.
    intros (c & P1 & P2). unfold same_fraction.
    rewrite (value_perm w _ _ P1), (value_perm w _ _ P2), !value_app. lia.
  Qed.

  Lemma perm_counts l l' : (forall k, cnt k l = cnt k l') -> Permutation l l'.
  Proof. intros H. now apply (Permutation_count_occ dec). Qed.

  Lemma simplify_spec num den :
    let '(n, d) := simplify_prefactor eqb so num den in
    cancelled num den n d /\ no_common_factor n d /\
    (no_common_factor num den -> n = num /\ d = den).
  Proof.
    pose proof (simplify_counts num den) as C. pose proof (simplify_cases num den) as E.
    destruct (simplify_prefactor eqb so num den) as [n d].
    split; [|split].
    - (* the common part: the smaller count of every factor *)
      exists (flat_map (fun k => repeat k (Nat.min (cnt k num) (cnt k den))) (so (dedup eqb num))).
      assert (X : forall k, cnt k (flat_map (fun x => repeat x (Nat.min (cnt x num) (cnt x den))) (so (dedup eqb num)))
                  = Nat.min (cnt k num) (cnt k den)).
      { intros k. rewrite (cnt_extend (fun x => Nat.min (cnt x num) (cnt x den))) by apply nodup_keys.
        destruct (in_dec dec k (so (dedup eqb num))) as [I|I]; [reflexivity|].
        rewrite in_keys in I. apply (count_occ_not_In dec) in I. rewrite I. reflexivity. }
      split; apply perm_counts; intros k; rewrite count_occ_app, X; destruct (C k) as [C1 C2];
        rewrite ?C1, ?C2; lia.
    - intros k Hn Hd. apply (count_occ_In dec) in Hn. apply (count_occ_In dec) in Hd.
      destruct (C k) as [C1 C2]. lia.
    - intros N. assert (meet num den = false) as M.
      { destruct (meet num den) eqn:M; [|reflexivity]. apply meet_spec in M as [k [? ?]]. exfalso. eapply N; eauto. }
      rewrite M in E. cbn in E. injection E as -> ->. auto.
  Qed.

  Variable leb : A -> A -> bool.
  Hypothesis leb_total : forall a b, leb a b = true \/ leb b a = true.
  Hypothesis leb_trans : forall a b c, leb a b = true -> leb b c = true -> leb a c = true.

  Lemma simplify_sorted_spec num den :
    let '(n, d) := simplify_prefactor_sorted eqb so leb num den in
    cancelled num den n d /\ no_common_factor n d /\
    (no_common_factor num den -> n = num /\ d = den) /\
    (~ no_common_factor num den ->
       StronglySorted (fun a b => leb a b = true) n /\ StronglySorted (fun a b => leb a b = true) d).
  Proof.
    pose proof (simplify_spec num den) as S.
    assert (E : simplify_prefactor_sorted eqb so leb num den =
      if negb (meet num den) then (num, den)
      else let '(n, d) := simplify_prefactor eqb so num den in (isort leb n, isort leb d)).
    { unfold simplify_prefactor_sorted, meet. destruct num as [|a num]; [reflexivity|].
      destruct den as [|b den]; [|reflexivity].
      assert (existsb (fun k => existsb (eqb k) []) (a :: num) = false) as ->; [|reflexivity].
      destruct (existsb (fun k => existsb (eqb k) []) (a :: num)) eqn:E; [|reflexivity].
      apply existsb_exists in E as [x [_ E]]. discriminate. }
    rewrite E. destruct (meet num den) eqn:M; cbn [negb].
    - destruct (simplify_prefactor eqb so num den) as [n d]. destruct S as ((c & P1 & P2) & N & _).
      split; [|split; [|split]].
      + exists c. split; [rewrite P1|rewrite P2]; apply Permutation_app_head; apply isort_perm; auto.
      + intros k H1 H2. exact (N k (proj1 (in_isort leb _ _) H1) (proj1 (in_isort leb _ _) H2)).
      + intros H. apply meet_spec in M as [k [? ?]]. exfalso. eapply H; eauto.
      + intros _. split; apply isort_sorted; auto.
    - assert (N : no_common_factor num den).
      { intros k H1 H2. assert (meet num den = true) by (apply meet_spec; eauto). congruence. }
      split; [exists []; split; reflexivity|]. split; [exact N|]. split; [auto|]. intros H. contradiction.
  Qed.
End Simplify.
