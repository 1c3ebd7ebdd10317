(** Facts about the python vocabulary of [PyBase]. *)
From Verif Require Import PyBase.
From Coq Require Import Sorted RelationClasses.

Lemma length_range a b : List.length (range a b) = b - a.
Proof. unfold range. apply seq_length. Qed.

Lemma in_range a b x : In x (range a b) <-> a <= x < b.
Proof. unfold range. rewrite in_seq. lia. Qed.

(** ** Sorting *)
Section SortFacts.
  Context {A : Type} (leb : A -> A -> bool).
  Hypothesis leb_total : forall x y, leb x y = true \/ leb y x = true.
  Hypothesis leb_trans : forall x y z, leb x y = true -> leb y z = true -> leb x z = true.
  Hypothesis leb_antisym : forall x y, leb x y = true -> leb y x = true -> x = y.

  Lemma insert_perm x l : Permutation (x :: l) (insert leb x l).
  Proof.
    induction l as [|y ys IH]; cbn; [constructor; constructor|].
    destruct (leb x y); [reflexivity|].
    rewrite perm_swap. constructor. exact IH.
  Qed.

  Lemma isort_perm l : Permutation l (isort leb l).
  Proof.
    induction l as [|x xs IH]; cbn; [constructor|].
    rewrite <- insert_perm. constructor. exact IH.
  Qed.

  Definition srt := StronglySorted (fun x y => leb x y = true).

  Lemma insert_sorted x l : srt l -> srt (insert leb x l).
  Proof.
    unfold srt.
    induction l as [|y ys IH]; intros Hs; cbn.
    - constructor; constructor.
    - inversion Hs as [|? ? Hss Hf]; subst.
      destruct (leb x y) eqn:E.
      + constructor; [exact Hs|]. constructor; [exact E|].
        rewrite Forall_forall in *. intros z Hz. eapply leb_trans; [exact E|]. apply Hf, Hz.
      + constructor; [apply IH, Hss|].
        assert (Hyx : leb y x = true) by (destruct (leb_total x y); congruence).
        rewrite Forall_forall in *. intros z Hz.
        apply (Permutation_in _ (Permutation_sym (insert_perm x ys))) in Hz.
        destruct Hz as [<-|Hz]; [exact Hyx|apply Hf, Hz].
  Qed.

  Lemma isort_sorted l : srt (isort leb l).
  Proof.
    induction l as [|x xs IH]; cbn; [constructor|]. apply insert_sorted, IH.
  Qed.

  Lemma sorted_unique l l' : srt l -> srt l' -> Permutation l l' -> l = l'.
  Proof.
    unfold srt. revert l'.
    induction l as [|x xs IH]; intros l' H H' P.
    - apply Permutation_nil in P. now subst.
    - destruct l' as [|y ys]; [apply Permutation_sym, Permutation_nil in P; discriminate|].
      inversion H as [|? ? Hs Hf]; inversion H' as [|? ? Hs' Hf']; subst.
      assert (x = y).
      { rewrite Forall_forall in *.
        assert (In x (y :: ys)) as [->|Hx] by (eapply Permutation_in; [exact P|now left]); [reflexivity|].
        assert (In y (x :: xs)) as [->|Hy] by (eapply Permutation_in; [apply Permutation_sym, P|now left]); [reflexivity|].
        apply leb_antisym; auto. }
      subst y. f_equal. apply IH; auto. eapply Permutation_cons_inv; exact P.
  Qed.

  Lemma isort_ext l l' : Permutation l l' -> isort leb l = isort leb l'.
  Proof.
    intros P. apply sorted_unique; try apply isort_sorted.
    rewrite <- (isort_perm l), <- (isort_perm l'). exact P.
  Qed.

  Lemma isort_id l : srt l -> isort leb l = l.
  Proof.
    intros H. apply sorted_unique; [apply isort_sorted|exact H|]. symmetry; apply isort_perm.
  Qed.
End SortFacts.

Lemma in_isort {A} (leb : A -> A -> bool) l x : In x (isort leb l) <-> In x l.
Proof.
  split; apply Permutation_in; [symmetry|]; apply isort_perm.
Qed.

(** ** Lexicographic order *)
Section LexFacts.
  Context {A : Type} (eqb leb : A -> A -> bool).
  Hypothesis eqb_eq : forall x y, eqb x y = true <-> x = y.
  Hypothesis leb_total : forall x y, leb x y = true \/ leb y x = true.
  Hypothesis leb_trans : forall x y z, leb x y = true -> leb y z = true -> leb x z = true.
  Hypothesis leb_antisym : forall x y, leb x y = true -> leb y x = true -> x = y.

  Lemma eqb_refl' x : eqb x x = true.
  Proof. now apply eqb_eq. Qed.

  Lemma lex_total x y : lex_leb eqb leb x y = true \/ lex_leb eqb leb y x = true.
  Proof.
    revert y; induction x as [|a x IH]; intros [|b y]; cbn; auto.
    destruct (eqb a b) eqn:E.
    - apply eqb_eq in E; subst. rewrite eqb_refl'. apply IH.
    - destruct (eqb b a) eqn:E'; [apply eqb_eq in E'; subst; rewrite eqb_refl' in E; discriminate|].
      apply leb_total.
  Qed.

  Lemma lex_antisym x y : lex_leb eqb leb x y = true -> lex_leb eqb leb y x = true -> x = y.
  Proof.
    revert y; induction x as [|a x IH]; intros [|b y]; cbn; auto; try discriminate.
    destruct (eqb a b) eqn:E.
    - apply eqb_eq in E; subst. rewrite eqb_refl'. intros; f_equal; auto.
    - destruct (eqb b a) eqn:E'; [apply eqb_eq in E'; subst; rewrite eqb_refl' in E; discriminate|].
      intros H1 H2. pose proof (leb_antisym _ _ H1 H2) as ->. rewrite eqb_refl' in E; discriminate.
  Qed.

  Lemma lex_trans x y z :
    lex_leb eqb leb x y = true -> lex_leb eqb leb y z = true -> lex_leb eqb leb x z = true.
  Proof.
    revert y z; induction x as [|a x IH]; intros [|b y] [|c z]; cbn; auto; try discriminate.
    destruct (eqb a b) eqn:Eab.
    - apply eqb_eq in Eab; subst. destruct (eqb b c) eqn:Ebc; eauto.
    - destruct (eqb b c) eqn:Ebc.
      + apply eqb_eq in Ebc; subst. rewrite Eab. auto.
      + intros H1 H2. destruct (eqb a c) eqn:Eac.
        * apply eqb_eq in Eac; subst. pose proof (leb_antisym _ _ H1 H2) as ->.
          rewrite eqb_refl' in Eab; discriminate.
        * eauto.
  Qed.
End LexFacts.

Lemma nat_leb_total x y : Nat.leb x y = true \/ Nat.leb y x = true.
Proof. rewrite !Nat.leb_le. lia. Qed.
Lemma nat_leb_trans x y z : Nat.leb x y = true -> Nat.leb y z = true -> Nat.leb x z = true.
Proof. rewrite !Nat.leb_le. lia. Qed.
Lemma nat_leb_antisym x y : Nat.leb x y = true -> Nat.leb y x = true -> x = y.
Proof. rewrite !Nat.leb_le. lia. Qed.

Lemma geb_total x y : geb x y = true \/ geb y x = true.
Proof. unfold geb. rewrite !Nat.leb_le. lia. Qed.
Lemma geb_trans x y z : geb x y = true -> geb y z = true -> geb x z = true.
Proof. unfold geb. rewrite !Nat.leb_le. lia. Qed.
Lemma geb_antisym x y : geb x y = true -> geb y x = true -> x = y.
Proof. unfold geb. rewrite !Nat.leb_le. lia. Qed.

Lemma nats_leb_total x y : nats_leb x y = true \/ nats_leb y x = true.
Proof. apply lex_total; [apply Nat.eqb_eq|apply nat_leb_total]. Qed.
Lemma nats_leb_trans x y z : nats_leb x y = true -> nats_leb y z = true -> nats_leb x z = true.
Proof. apply lex_trans; [apply Nat.eqb_eq|apply nat_leb_trans|apply nat_leb_antisym]. Qed.
Lemma nats_leb_antisym x y : nats_leb x y = true -> nats_leb y x = true -> x = y.
Proof. apply lex_antisym; [apply Nat.eqb_eq|apply nat_leb_antisym]. Qed.

Lemma nats_geb_total x y : nats_geb x y = true \/ nats_geb y x = true.
Proof. unfold nats_geb. destruct (nats_leb_total x y); auto. Qed.
Lemma nats_geb_trans x y z : nats_geb x y = true -> nats_geb y z = true -> nats_geb x z = true.
Proof. unfold nats_geb. intros; eapply nats_leb_trans; eauto. Qed.
Lemma nats_geb_antisym x y : nats_geb x y = true -> nats_geb y x = true -> x = y.
Proof. unfold nats_geb. intros; apply nats_leb_antisym; auto. Qed.

(** ** Duplicate removal *)
Section DedupFacts.
  Context {A : Type} (eqb : A -> A -> bool).
  Hypothesis eqb_eq : forall x y, eqb x y = true <-> x = y.

  Lemma existsb_eqb x l : existsb (eqb x) l = true <-> In x l.
  Proof.
    rewrite existsb_exists. split.
    - intros [y [Hy E]]. apply eqb_eq in E. now subst.
    - intros H. exists x. split; [exact H|now apply eqb_eq].
  Qed.

  Lemma in_dedup x l : In x (dedup eqb l) <-> In x l.
  Proof.
    induction l as [|y ys IH]; cbn; [tauto|].
    destruct (existsb (eqb y) ys) eqn:E; cbn; rewrite IH.
    - apply existsb_eqb in E. split; [auto|]. intros [->|H]; auto.
    - tauto.
  Qed.

  Lemma nodup_dedup l : NoDup (dedup eqb l).
  Proof.
    induction l as [|y ys IH]; cbn; [constructor|].
    destruct (existsb (eqb y) ys) eqn:E; [exact IH|].
    constructor; [|exact IH]. rewrite in_dedup. rewrite <- existsb_eqb. congruence.
  Qed.
End DedupFacts.

Lemma list_eqb_eq {A} (eqb : A -> A -> bool) (H : forall x y, eqb x y = true <-> x = y) x y :
  list_eqb eqb x y = true <-> x = y.
Proof.
  revert y; induction x as [|a x IH]; intros [|b y]; cbn; try (split; congruence || tauto).
  rewrite andb_true_iff, H, IH. split; [intros [-> ->]; auto|]. now intros [= -> ->].
Qed.

Lemma nats_eqb_eq x y : nats_eqb x y = true <-> x = y.
Proof. apply list_eqb_eq, Nat.eqb_eq. Qed.

(** ** Permutations by position *)
Lemma selects_perm {A} (l : list A) x r : In (x, r) (selects l) -> Permutation (x :: r) l.
Proof.
  revert x r; induction l as [|y ys IH]; cbn; [tauto|].
  intros x r [E|H].
  - inversion E; subst. reflexivity.
  - apply in_map_iff in H as [[x' r'] [E H]]. cbn in E. inversion E; subst.
    rewrite perm_swap. constructor. apply IH, H.
Qed.

Lemma selects_in {A} (l : list A) x : In x l -> exists r, In (x, r) (selects l).
Proof.
  induction l as [|y ys IH]; cbn; [tauto|].
  intros [->|H]; [eexists; left; reflexivity|].
  destruct (IH H) as [r Hr]. exists (y :: r). right. apply in_map_iff. exists (x, r). auto.
Qed.

Lemma perms_fuel_spec {A} n (l p : list A) :
  List.length l = n -> (In p (perms_fuel n l) <-> Permutation p l).
Proof.
  revert l p; induction n as [|n IH]; intros l p Hl.
  - destruct l; [|discriminate]. cbn. split.
    + intros [<-|[]]. constructor.
    + intros H. apply Permutation_sym, Permutation_nil in H. auto.
  - cbn. rewrite in_flat_map. split.
    + intros [[x r] [Hsel Hp]]. cbn in Hp. apply in_map_iff in Hp as [q [<- Hq]].
      pose proof (selects_perm _ _ _ Hsel) as P.
      assert (List.length r = n) as Hr by (apply Permutation_length in P; cbn in P; lia).
      apply IH in Hq; [|exact Hr]. rewrite Hq. exact P.
    + intros P. destruct p as [|x q]; [apply Permutation_length in P; cbn in P; lia|].
      destruct (selects_in l x) as [r Hr]; [eapply Permutation_in; [exact P|now left]|].
      exists (x, r). split; [exact Hr|]. cbn. apply in_map. apply IH.
      * apply selects_perm, Permutation_length in Hr. cbn in Hr. lia.
      * eapply Permutation_cons_inv. rewrite P. symmetry. apply selects_perm, Hr.
Qed.

Lemma in_perms {A} (l p : list A) : In p (perms l) <-> Permutation p l.
Proof. apply perms_fuel_spec. reflexivity. Qed.

(** ** Cartesian product *)
Lemma in_product {A} (ls : list (list A)) p :
  In p (product ls) <-> Forall2 (fun x l => In x l) p ls.
Proof.
  revert p; induction ls as [|l r IH]; intros p; cbn.
  - split; [intros [<-|[]]; constructor|intros H; inversion H; auto].
  - rewrite in_flat_map. split.
    + intros [x [Hx H]]. apply in_map_iff in H as [q [<- Hq]]. constructor; [exact Hx|now apply IH].
    + intros H. inversion H as [|x ? q ? Hx Hq]; subst. exists x. split; [exact Hx|].
      apply in_map. now apply IH.
Qed.

(** ** Lists *)
Lemma NoDup_app_intro {A} (l l' : list A) :
  NoDup l -> NoDup l' -> (forall x, In x l -> ~ In x l') -> NoDup (l ++ l').
Proof.
  induction l as [|x xs IH]; cbn; [auto|].
  intros H H' Hd. inversion H; subst. constructor.
  - rewrite in_app_iff. intros [Hx|Hx]; [auto|]. apply (Hd x); auto.
  - apply IH; auto.
Qed.

Lemma NoDup_flat_map {A B} (f : A -> list B) l :
  NoDup l -> (forall x, In x l -> NoDup (f x)) ->
  (forall x y b, In x l -> In y l -> In b (f x) -> In b (f y) -> x = y) ->
  NoDup (flat_map f l).
Proof.
  induction l as [|x xs IH]; cbn; [constructor|].
  intros Hnd Hf Hd. inversion Hnd; subst. apply NoDup_app_intro.
  - apply Hf. now left.
  - apply IH; auto. intros; eapply Hd; eauto.
  - intros b Hb Hb'. apply in_flat_map in Hb' as [y [Hy Hby]].
    assert (x = y) by (eapply Hd; eauto). now subst.
Qed.

Lemma NoDup_map_inj {A B} (f : A -> B) l :
  NoDup l -> (forall x y, In x l -> In y l -> f x = f y -> x = y) -> NoDup (map f l).
Proof.
  induction l as [|x xs IH]; cbn; [constructor|].
  intros H Hi. inversion H; subst. constructor.
  - intros Hx. apply in_map_iff in Hx as [y [E Hy]].
    assert (y = x) by (apply Hi; auto). now subst.
  - apply IH; auto.
Qed.

Lemma NoDup_Permutation_iff {A} (l l' : list A) :
  NoDup l -> NoDup l' -> (forall x, In x l <-> In x l') -> Permutation l l'.
Proof. apply NoDup_Permutation. Qed.

Lemma list_sum_perm l l' : Permutation l l' -> list_sum l = list_sum l'.
Proof. unfold list_sum. induction 1; cbn; lia. Qed.

Lemma list_max_perm l l' : Permutation l l' -> list_max l = list_max l'.
Proof. unfold list_max. induction 1; cbn; lia. Qed.

Lemma list_max_le l n : list_max l <= n <-> Forall (fun x => x <= n) l.
Proof.
  unfold list_max. induction l as [|x xs IH]; cbn.
  - split; [constructor|lia].
  - rewrite Nat.max_lub_iff, IH. split; [intros []; constructor; auto|].
    intros H; inversion H; auto.
Qed.

Lemma list_max_in l : l <> [] -> In (list_max l) l.
Proof.
  unfold list_max. induction l as [|x xs IH]; [congruence|]. intros _. cbn.
  destruct xs as [|y ys]; [cbn; left; lia|].
  destruct (Nat.max_spec x (fold_right Nat.max 0 (y :: ys))) as [[_ ->]|[_ ->]].
  - right. apply IH. discriminate.
  - now left.
Qed.

Lemma in_le_list_max x l : In x l -> x <= list_max l.
Proof.
  intros H. pose proof (proj1 (list_max_le l (list_max l)) (le_n _)) as F.
  rewrite Forall_forall in F. apply F, H.
Qed.

Lemma in_le_list_sum x l : In x l -> x <= list_sum l.
Proof.
  induction l as [|y ys IH]; cbn; [tauto|]. intros [->|H]; [lia|]. specialize (IH H). fold (list_sum ys). lia.
Qed.
