(** Proofs for C130. *)
From Coq Require Import List Arith Lia Sorted Bool.
From Verif Require Import PyBase ModelTLists SpecTLists.
Import ListNotations.
Local Open Scope list_scope.

Lemma ones_of_ones k : List.length (filter (Nat.eqb 1) (repeat 1 k)) = k.
Proof. induction k as [|k IH]; [reflexivity|]. change (filter (Nat.eqb 1) (repeat 1 (S k))) with (1 :: filter (Nat.eqb 1) (repeat 1 k)). cbn [List.length]. now rewrite IH. Qed.

Lemma removelast_snoc {A} (l : list A) x : removelast (l ++ [x]) = l.
Proof. apply removelast_last. Qed.

Lemma repeat_snoc {A} (x : A) k : repeat x (S k) = repeat x k ++ [x].
Proof. induction k as [|k IH]; [reflexivity|]. cbn [repeat app] in *. now rewrite <- IH. Qed.

Lemma nats_eqb_iff a b : nats_eqb a b = true <-> a = b.
Proof.
  unfold nats_eqb. revert b. induction a as [|x a IH]; intros [|y b]; cbn; split; try discriminate; try reflexivity.
  - rewrite andb_true_iff, Nat.eqb_eq, IH. now intros [-> ->].
  - intros [= -> ->]. rewrite Nat.eqb_refl. now apply IH.
Qed.

Section At.
  Variable n : nat.
  Hypothesis n2 : 2 <= n.

  (** The last list of each round, and the other one. *)
  Definition chain (j : nat) : list nat := repeat 1 (n - j - 1) ++ [j + 1].
  Definition extra (j : nat) : list nat := repeat 1 (n - j - 3) ++ [2; j + 1].
  Definition round (j : nat) : list (list nat) := (if Nat.leb 1 j && Nat.leb (j + 3) n then [extra j] else []) ++ [chain (S j)].
  Fixpoint rounds (j r : nat) : list (list nat) :=
    match r with O => [] | S r' => round j ++ rounds (S j) r' end.

  Lemma chain_ones j : j + 1 <= n -> List.length (filter (Nat.eqb 1) (chain j)) = if Nat.eqb j 0 then n else n - j - 1.
  Proof.
    intros L. unfold chain. rewrite filter_app, app_length, ones_of_ones. destruct (Nat.eqb_spec j 0) as [->|J].
    - cbn [filter]. change (Nat.eqb 1 (0 + 1)) with true. cbn [List.length]. lia.
    - cbn [filter]. replace (Nat.eqb 1 (j + 1)) with false; [cbn [List.length]; lia|]. symmetry. apply Nat.eqb_neq. lia.
  Qed.

  Lemma chain_step j : j + 2 <= n -> next_list (chain j) n = round j.
  Proof.
    intros L. unfold next_list. rewrite chain_ones by lia. unfold round.
    assert (T : removelast (tl (chain j)) ++ [last (chain j) 0 + 1] = chain (S j)).
    { unfold chain. rewrite last_last. replace (n - j - 1) with (S (n - S j - 1)) by lia. cbn [repeat app tl]. rewrite removelast_snoc. f_equal. f_equal. lia. }
    destruct (Nat.eqb_spec j 0) as [->|J].
    - destruct (Nat.eqb_spec n 0); [lia|]. rewrite Nat.eqb_refl. cbn [orb Nat.leb andb app]. now rewrite T.
    - destruct (Nat.eqb_spec (n - j - 1) 0); [lia|]. destruct (Nat.eqb_spec (n - j - 1) n); [lia|]. cbn [orb].
      destruct (Nat.eqb_spec (n - j - 1) 1) as [O|O].
      + replace (Nat.leb 1 j && Nat.leb (j + 3) n) with false; [cbn [app]; now rewrite T|]. symmetry. apply andb_false_iff. right. apply Nat.leb_gt. lia.
      + replace (Nat.leb 1 j && Nat.leb (j + 3) n) with true by (symmetry; apply andb_true_iff; split; apply Nat.leb_le; lia).
        rewrite T. cbn [app]. f_equal. unfold chain, extra. replace (n - j - 1) with (S (S (n - j - 3))) by lia. set (q := n - j - 3).
        assert (A1 : removelast (removelast (tl (repeat 1 (S (S q)) ++ [j + 1]))) = repeat 1 q).
        { change (tl (repeat 1 (S (S q)) ++ [j + 1])) with (repeat 1 (S q) ++ [j + 1]). rewrite removelast_snoc, repeat_snoc. apply removelast_snoc. }
        assert (A2 : last (removelast (repeat 1 (S (S q)) ++ [j + 1])) 0 = 1) by (rewrite removelast_snoc, repeat_snoc; apply last_last).
        assert (A3 : last (repeat 1 (S (S q)) ++ [j + 1]) 0 = j + 1) by apply last_last.
        rewrite A1, A2, A3. reflexivity.
  Qed.

  Lemma chain_end : next_list (chain (n - 1)) n = [chain (n - 1)].
  Proof. unfold next_list. rewrite chain_ones by lia. destruct (Nat.eqb_spec (n - 1) 0); [lia|]. now replace (n - (n - 1) - 1) with 0 by lia. Qed.

  Lemma list_eqb_lists (a b : list (list nat)) : list_eqb nats_eqb a b = true <-> a = b.
  Proof.
    revert b. induction a as [|x a IH]; intros [|y b]; cbn; split; try discriminate; try reflexivity.
    - rewrite andb_true_iff, nats_eqb_iff, IH. now intros [-> ->].
    - intros [= -> ->]. apply andb_true_iff. split; [now apply nats_eqb_iff|now apply IH].
  Qed.

  Lemma chain_length j : List.length (chain j) = n - j - 1 + 1.
  Proof. unfold chain. rewrite app_length, repeat_length. reflexivity. Qed.

  Lemma loop_from : forall r j pre fuel, r + j = n - 1 -> r <= fuel -> t_lists_loop fuel n (pre ++ [chain j]) = Some ((pre ++ [chain j]) ++ rounds j r).
  Proof.
    induction r as [|r IH]; intros j pre fuel E Lf.
    - assert (Ej : j = n - 1) by lia. subst j. destruct fuel; cbn [t_lists_loop]; rewrite last_last, chain_end;
        (replace (list_eqb nats_eqb [chain (n - 1)] [chain (n - 1)]) with true by (symmetry; now apply list_eqb_lists)); cbn [rounds]; now rewrite app_nil_r.
    - destruct fuel as [|fuel]; [lia|]. cbn [t_lists_loop]. rewrite last_last, chain_step by lia.
      destruct (list_eqb nats_eqb (round j) [chain j]) eqn:X.
      + apply list_eqb_lists in X. exfalso. unfold round in X. destruct (Nat.leb 1 j && Nat.leb (j + 3) n); [discriminate X|].
        injection X as X. apply (f_equal (@List.length nat)) in X. rewrite !chain_length in X. lia.
      + cbn [rounds]. unfold round. rewrite !app_assoc. rewrite IH by lia. reflexivity.
  Qed.

  Lemma max_app a b : list_max (a ++ b) = Nat.max (list_max a) (list_max b).
  Proof. exact (List.list_max_app a b). Qed.

  Lemma max_ones k x y : list_max (repeat 1 k ++ [x]) = Nat.max (if Nat.eqb k 0 then 0 else 1) x /\ list_max (repeat 1 k ++ [x; y]) = Nat.max (if Nat.eqb k 0 then 0 else 1) (Nat.max x y).
  Proof.
    assert (M : list_max (repeat 1 k) = if Nat.eqb k 0 then 0 else 1).
    { induction k as [|k IH]; [reflexivity|]. cbn [repeat Nat.eqb]. change (list_max (1 :: repeat 1 k)) with (Nat.max 1 (list_max (repeat 1 k))). rewrite IH. now destruct (Nat.eqb k 0). }
    split; rewrite max_app; rewrite M; change (list_max [x]) with (Nat.max x 0); change (list_max [x; y]) with (Nat.max x (Nat.max y 0)); now rewrite !Nat.max_0_r.
  Qed.

  Lemma chain_max j : list_max (chain j) = j + 1.
  Proof. unfold chain. rewrite (proj1 (max_ones _ _ 0)). destruct (Nat.eqb _ 0); lia. Qed.
  Lemma extra_max j : 1 <= j -> list_max (extra j) = j + 1.
  Proof. intros. unfold extra. rewrite (proj2 (max_ones _ _ _)). destruct (Nat.eqb _ 0); lia. Qed.

  Lemma sort_step acc m x k : list_max x = k -> m <= k -> sort_round (acc, m) x = (acc ++ [x], k).
  Proof. intros <- L. unfold sort_round. now replace (Nat.leb m (list_max x)) with true by (symmetry; now apply Nat.leb_le). Qed.

  Lemma sorted_already : forall r j acc m, r + j = n - 1 -> m <= j + 1 ->
    fst (fold_left sort_round (rounds j r) (acc, m)) = acc ++ rounds j r.
  Proof.
    induction r as [|r IH]; intros j acc m E L; cbn [rounds fold_left]; [now rewrite app_nil_r|].
    unfold round. destruct (Nat.leb 1 j && Nat.leb (j + 3) n) eqn:B; cbn [app fold_left].
    - apply andb_true_iff in B as [B1 _]. apply Nat.leb_le in B1.
      rewrite (sort_step acc m _ (j + 1) (extra_max j B1) L), (sort_step _ _ _ (S j + 1) (chain_max (S j))) by lia.
      rewrite IH by lia. now rewrite <- !app_assoc.
    - rewrite (sort_step _ _ _ (S j + 1) (chain_max (S j))) by lia. rewrite IH by lia. now rewrite <- !app_assoc.
  Qed.

  Lemma chain_0 : repeat 1 n = chain 0.
  Proof. unfold chain. replace (n - 0 - 1) with (n - 1) by lia. change (0 + 1) with 1. rewrite <- repeat_snoc. f_equal. lia. Qed.

  Lemma lists_are : generate_t_lists n = Some (Ok (rev (chain 0 :: rounds 0 (n - 1)))).
  Proof.
    unfold generate_t_lists. rewrite chain_0. pose proof (loop_from (n - 1) 0 [] n ltac:(lia) ltac:(lia)) as Lf. cbn [app] in Lf. rewrite Lf. cbn [hd].
    destruct (chain 0) as [|x l] eqn:C; [pose proof (chain_length 0) as X; rewrite C in X; cbn in X; lia|]. rewrite <- C.
    f_equal. f_equal. f_equal. cbn [fold_left]. rewrite (sort_step [] (list_max (chain 0)) (chain 0) 1) by (rewrite ?chain_max; lia).
    rewrite sorted_already by lia. reflexivity.
  Qed.

  Lemma in_rounds : forall r j l, r + j = n - 1 ->
    In l (rounds j r) <-> (exists k, j < k <= n - 1 /\ l = chain k) \/ (exists k, 1 <= k /\ j <= k /\ k + 3 <= n /\ l = extra k).
  Proof.
    induction r as [|r IH]; intros j l E; cbn [rounds].
    - split; [intros []|]. intros [(k & L & _)|(k & A & B & C & _)]; lia.
    - rewrite in_app_iff, IH by lia. unfold round. rewrite in_app_iff. split.
      + intros [[I|[<-|[]]]|[(k & L & ->)|(k & A & B & C & ->)]].
        * destruct (Nat.leb 1 j && Nat.leb (j + 3) n) eqn:X; [|destruct I]. destruct I as [<-|[]]. apply andb_true_iff in X as [X1 X2]. apply Nat.leb_le in X1, X2.
          right. exists j. repeat split; auto; lia.
        * left. exists (S j). split; [lia|reflexivity].
        * left. exists k. split; [lia|reflexivity].
        * right. exists k. repeat split; auto; lia.
      + intros [(k & L & ->)|(k & A & B & C & ->)].
        * destruct (Nat.eq_dec k (S j)) as [->|N]; [left; right; now left|]. right. left. exists k. split; [lia|reflexivity].
        * destruct (Nat.eq_dec k j) as [->|N]; [|right; right; exists k; repeat split; auto; lia].
          left. left. replace (Nat.leb 1 j && Nat.leb (j + 3) n) with true by (symmetry; apply andb_true_iff; split; apply Nat.leb_le; lia). now left.
  Qed.

  Lemma last_chain k : last (chain k) 0 = k + 1.
  Proof. unfold chain. apply last_last. Qed.
  Lemma last_extra k : last (extra k) 0 = k + 1.
  Proof. unfold extra. change [2; k + 1] with ([2] ++ [k + 1]). rewrite app_assoc. apply last_last. Qed.

  Lemma not_later j r l : r + j = n - 1 -> last l 0 <= j -> ~ In l (rounds j r).
  Proof.
    intros E L I. apply in_rounds in I as [(k & A & ->)|(k & A & B & C & ->)]; [rewrite last_chain in L|rewrite last_extra in L|exact E]; lia.
  Qed.

  Lemma rounds_nodup : forall r j, r + j = n - 1 -> NoDup (rounds j r).
  Proof.
    induction r as [|r IH]; intros j E; cbn [rounds]; [constructor|]. unfold round.
    assert (N : NoDup (chain (S j) :: rounds (S j) r)).
    { constructor; [|apply IH; lia]. intros I. apply in_rounds in I as [(k & A & X)|(k & A & B & C & X)]; [| |lia];
        apply (f_equal (fun l => (last l 0, List.length l))) in X; rewrite last_chain, chain_length in X.
      - rewrite last_chain in X. injection X as X _. lia.
      - rewrite last_extra in X. unfold extra in X. rewrite app_length, repeat_length in X. cbn [List.length] in X. injection X as X Y. lia. }
    destruct (Nat.leb 1 j && Nat.leb (j + 3) n); cbn [app]; [|exact N]. constructor; [|exact N].
    intros [X|I].
    - apply (f_equal (fun l => last l 0)) in X. rewrite last_chain, last_extra in X. lia.
    - apply in_rounds in I as [(k & A & X)|(k & A & B & C & X)]; [| |lia]; apply (f_equal (fun l => last l 0)) in X; rewrite last_extra in X;
        rewrite ?last_chain, ?last_extra in X; lia.
  Qed.

  Lemma lists_exact : exists ls, generate_t_lists n = Some (Ok ls) /\ NoDup ls /\ forall l, In l ls <-> few_large_parts n l.
  Proof.
    eexists. split; [apply lists_are|]. split.
    - apply NoDup_rev. constructor; [|apply rounds_nodup; lia]. intros I. apply in_rounds in I as [(k & A & X)|(k & A & B & C & X)]; [| |lia];
        apply (f_equal (fun l => last l 0)) in X; rewrite last_chain in X; rewrite ?last_chain, ?last_extra in X; lia.
    - intros l. rewrite <- in_rev. cbn [In]. rewrite in_rounds by lia. unfold few_large_parts. split.
      + intros [<-|[(k & L & ->)|(k & A & B & C & ->)]].
        * left. exists 1. split; [lia|]. unfold chain. now replace (n - 0 - 1) with (n - 1) by lia.
        * left. exists (k + 1). split; [lia|]. unfold chain. now replace (n - k - 1) with (n - (k + 1)) by lia.
        * right. exists (k + 1). split; [lia|]. split; [lia|]. unfold extra. now replace (n - k - 3) with (n - (k + 1) - 2) by lia.
      + intros [(k & L & ->)|(k & A & B & ->)].
        * destruct (Nat.eq_dec k 1) as [->|N].
          -- left. unfold chain. now replace (n - 0 - 1) with (n - 1) by lia.
          -- right. left. exists (k - 1). split; [lia|]. unfold chain. replace (n - (k - 1) - 1) with (n - k) by lia. now replace (k - 1 + 1) with k by lia.
        * right. right. exists (k - 1). split; [lia|]. split; [lia|]. split; [lia|]. unfold extra.
          replace (n - (k - 1) - 3) with (n - k - 2) by lia. now replace (k - 1 + 1) with k by lia.
  Qed.
End At.

Ltac parts := repeat first [apply Forall_nil | apply Forall_cons; [lia|] | apply SSorted_nil | apply SSorted_cons].

(** The lists are partitions. *)
Lemma sum_ones k : List.list_sum (repeat 1 k) = k.
Proof. induction k as [|k IH]; [reflexivity|]. cbn [repeat List.list_sum fold_right]. unfold List.list_sum in IH. now rewrite IH. Qed.

Lemma ones_sorted k l : Forall (fun x => 1 <= x) l -> StronglySorted le l -> StronglySorted le (repeat 1 k ++ l).
Proof.
  intros F S. induction k as [|k IH]; [exact S|]. cbn [repeat app]. constructor; [exact IH|]. apply Forall_app. split; [|exact F].
  apply Forall_forall. intros x I. apply repeat_spec in I. lia.
Qed.
Lemma ones_positive k l : Forall (fun x => 1 <= x) l -> Forall (fun x => 1 <= x) (repeat 1 k ++ l).
Proof. intros F. apply Forall_app. split; [|exact F]. apply Forall_forall. intros x I. apply repeat_spec in I. lia. Qed.

Lemma few_partition n l : few_large_parts n l -> partition_of n l.
Proof.
  intros [(k & L & ->)|(k & A & B & ->)]; (split; [apply ones_positive; parts|split; [apply ones_sorted; parts|]]);
    rewrite list_sum_app, sum_ones; unfold List.list_sum; cbn [fold_right]; lia.
Qed.

(** A partition is ones and larger parts. *)
Lemma ones_first l : Forall (fun x => 1 <= x) l -> StronglySorted le l -> exists a r, l = repeat 1 a ++ r /\ Forall (fun x => 2 <= x) r /\ StronglySorted le r.
Proof.
  induction l as [|x l IH]; intros F S; [exists 0, []; repeat constructor|]. inversion F as [|? ? Hx Fl]; subst. inversion S as [|? ? Sl Le]; subst.
  destruct (Nat.eq_dec x 1) as [->|N].
  - destruct (IH Fl Sl) as (a & r & -> & B & C). exists (Datatypes.S a), r. repeat split; auto.
  - exists 0, (x :: l). split; [reflexivity|]. split; [|exact S]. constructor; [lia|]. eapply Forall_impl; [|exact Le]. cbn. lia.
Qed.

Lemma small_few n l : 2 <= n <= 5 -> partition_of n l -> few_large_parts n l.
Proof.
  intros L (F & S & E). destruct (ones_first l F S) as (a & r & -> & Fr & Sr). rewrite list_sum_app, sum_ones in E. unfold List.list_sum in E.
  destruct r as [|x [|y [|z r]]]; cbn [fold_right] in E.
  - left. exists 1. split; [lia|]. rewrite app_nil_r. replace a with (Datatypes.S (n - 1)) by lia. apply repeat_snoc.
  - left. inversion Fr; subst. exists x. split; [lia|]. f_equal. f_equal. lia.
  - inversion Fr as [|? ? X1 F2]; subst. inversion F2 as [|? ? X2 _]; subst. inversion Sr as [|? ? _ Le]; subst. inversion Le; subst.
    right. exists y. assert (x = 2) by lia. subst x. split; [lia|]. split; [lia|]. f_equal. f_equal. lia.
  - inversion Fr as [|? ? X1 F2]; subst. inversion F2 as [|? ? X2 F3]; subst. inversion F3 as [|? ? X3 _]; subst. lia.
Qed.

Lemma large_missed n : 6 <= n -> partition_of n (repeat 1 (n - 6) ++ [3; 3]) /\ ~ few_large_parts n (repeat 1 (n - 6) ++ [3; 3]).
Proof.
  intros L. split.
  - split; [apply ones_positive; parts|]. split; [apply ones_sorted; parts|].
    rewrite list_sum_app, sum_ones. unfold List.list_sum. cbn [fold_right]. lia.
  - assert (P : forall a (l : list nat) k c, repeat 1 a ++ [3; 3] = repeat 1 k ++ l ++ [c] -> removelast l = [] -> hd 0 l <> 3 -> False).
    { intros a l k c X Nl Hd. change [3; 3] with ([3] ++ [3]) in X. rewrite !app_assoc in X. apply app_inj_tail in X as [X _].
      assert (Y : last (repeat 1 a ++ [3]) 0 = last (repeat 1 k ++ l) 0) by now rewrite X. rewrite last_last in Y.
      destruct l as [|x [|y l]]; [|cbn in Hd; rewrite last_last in Y; now apply Hd|discriminate Nl].
      rewrite app_nil_r in Y. destruct k as [|k]; [discriminate Y|]. rewrite repeat_snoc, last_last in Y. discriminate Y. }
    intros [(k & A & X)|(k & A & B & X)].
    + apply (P (n - 6) [] (n - k) k X); [reflexivity|discriminate].
    + apply (P (n - 6) [2] (n - k - 2) k X); [reflexivity|discriminate].
Qed.

Lemma lists_small n : 2 <= n <= 5 -> exists ls, generate_t_lists n = Some (Ok ls) /\ NoDup ls /\ forall l, In l ls <-> partition_of n l.
Proof.
  intros L. destruct (lists_exact n ltac:(lia)) as (ls & G & N & I). exists ls. split; [exact G|]. split; [exact N|].
  intros l. rewrite I. split; [apply few_partition|now apply small_few].
Qed.

Lemma lists_large n : 6 <= n -> exists ls l, generate_t_lists n = Some (Ok ls) /\ partition_of n l /\ ~ In l ls.
Proof.
  intros L. destruct (lists_exact n ltac:(lia)) as (ls & G & N & I). destruct (large_missed n L) as [P Q].
  exists ls, (repeat 1 (n - 6) ++ [3; 3]). split; [exact G|]. split; [exact P|]. now rewrite I.
Qed.

Lemma t_str_name k : t_str k = amplitude_name k.
Proof. do 7 (destruct k as [|k]; [reflexivity|]). unfold t_str, amplitude_name. cbn. now destruct k. Qed.

Lemma dictionary n : 2 <= n -> exists items, generate_t_terms_dictionary n = Some (Ok items) /\ NoDup (map fst items) /\
  forall l names, In (l, names) items <-> few_large_parts n l /\ names = map amplitude_name l.
Proof.
  intros L. destruct (lists_exact n L) as (ls & G & N & I). unfold generate_t_terms_dictionary. rewrite G. cbn [bind]. eexists. split; [reflexivity|].
  rewrite map_map. cbn [fst]. rewrite map_id. split; [exact N|]. intros l names. rewrite in_map_iff. split.
  - intros (l' & [= <- <-] & J). split; [now apply I|]. apply map_ext. exact t_str_name.
  - intros [J ->]. exists l. split; [f_equal; apply map_ext; exact t_str_name|now apply I].
Qed.
