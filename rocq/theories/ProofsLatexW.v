(** Proofs about the LaTeX of the W operators. *)
From Coq Require Import Sorted.
From Verif Require Import PyBase PyStr PyBaseFacts ModelHelper ModelLatexW.
From Verif Require Import SpecPartitions SpecW SpecLatexW ProofsHelper.
Open Scope list_scope.

(** ** Counting *)
Lemma filter_length_le' {A} (f : A -> bool) l : List.length (filter f l) <= List.length l.
Proof. induction l as [|x l IH]; cbn [filter]; [lia|]. destruct (f x); cbn [List.length]; lia. Qed.

Section Count.
  Context {A : Type} (eqb : A -> A -> bool) (Heq : forall x y, eqb x y = true <-> x = y).

  Lemma eqb_refl x : eqb x x = true. Proof. now apply Heq. Qed.

  Lemma remove_shorter x l : List.length (remove_list_item eqb x (x :: l)) <= List.length l.
  Proof.
    unfold remove_list_item. cbn [filter]. rewrite eqb_refl. cbn [negb]. apply filter_length_le'.
  Qed.

  Lemma split_count x l :
    Permutation (repeat x (list_count eqb x l) ++ remove_list_item eqb x l) l.
  Proof.
    unfold list_count, remove_list_item. induction l as [|y l IH]; [reflexivity|]. cbn [filter].
    destruct (eqb y x) eqn:E; cbn [negb List.length repeat].
    - apply Heq in E as ->. cbn. now constructor.
    - transitivity (y :: repeat x (List.length (filter (fun y => eqb y x) l)) ++ filter (fun item => negb (eqb item x)) l).
      + now rewrite Permutation_middle.
      + now constructor.
  Qed.

  Lemma count_items_spec f l : List.length l <= f ->
    NoDup (map fst (count_items_fuel eqb f l)) /\
    Forall (fun xk => 1 <= snd xk) (count_items_fuel eqb f l) /\
    Permutation (multiply_out (count_items_fuel eqb f l)) l /\
    (forall x, In x (map fst (count_items_fuel eqb f l)) -> In x l).
  Proof.
    revert l. induction f as [|f IH]; intros l Hl.
    - destruct l as [|x l]; [|cbn in Hl; lia]. cbn. repeat split; try constructor; try tauto.
    - destruct l as [|x l]; [cbn; repeat split; try constructor; try tauto|].
      cbn [count_items_fuel map fst multiply_out flat_map]. fold (@multiply_out A).
      destruct (IH (remove_list_item eqb x (x :: l))) as [H1 [H2 [H3 H4]]].
      { pose proof (remove_shorter x l). cbn [List.length] in Hl. lia. }
      assert (forall y, In y (remove_list_item eqb x (x :: l)) -> In y (x :: l) /\ y <> x) as Hrem.
      { intros y Hy. apply filter_In in Hy as [Hy Hn]. split; [exact Hy|]. intros ->.
        now rewrite eqb_refl in Hn. }
      split; [|split; [|split]].
      + constructor; [|exact H1]. intros Hin. apply H4, Hrem in Hin as [_ Hin]. congruence.
      + constructor; [|exact H2]. cbn [snd]. unfold list_count. cbn [filter]. rewrite eqb_refl. cbn. lia.
      + cbn [snd]. etransitivity; [|apply (split_count x (x :: l))]. now apply Permutation_app_head.
      + intros y [<-|Hy]; [now left|]. now apply H4, Hrem in Hy as [Hy _].
  Qed.

  Lemma count_items_written l : written_with_powers l (count_items eqb l).
  Proof.
    destruct (count_items_spec (List.length l) l) as [H1 [H2 [H3 _]]]; [lia|].
    now repeat split.
  Qed.
End Count.

(** ** The number of distinct orderings *)

Lemma prod_fact_app a b :
  product_of_factorials (a ++ b) = product_of_factorials a * product_of_factorials b.
Proof.
  unfold product_of_factorials. induction a as [|x a IH]; cbn [app fold_right]; [lia|].
  rewrite IH. lia.
Qed.

Lemma filter_head_sum {A} (dec : forall x y : A, {x = y} + {x <> y}) (keys : list A) (ps : list (list A)) :
  NoDup keys -> (forall q, In q ps -> exists x r, q = x :: r /\ In x keys) ->
  List.length ps =
  list_sum (map (fun x => List.length (filter (fun q => match q with y :: _ => if dec y x then true else false | [] => false end) ps)) keys).
Proof.
  intros Hnd. revert ps. induction Hnd as [|k keys Hk Hnd IH]; intros ps Hps.
  - destruct ps as [|q ps]; [reflexivity|]. destruct (Hps q) as [x [r [_ []]]]. now left.
  - cbn [map list_sum fold_right].
    set (isk := fun q : list A => match q with y :: _ => if dec y k then true else false | [] => false end).
    assert (List.length ps = List.length (filter isk ps) + List.length (filter (fun q => negb (isk q)) ps)) as ->.
    { clear. induction ps as [|q ps IH]; [reflexivity|]. cbn [filter List.length].
      destruct (isk q); cbn [negb List.length]; lia. }
    f_equal. rewrite (IH (filter (fun q => negb (isk q)) ps)).
    + unfold list_sum. f_equal. apply map_ext_in. intros x Hx.
      assert (x <> k) as Hne by (intros ->; contradiction).
      clear Hps. f_equal. induction ps as [|q ps IHp]; [reflexivity|]. cbn [filter].
      destruct q as [|y q].
      * cbn [isk negb filter]. exact IHp.
      * unfold isk at 1. destruct (dec y k) as [->|Hyk]; cbn [negb].
        -- destruct (dec k x) as [E|_]; [congruence|]. exact IHp.
        -- cbn [filter]. destruct (dec y x); now rewrite IHp.
    + intros q Hq. apply filter_In in Hq as [Hq Hn]. destruct (Hps q Hq) as [x [r [-> [<-|Hx]]]].
      * cbn in Hn. destruct (dec k k); [discriminate|congruence].
      * exists x, r. now split.
Qed.

Lemma multinomial {A} (dec : forall x y : A, {x = y} + {x <> y}) n :
  forall (l : list A) d ps,
  List.length l = n -> NoDup (map fst d) -> Permutation (multiply_out d) l ->
  NoDup ps -> (forall q, In q ps <-> Permutation q l) ->
  List.length ps * product_of_factorials (map snd d) = fact_spec n.
Proof.
  induction n as [|n IH]; intros l d ps Hlen Hd Hl Hnd Hps.
  - destruct l; [|discriminate]. assert (ps = [[]]) as ->.
    { assert (In [] ps) as Hin by now apply Hps.
      destruct ps as [|q ps]; [destruct Hin|].
      assert (forall q', In q' (q :: ps) -> q' = []) as Hall.
      { intros q' Hq'. apply Hps in Hq'. now apply Permutation_sym, Permutation_nil in Hq'. }
      rewrite (Hall q (or_introl eq_refl)) in *. f_equal. destruct ps as [|q2 ps]; [reflexivity|].
      inversion Hnd as [|? ? Hni]; subst. destruct Hni. left. apply Hall. right; now left. }
    apply Permutation_sym, Permutation_nil in Hl.
    assert (product_of_factorials (map snd d) = 1) as ->; [|reflexivity].
    clear - Hl. induction d as [|[x k] d IHd]; [reflexivity|].
    cbn [multiply_out flat_map fst snd] in Hl. apply app_eq_nil in Hl as [H1 H2].
    destruct k; [|discriminate]. cbn [map snd product_of_factorials fold_right fact_spec].
    fold (product_of_factorials (map snd d)). rewrite IHd; [reflexivity|exact H2].
  - set (head_is := fun x (q : list A) => match q with y :: _ => if dec y x then true else false | [] => false end).
    rewrite (filter_head_sum dec (map fst d) ps); [|exact Hd|].
    2:{ intros q Hq. apply Hps in Hq. destruct q as [|x r].
        - apply Permutation_nil in Hq. subst l. discriminate.
        - exists x, r. split; [reflexivity|].
          assert (In x (multiply_out d)) as Hin.
          { eapply Permutation_in; [symmetry; exact Hl|]. eapply Permutation_in; [exact Hq|]. now left. }
          unfold multiply_out in Hin. apply in_flat_map in Hin as [[y k] [Hy Hrep]].
          apply repeat_spec in Hrep as ->. now apply (in_map fst) in Hy. }
    assert (forall x k, In (x, k) d ->
              List.length (filter (head_is x) ps) * product_of_factorials (map snd d) = k * fact_spec n) as Hx.
    { intros x k Hin. apply in_split in Hin as [d1 [d2 Ed]].
      destruct k as [|k].
      - assert (filter (head_is x) ps = []) as ->; [|reflexivity].
        destruct (filter (head_is x) ps) as [|q r] eqn:E; [reflexivity|]. exfalso.
        assert (In q (filter (head_is x) ps)) as Hq by (rewrite E; now left).
        apply filter_In in Hq as [Hq Hh]. unfold head_is in Hh. destruct q as [|y q]; [discriminate|].
        destruct (dec y x) as [->|]; [|discriminate]. apply Hps in Hq.
        assert (In x (multiply_out d)) as Hin.
        { eapply Permutation_in; [symmetry; exact Hl|]. eapply Permutation_in; [exact Hq|]. now left. }
        subst d. rewrite map_app in Hd. cbn [map fst] in Hd.
        apply NoDup_remove_2 in Hd. apply Hd.
        unfold multiply_out in Hin. apply in_flat_map in Hin as [[y k] [Hy Hrep]].
        cbn [fst snd] in Hrep. apply in_app_iff in Hy as [Hy|[Hy|Hy]].
        + apply repeat_spec in Hrep as ->. apply in_or_app. left. now apply (in_map fst) in Hy.
        + injection Hy as <- <-. destruct Hrep.
        + apply repeat_spec in Hrep as ->. apply in_or_app. right. now apply (in_map fst) in Hy.
      - set (d' := d1 ++ (x, k) :: d2).
        assert (Permutation (x :: multiply_out d') (multiply_out d)) as Hperm.
        { subst d d'. unfold multiply_out. rewrite !flat_map_app. cbn [flat_map fst snd repeat app].
          now rewrite Permutation_middle. }
        assert (Permutation (x :: multiply_out d') l) as Hperm' by (etransitivity; [exact Hperm|exact Hl]).
        set (ps' := map (@tl A) (filter (head_is x) ps)).
        assert (forall q, In q (filter (head_is x) ps) -> exists r, q = x :: r) as Hform.
        { intros q Hq. apply filter_In in Hq as [_ Hh]. unfold head_is in Hh. destruct q as [|y q]; [discriminate|].
          destruct (dec y x) as [->|]; [now exists q|discriminate]. }
        assert (List.length ps' * product_of_factorials (map snd d') = fact_spec n) as Hrec.
        { apply (IH (multiply_out d') d' ps').
          - apply Permutation_length in Hperm'. cbn [List.length] in Hperm'. lia.
          - subst d d'. rewrite map_app in *. exact Hd.
          - reflexivity.
          - apply NoDup_map_inj; [now apply NoDup_filter|].
            intros q q' Hq Hq' E. destruct (Hform q Hq) as [r ->]. destruct (Hform q' Hq') as [r' ->].
            cbn [tl] in E. now subst.
          - intros q. subst ps'. rewrite in_map_iff. split.
            + intros [q' [<- Hq']]. destruct (Hform q' Hq') as [r ->]. cbn [tl].
              apply filter_In in Hq' as [Hq' _]. apply Hps in Hq'.
              apply (Permutation_cons_inv (a := x)). etransitivity; [exact Hq'|now symmetry].
            + intros Hq. exists (x :: q). split; [reflexivity|]. apply filter_In. split.
              * apply Hps. etransitivity; [|exact Hperm']. now constructor.
              * unfold head_is. destruct (dec x x); [reflexivity|congruence]. }
        subst ps'. rewrite map_length in Hrec. subst d d'.
        rewrite map_app in *. cbn [map snd] in *. rewrite prod_fact_app in *.
        cbn [product_of_factorials fold_right] in *.
        change (fold_right (fun k0 r => fact_spec k0 * r) 1 (map snd d2)) with (product_of_factorials (map snd d2)) in *.
        rewrite <- Hrec. replace (fact_spec (S k)) with (S k * fact_spec k) by reflexivity. ring. }
    assert (list_sum (map snd d) = S n) as Hsum.
    { rewrite <- Hlen, <- (Permutation_length Hl). clear. unfold multiply_out.
      induction d as [|[x k] d IHd]; [reflexivity|]. cbn [map snd flat_map fst list_sum fold_right].
      rewrite app_length, repeat_length. unfold list_sum in IHd. now rewrite IHd. }
    transitivity (list_sum (map snd d) * fact_spec n); [|rewrite Hsum; reflexivity].
    clear - Hx. set (P := product_of_factorials (map snd d)) in *. clearbody P.
    assert (forall e, (forall x k, In (x, k) e -> List.length (filter (head_is x) ps) * P = k * fact_spec n) ->
       list_sum (map (fun x => List.length (filter (head_is x) ps)) (map fst e)) * P = list_sum (map snd e) * fact_spec n) as H.
    { induction e as [|[x k] e IHe]; intros He; [reflexivity|].
      cbn [map fst snd list_sum fold_right]. unfold list_sum in IHe.
      rewrite !Nat.mul_add_distr_r, IHe; [|intros y j Hy; apply He; now right].
      f_equal. apply He. now left. }
    exact (H d Hx).
Qed.

Lemma w_prefactor_value {A} (d : list (A * nat)) :
  product_of_factorials (generate_w_prefactor d) = product_of_factorials (map snd d).
Proof.
  unfold generate_w_prefactor, product_of_factorials.
  induction (map snd d) as [|k ks IH]; [reflexivity|]. cbn [filter fold_right].
  destruct (Nat.eqb_spec k 1) as [->|Hk]; cbn [negb fold_right]; rewrite IH; [|reflexivity].
  cbn [fact_spec]. lia.
Qed.

Lemma prefactor_orderings {A} (dec : forall x y : A, {x = y} + {x <> y}) (l : list A) d :
  written_with_powers l d -> orderings_over_factorial l (product_of_factorials (generate_w_prefactor d)).
Proof.
  intros [H1 [_ H2]] ps Hnd Hps. rewrite w_prefactor_value.
  now apply (multinomial dec (List.length l) l d ps).
Qed.

(** ** Ground state *)

Lemma ground_state_exact so max : set_order so ->
  map fst (ground_state_terms so max) = seq 1 max /\
  forall n products, In (n, products) (ground_state_terms so max) ->
    exists ps, NoDup ps /\ (forall p, In p ps <-> partition_of n p) /\
      Forall2 (fun p d => written_with_powers p d /\
                 orderings_over_factorial p (product_of_factorials (generate_w_prefactor d))) ps products.
Proof.
  intros Hso. unfold ground_state_terms. split.
  - rewrite map_map. cbn [fst]. rewrite map_id. unfold range. f_equal. lia.
  - intros n products Hin. apply in_map_iff in Hin as [n' [E Hn]]. injection E as -> <-.
    apply in_range in Hn.
    exists (rev (generate_partitions_of_n so n)). split; [|split].
    + apply NoDup_rev. apply nodup_partitions. exact Hso.
    + intros p. rewrite <- in_rev. apply in_partitions; [exact Hso|lia].
    + induction (rev (generate_partitions_of_n so n)) as [|p ps IH]; cbn [map]; constructor; [|exact IH].
      assert (written_with_powers p (count_items Nat.eqb p)) as Hw.
      { apply count_items_written. intros x y. apply Nat.eqb_eq. }
      split; [exact Hw|]. apply prefactor_orderings; [apply Nat.eq_dec|exact Hw].
Qed.

(** ** Excited states *)

Lemma pair_eqb_eq x y : pair_eqb x y = true <-> x = y.
Proof.
  destruct x as [a b], y as [c d]. unfold pair_eqb. cbn [fst snd].
  rewrite andb_true_iff, !Nat.eqb_eq. split; [intros [-> ->]; reflexivity|intros E; now injection E as -> ->].
Qed.

Lemma pair_geb_ge x y : pair_geb x y = true <-> pair_ge x y.
Proof.
  unfold pair_geb, pair_leb, pair_ge. rewrite orb_true_iff, andb_true_iff, Nat.ltb_lt, Nat.eqb_eq, Nat.leb_le.
  split; intros [H|[H1 H2]]; auto.
Qed.

Lemma pair_geb_total x y : pair_geb x y = true \/ pair_geb y x = true.
Proof. rewrite !pair_geb_ge. unfold pair_ge. lia. Qed.
Lemma pair_geb_trans x y z : pair_geb x y = true -> pair_geb y z = true -> pair_geb x z = true.
Proof. rewrite !pair_geb_ge. unfold pair_ge. lia. Qed.
Lemma pair_geb_antisym x y : pair_geb x y = true -> pair_geb y x = true -> x = y.
Proof.
  rewrite !pair_geb_ge. unfold pair_ge. destruct x as [a b], y as [c d]. cbn [fst snd].
  intros. assert (a = c) by lia. assert (b = d) by lia. now subst.
Qed.

Lemma in_product_repeat {A} (l : list A) k p :
  In p (product_repeat l k) <-> List.length p = k /\ Forall (fun x => In x l) p.
Proof.
  unfold product_repeat. revert p. induction k as [|k IH]; intros p; cbn [repeat product].
  - split.
    + intros [<-|[]]. split; [reflexivity|constructor].
    + intros [H _]. destruct p; [now left|discriminate].
  - rewrite in_flat_map. split.
    + intros [x [Hx Hp]]. apply in_map_iff in Hp as [q [<- Hq]]. apply IH in Hq as [Hl Hf].
      split; [cbn; now rewrite Hl|now constructor].
    + intros [Hl Hf]. destruct p as [|x p]; [discriminate|]. inversion Hf; subst.
      exists x. split; [assumption|]. apply in_map. apply IH. split; [now injection Hl|assumption].
Qed.

Lemma in_single_t_list k m n :
  In (m, n) (single_t_list k) <-> (m, n) <> (0, 0) /\ m <= k /\ n <= k.
Proof.
  unfold single_t_list. rewrite filter_In, in_flat_map. cbn [fst snd].
  rewrite orb_true_iff, andb_true_iff, !negb_true_iff, Nat.eqb_eq, !Nat.eqb_neq. split.
  - intros [[m' [Hm Hin]] Hc]. apply in_map_iff in Hin as [n' [E Hn]]. injection E as -> ->.
    apply in_range in Hm, Hn. split; [|lia]. intros E. injection E as -> ->. lia.
  - intros [Hz [Hm Hn]]. split.
    + exists m. split; [apply in_range; lia|]. apply in_map. apply in_range. lia.
    + destruct (Nat.eq_dec n m) as [->|]; [left|now right]. split; [reflexivity|].
      intros ->. now apply Hz.
Qed.

Lemma fold_upper g : fold_right (fun ab r => fst ab + r) 0 g = upper_sum g.
Proof. unfold upper_sum, list_sum. induction g as [|x g IH]; cbn [map fold_right]; [reflexivity|now rewrite IH]. Qed.
Lemma fold_lower g : fold_right (fun ab r => snd ab + r) 0 g = lower_sum g.
Proof. unfold lower_sum, list_sum. induction g as [|x g IH]; cbn [map fold_right]; [reflexivity|now rewrite IH]. Qed.

Lemma upper_sum_perm g g' : Permutation g g' -> upper_sum g = upper_sum g'.
Proof. intros H. apply list_sum_perm, Permutation_map, H. Qed.
Lemma lower_sum_perm g g' : Permutation g g' -> lower_sum g = lower_sum g'.
Proof. intros H. apply list_sum_perm, Permutation_map, H. Qed.

Lemma contributes_perm m n g g' : Permutation g g' -> contributes m n g -> contributes m n g'.
Proof.
  intros HP [H1 [H2 [H3 H4]]]. unfold contributes. rewrite fold_upper in *. rewrite fold_lower in *.
  rewrite <- (upper_sum_perm _ _ HP), <- (lower_sum_perm _ _ HP). repeat split; auto.
  - intros ->. apply Permutation_sym, Permutation_nil in HP. contradiction.
  - rewrite Forall_forall in *. intros x Hx. apply H2. eapply Permutation_in; [symmetry; exact HP|exact Hx].
Qed.

Lemma contributes_bounds m n g : contributes m n g ->
  List.length g <= m + n /\ Forall (fun ab => In ab (single_t_list (m + n))) g.
Proof.
  intros [_ [H1 [H2 H3]]]. rewrite fold_upper in H2. rewrite fold_lower in H3. split.
  - rewrite <- H2, <- H3. clear H2 H3. induction H1 as [|[a b] g Hx Hg IH]; [cbn; lia|].
    unfold upper_sum, lower_sum, list_sum in *. cbn [map fold_right fst snd List.length].
    assert (1 <= a + b); [|lia]. destruct a, b; try lia. congruence.
  - rewrite Forall_forall in *. intros [a b] Hin. apply in_single_t_list. split; [now apply H1|].
    pose proof (in_le_list_sum a (map fst g) (in_map fst _ _ Hin)).
    pose proof (in_le_list_sum b (map snd g) (in_map snd _ _ Hin)).
    unfold upper_sum in H2. unfold lower_sum in H3. lia.
Qed.

Lemma canonical_srt g : canonical g <-> srt pair_geb g.
Proof.
  unfold canonical, srt. split; intros H; induction H as [|x l Hs IH Hf]; constructor; auto;
    rewrite Forall_forall in *; intros y Hy; apply pair_geb_ge; auto.
Qed.

Lemma isort_canonical g : canonical (isort pair_geb g).
Proof. apply canonical_srt. apply isort_sorted; [apply pair_geb_total|apply pair_geb_trans]. Qed.

Lemma in_matched_list w g :
  fst w + snd w <> 0 ->
  (In g (matched_list w) <-> contributes (fst w) (snd w) g /\ canonical g).
Proof.
  intros Hw. unfold matched_list. rewrite in_map_iff. split.
  - intros [t [<- Ht]]. apply filter_In in Ht as [Ht Hc]. apply andb_true_iff in Hc as [Hc1 Hc2].
    apply Nat.eqb_eq in Hc1, Hc2. apply in_flat_map in Ht as [k [Hk Ht]].
    apply in_product_repeat in Ht as [Hl Hf]. apply in_range in Hk.
    split; [|apply isort_canonical].
    apply (contributes_perm _ _ t); [apply isort_perm|]. unfold contributes.
    rewrite fold_upper, fold_lower. repeat split; auto.
    + intros ->. cbn in Hl. lia.
    + rewrite Forall_forall in *. intros [a b] Hin. now apply Hf, in_single_t_list in Hin as [Hin _].
  - intros [Hc Hs]. exists g. split.
    + apply isort_id; [apply pair_geb_total|apply pair_geb_trans|apply pair_geb_antisym|now apply canonical_srt].
    + apply filter_In. pose proof (contributes_bounds _ _ _ Hc) as [Hb Hf].
      destruct Hc as [Hne [_ [H1 H2]]]. rewrite fold_upper in H1. rewrite fold_lower in H2. split.
      * apply in_flat_map. exists (List.length g). split.
        -- apply in_range. destruct g; [contradiction|]. cbn [List.length] in *. lia.
        -- apply in_product_repeat. now split.
      * rewrite H1, H2, !Nat.eqb_refl. reflexivity.
Qed.

Lemma pairs_eqb_eq x y : pairs_eqb x y = true <-> x = y.
Proof. apply list_eqb_eq, pair_eqb_eq. Qed.

Lemma len_sorted {A} (l : list (list A)) :
  StronglySorted (fun a b => List.length a <= List.length b) (isort len_leb l).
Proof.
  assert (srt len_leb (isort (@len_leb A) l)) as H.
  { apply isort_sorted; unfold len_leb; intros; rewrite ?Nat.leb_le in *; lia. }
  unfold srt in H. induction H as [|x l' Hs IH Hf]; constructor; auto.
  rewrite Forall_forall in *. intros y Hy. apply Nat.leb_le, Hf, Hy.
Qed.

Lemma t_terms_group_exact so m n : set_order so -> (m, n) <> (0, 0) ->
  exists g, generate_t_terms_group so (m, n) = inr g /\ NoDup g /\
    (forall t, In t g <-> contributes m n t /\ canonical t) /\
    StronglySorted (fun a b => List.length a <= List.length b) g.
Proof.
  intros Hso Hmn. unfold generate_t_terms_group. cbn [fst snd].
  destruct (Nat.eqb_spec (m + n) 0) as [E|Hne]; [destruct m, n; try discriminate; congruence|].
  eexists. split; [reflexivity|]. split; [|split].
  - eapply Permutation_NoDup; [apply isort_perm|]. apply NoDup_so; [exact Hso|].
    apply nodup_dedup. apply pairs_eqb_eq.
  - intros t. rewrite in_isort, (in_so so _ t Hso), (in_dedup pairs_eqb pairs_eqb_eq).
    apply (in_matched_list (m, n)). exact Hne.
  - apply len_sorted.
Qed.

(** the labels *)
Lemma labels_exact order :
  NoDup (generate_labels_on_w order true) /\
  (forall m n, In (m, n) (generate_labels_on_w order true) <-> 1 <= m /\ m + n <= order) /\
  StronglySorted (fun a b => fst a + snd a <= fst b + snd b) (generate_labels_on_w order true).
Proof.
  unfold generate_labels_on_w. split; [|split].
  - eapply Permutation_NoDup; [apply isort_perm|].
    apply NoDup_flat_map; [apply seq_NoDup| |].
    + intros n Hn. apply in_range in Hn. destruct (Nat.eqb n 1 || negb true); [repeat constructor; intros []|].
      constructor.
      * intros Hin. apply in_map_iff in Hin as [i [E Hi]]. apply in_rev, in_range in Hi. injection E as E1 E2. lia.
      * apply NoDup_map_inj; [apply NoDup_rev, seq_NoDup|]. intros x y _ _ E. now injection E.
    + intros n n' [a b] Hn Hn' Hin Hin'. apply in_range in Hn, Hn'.
      assert (forall k, 1 <= k -> In (a, b) ((k, 0) :: (if Nat.eqb k 1 || negb true then [] else map (fun i => (i, k - i)) (rev (range 1 k)))) -> a + b = k) as Hs.
      { intros k Hk [E|H]; [injection E as <- <-; lia|]. destruct (Nat.eqb k 1 || negb true); [destruct H|].
        apply in_map_iff in H as [i [E Hi]]. apply in_rev, in_range in Hi. injection E as <- <-. lia. }
      apply Hs in Hin; [|lia]. apply Hs in Hin'; [|lia]. lia.
  - intros m n. rewrite in_isort, in_flat_map. split.
    + intros [k [Hk [E|H]]]; apply in_range in Hk; [injection E as <- <-; lia|].
      destruct (Nat.eqb k 1 || negb true); [destruct H|].
      apply in_map_iff in H as [i [E Hi]]. apply in_rev, in_range in Hi. injection E as <- <-. lia.
    + intros [Hm Hs]. exists (m + n). split; [apply in_range; lia|].
      destruct (Nat.eq_dec n 0) as [->|Hn]; [left; now rewrite Nat.add_0_r|]. right.
      destruct (Nat.eqb_spec (m + n) 1); [lia|]. cbn [negb orb].
      apply in_map_iff. exists m. split; [f_equal; lia|]. apply -> in_rev. apply in_range. lia.
  - assert (srt label_sum_leb (isort label_sum_leb
     (flat_map (fun n => (n, 0) :: (if Nat.eqb n 1 || negb true then [] else map (fun i => (i, n - i)) (rev (range 1 n)))) (range 1 (order + 1))))) as H.
    { apply isort_sorted; unfold label_sum_leb; intros; rewrite ?Nat.leb_le in *; lia. }
    unfold srt in H. induction H as [|x l' Hs IH Hf]; constructor; auto.
    rewrite Forall_forall in *. intros y Hy. apply Nat.leb_le, Hf, Hy.
Qed.

(** What is printed for W^m_n: every product except, when n > 0, the single
    amplitude t^m_n. *)
Lemma excited_line_exact so m n : set_order so -> 1 <= m -> (m, n) <> (1, 0) ->
  exists products gs,
    excited_line_of so (m, n) = Ok (ESum (m, n) products) /\ NoDup gs /\
    (forall g, In g gs <-> contributes m n g /\ canonical g /\ ~ (g = [(m, n)] /\ 1 <= n)) /\
    Forall2 (fun g d => written_with_powers g d /\
               orderings_over_factorial g (product_of_factorials (generate_w_prefactor d))) gs products.
Proof.
  intros Hso Hm Hmn. destruct (t_terms_group_exact so m n Hso) as [g [E [Hnd [Hin _]]]].
  { intros E; injection E as -> ->; lia. }
  unfold excited_line_of. rewrite E. cbn [fst snd].
  assert (Nat.eqb m 1 && Nat.eqb n 0 = false) as ->.
  { apply andb_false_iff. rewrite !Nat.eqb_neq. destruct (Nat.eq_dec m 1) as [->|]; [right|now left].
    intros ->. now apply Hmn. }
  eexists _, (filter (fun sub => negb (excited_skip sub)) (rev g)).
  split; [reflexivity|]. split; [|split].
  - apply NoDup_filter, NoDup_rev, Hnd.
  - intros t. rewrite filter_In, <- in_rev, Hin.
    assert (contributes m n t -> (negb (excited_skip t) = true <-> ~ (t = [(m, n)] /\ 1 <= n))) as Hsk.
    { intros [_ [_ [H1 H2]]]. destruct t as [|[a b] [|y t]].
      - cbn. split; [intros _ [H _]; discriminate|reflexivity].
      - cbn in H1, H2. cbn [excited_skip snd]. rewrite negb_involutive, Nat.eqb_eq.
        rewrite Nat.add_0_r in H1, H2. subst a b. split; [intros -> [_ H]; lia|].
        intros H. destruct n; [reflexivity|]. exfalso. apply H. split; [reflexivity|lia].
      - cbn. split; [intros _ [H _]; discriminate|reflexivity]. }
    split.
    + intros [[H1 H2] H3]. repeat split; try apply H1; [exact H2|]. now apply Hsk.
    + intros [H1 [H2 H3]]. repeat split; try apply H1; [exact H2|]. now apply Hsk.
  - induction (filter (fun sub => negb (excited_skip sub)) (rev g)) as [|p ps IH]; cbn [map]; constructor; [|exact IH].
    assert (written_with_powers p (count_items pair_eqb p)) as Hw.
    { apply count_items_written. apply pair_eqb_eq. }
    split; [exact Hw|]. apply prefactor_orderings; [|exact Hw].
    intros [a b] [c d]. destruct (Nat.eq_dec a c) as [->|]; [destruct (Nat.eq_dec b d) as [->|]|]; [now left| |]; right; congruence.
Qed.

(** every label gets its line *)
Lemma excited_state_lines so max : set_order so ->
  exists lines, excited_state_terms so max = Ok lines /\
    Forall2 (fun w l => excited_line_of so w = Ok l) (generate_labels_on_w max true) lines.
Proof.
  intros Hso. unfold excited_state_terms.
  assert (forall w, In w (generate_labels_on_w max true) -> exists l, excited_line_of so w = Ok l) as H.
  { intros [m n] Hin. apply (proj1 (proj2 (labels_exact max))) in Hin as [Hm _].
    destruct (t_terms_group_exact so m n Hso) as [g [E _]]; [intros E; injection E as -> ->; lia|].
    unfold excited_line_of. rewrite E. destruct (Nat.eqb (fst (m, n)) 1 && Nat.eqb (snd (m, n)) 0); eexists; reflexivity. }
  induction (generate_labels_on_w max true) as [|w ws IH]; [exists []; split; [reflexivity|constructor]|].
  destruct (H w (or_introl eq_refl)) as [l El]. destruct IH as [ls [Els Hls]].
  { intros w' Hw'. apply H. now right. }
  exists (l :: ls). cbn [mapM]. rewrite El, Els. split; [reflexivity|now constructor].
Qed.

Lemma Forall2_in_r {A B} (R : A -> B -> Prop) l l' b : Forall2 R l l' -> In b l' -> exists a, In a l /\ R a b.
Proof.
  induction 1 as [|x y l l' Hxy H IH]; intros Hin; [destruct Hin|].
  destruct Hin as [<-|Hin]; [exists x; split; [now left|exact Hxy]|].
  destruct (IH Hin) as [a [Ha HR]]. exists a. split; [now right|exact HR].
Qed.

Lemma excited_connected_missing so m n : set_order so -> 1 <= m -> 1 <= n ->
  contributes m n [(m, n)] /\
  exists products, excited_line_of so (m, n) = Ok (ESum (m, n) products) /\
    forall d, In d products -> ~ written_with_powers [(m, n)] d.
Proof.
  intros Hso Hm Hn. split.
  - split; [discriminate|]. split; [|cbn; lia]. repeat constructor. intros E; injection E; lia.
  - destruct (excited_line_exact so m n Hso Hm) as [ps [gs [E [_ [Hgs HF]]]]]; [intros E; injection E; lia|].
    exists ps. split; [exact E|]. intros d Hd [_ [_ Hw]].
    destruct (Forall2_in_r _ _ _ _ HF Hd) as [g [Hg [[_ [_ Hw']] _]]]. apply Hgs in Hg as [_ [_ Hg]].
    apply Hg. split; [|exact Hn]. apply Permutation_length_1_inv. transitivity (multiply_out d); [now symmetry|exact Hw'].
Qed.
