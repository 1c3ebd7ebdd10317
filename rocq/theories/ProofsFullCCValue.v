(** Proofs about the numbers that the generated python of the full coupled
    cluster equations computes. *)
From Coq Require Import List Arith Bool Ascii String Ring_theory Ring Lia Permutation.
From Verif Require Import PyBase PyBaseFacts ModelHelper ModelW ModelFullCC ModelPrefactor ModelFullCCPy SpecFullCC SpecPrefactor SpecFullCCPy SpecPython SpecEtText
  SpecFullCCText SpecFullCCPlaces SpecFullCCComplete SpecEinsum SpecFullCCValue ProofsHelper ProofsW ProofsStr ProofsFullCC ProofsFullCCLabels ProofsFullCCPy ProofsEinsum ProofsWValue
  ProofsFullCCPlaces ProofsFullCCComplete ProofsFullCCDistinct ProofsFullCCEvery.
Import ListNotations.
Local Open Scope nat_scope.
Local Open Scope list_scope.

(** ** Orders *)
Lemma in_insertions {X} (x : X) l p : In p (insertions x l) <-> exists a b, l = a ++ b /\ p = a ++ x :: b.
Proof.
  revert p. induction l as [|y l IH]; intros p; cbn [insertions].
  - split; [intros [<-|[]]; now exists [], []|]. intros (a & b & E & ->). symmetry in E. apply app_eq_nil in E as [-> ->]. now left.
  - cbn [In]. rewrite in_map_iff. split.
    + intros [<-|(q & <- & I)]; [now exists [], (y :: l)|]. apply IH in I as (a & b & -> & ->). now exists (y :: a), b.
    + intros (a & b & E & ->). destruct a as [|z a]; [cbn in E; subst b; now left|]. injection E as <- ->. right. eexists. split; [reflexivity|]. apply IH. eauto.
Qed.
Lemma in_orders {X} (l p : list X) : In p (orders_of l) <-> Permutation p l.
Proof.
  revert p. induction l as [|x l IH]; intros p; cbn [orders_of].
  - split; [intros [<-|[]]; constructor|]. intros P. apply Permutation_sym, Permutation_nil in P. now left.
  - rewrite in_flat_map. split.
    + intros (q & I & J). apply IH in I. apply in_insertions in J as (a & b & -> & ->). rewrite <- I. symmetry. apply Permutation_middle.
    + intros P. assert (I : In x p) by (apply (Permutation_in x (Permutation_sym P)); now left). apply in_split in I as (a & b & ->).
      exists (a ++ b). split; [|apply in_insertions; eauto]. apply IH. apply Permutation_cons_inv with x. rewrite <- P. apply Permutation_middle.
Qed.
Lemma nodup_insertions {X} (x : X) l : ~ In x l -> NoDup (insertions x l).
Proof.
  induction l as [|y l IH]; intros N; cbn [insertions]; [repeat constructor; intros []|]. constructor.
  - rewrite in_map_iff. intros (q & E & _). injection E as -> _. apply N. now left.
  - apply FinFun.Injective_map_NoDup; [intros a b E; now injection E|]. apply IH. intros I. apply N. now right.
Qed.
Lemma nodup_orders {X} (l : list X) : NoDup l -> NoDup (orders_of l).
Proof.
  induction l as [|x l IH]; intros N; cbn [orders_of]; [repeat constructor; intros []|]. apply NoDup_cons_iff in N as [Nx N].
  assert (Q : forall q, In q (orders_of l) -> ~ In x q) by (intros q I J; apply in_orders in I; apply Nx; now apply (Permutation_in x I)).
  specialize (IH N). revert IH Q. generalize (orders_of l) as qs. induction qs as [|q qs IHq]; intros Nq Q; [constructor|]. cbn [flat_map].
  apply NoDup_cons_iff in Nq as [Nq1 Nq2]. apply NoDup_app_intro; [apply nodup_insertions, Q; now left|apply IHq; [exact Nq2|intros r I; apply Q; now right]|].
  intros p I J. apply in_flat_map in J as (q' & Iq & J). apply Nq1. replace q with q'; [exact Iq|].
  apply in_insertions in I as (a & b & -> & ->). apply in_insertions in J as (a' & b' & -> & E).
  assert (Na : ~ In x a) by (intros I; apply (Q (a ++ b)); [now left|apply in_or_app; now left]).
  assert (Na' : ~ In x a') by (intros I; apply (Q (a' ++ b')); [now right|apply in_or_app; now left]).
  clear - E Na Na'. revert a' E Na'. induction a as [|z a IH]; intros [|z' a'] E Na'; cbn in *.
  - now injection E as ->.
  - injection E as <- _. destruct Na'. now left.
  - injection E as -> _. destruct Na. now left.
  - injection E as -> E. f_equal. apply IH; auto.
Qed.

(** ** Sums over letters and over modes *)
Section Modes.
  Variable F : scalars.
  Variable N : nat.
  Lemma sum_modes_ext k : forall f g, (forall is, List.length is = k -> f is = g is) -> sum_modes F N k f = sum_modes F N k g.
  Proof.
    induction k as [|k IH]; intros f g E; cbn [sum_modes]; [now apply E|]. apply sum_below_ext. intros i _. apply IH. intros is L. apply E. cbn. lia.
  Qed.
  Lemma letters_modes cs : forall rho f, NoDup cs -> respects F f ->
    sum_letters F (fun _ => N) cs rho f = sum_modes F N (List.length cs) (fun is => f (with_values cs is rho)).
  Proof.
    induction cs as [|c cs IH]; intros rho f Nd R; cbn [sum_letters List.length sum_modes with_values]; [reflexivity|].
    apply NoDup_cons_iff in Nd as [Nc Nd]. apply sum_below_ext. intros i _. rewrite IH by assumption. apply sum_modes_ext. intros is L.
    apply R. intros d. cbn [with_values]. destruct (Ascii.eqb_spec d c) as [->|D].
    - rewrite with_value_same, with_values_other by exact Nc. apply with_value_same.
    - rewrite (with_value_other _ c i d D). destruct (in_dec ascii_dec d cs) as [I|I].
      + assert (E : forall (l : list ascii) (f g : ascii -> nat), map f l = map g l -> In d l -> f d = g d).
        { clear. induction l as [|x l IH]; intros f g E I; [destruct I|]. cbn in E. injection E as E1 E2. destruct I as [->|I]; auto. }
        apply (E cs); [|exact I]. rewrite !with_values_map by (auto; lia). reflexivity.
      + rewrite !with_values_other by exact I. now apply with_value_other.
  Qed.
End Modes.

(** ** The value of a call *)
Lemma slice_slice {X} (L : list X) c k l n : l + n <= k -> slice (slice L c k) l n = slice L (c + l) n.
Proof.
  intros H. unfold slice. rewrite skipn_firstn_comm, firstn_firstn, skipn_add. f_equal. lia.
Qed.
Lemma slice_map {X Y} (f : X -> Y) l a n : map f (slice l a n) = slice (map f l) a n.
Proof. unfold slice. now rewrite <- firstn_map, <- skipn_map. Qed.
Lemma of_chars_string l : of_chars l = string_of_list_ascii l.
Proof. induction l as [|c l IH]; [reflexivity|]. cbn. now rewrite IH. Qed.
Lemma chained_chain ch vs : chained ch vs = map string_of_list_ascii (chain_of ch vs).
Proof.
  revert vs. induction ch as [|c ch IH]; intros vs; [reflexivity|]. destruct ch as [|d ch]; [reflexivity|]. destruct vs as [|v vs]; [reflexivity|].
  change (chained (c :: d :: ch) (v :: vs)) with (of_chars (c :: d :: v) :: chained (d :: ch) vs).
  change (chain_of (c :: d :: ch) (v :: vs)) with ((c :: d :: v) :: chain_of (d :: ch) vs). cbn [map]. now rewrite IH, of_chars_string.
Qed.

Section Call.
  Variable F : scalars.
  Variables A N : nat.
  Variables h t : nat * nat -> array F.
  Hypothesis Ax : operand_axes F A N h t.
  Variables om on hm hn f fbar : nat.
  Variable ts : list tamp.
  Hypothesis Hc : contraction om on hm hn ts f fbar.
  Hypothesis Hne : ts <> [].
  Hypothesis Hk : List.length ts <= 6.
  Hypothesis Hh : hm + hn <= 10.
  Hypothesis Ho : om + on <= 8.

  Let k := List.length ts.
  Let base := combine ts (labels hm f fbar ts).
  Let sm := su hm fbar ++ sl hm hn f fbar.
  Let vh := su hm fbar ++ sl hm hn f fbar ++ eu fbar ++ el f fbar.

  Lemma ct_su : List.length (su hm fbar) = hm - fbar.
  Proof. destruct Hc as (C1 & C2 & C3 & C4). unfold su. apply slice_length. cbn [List.length chars summation_indices]. lia. Qed.
  Lemma ct_sl : List.length (sl hm hn f fbar) = hn - f.
  Proof. destruct Hc as (C1 & C2 & C3 & C4). unfold sl. apply slice_length. cbn [List.length chars summation_indices]. lia. Qed.
  Lemma ct_e : eu fbar ++ el f fbar = slice (out om on) 0 (fbar + f).
  Proof.
    destruct Hc as (C1 & C2 & C3 & C4). unfold eu, el, out. change (slice XL fbar f) with (slice XL (0 + fbar) f). rewrite slice_app. symmetry. apply slice_slice. lia.
  Qed.
  Lemma ct_out : List.length (out om on) = om + on.
  Proof. unfold out. apply slice_length. cbn [List.length chars unlinked_indices]. lia. Qed.

  Lemma amplitude_modes rho s s' is : map rho (su hm fbar) = s -> map rho (sl hm hn f fbar) = s' -> map rho (out om on) = is ->
    forall us l u x, l + total n_h us <= hm - fbar -> u + total m_h us <= hn - f -> x + total n_o us + total m_o us <= om + on ->
    map (fun p => at_modes F (t (up (fst p), down (fst p))) (map rho (letters (snd p)))) (combine us (parts us l (hm - fbar + u) x)) =
    share F t us (skipn l s) (skipn u s') (skipn x is).
  Proof.
    intros Es Es' Ei. induction us as [|w us IH]; intros l u x L1 L2 L3; [reflexivity|]. cbn [parts combine map share fst snd].
    unfold total in L1, L2, L3. cbn [fold_right] in L1, L2, L3. fold (total n_h us) in L1. fold (total m_h us) in L2. fold (total n_o us) in L3. fold (total m_o us) in L3.
    f_equal.
    - f_equal. unfold letters. cbn [l_nh l_mh l_no l_mo]. rewrite !map_app. f_equal; [|f_equal].
      + replace (slice SL l (n_h w)) with (slice (su hm fbar) l (n_h w)) by (unfold su; apply slice_slice; lia). now rewrite slice_map, Es.
      + replace (slice SL (hm - fbar + u) (m_h w)) with (slice (sl hm hn f fbar) u (m_h w)) by (unfold sl; apply slice_slice; lia). now rewrite slice_map, Es'.
      + rewrite <- map_app, slice_app.
        replace (slice XL x (n_o w + m_o w)) with (slice (out om on) x (n_o w + m_o w)) by (unfold out; apply slice_slice; lia). now rewrite slice_map, Ei.
    - rewrite !skipn_add, <- (Nat.add_assoc (hm - fbar) u), <- (Nat.add_assoc x). apply IH; lia.
  Qed.

  Definition value_in (order : list nat) (is : list nat) (a b : nat) : K F := in_this_order F A N h t (mkcontr hm hn ts f fbar) order is a b.

  Lemma call_facts perm : Permutation perm (range 0 k) ->
    NoDup (("a"%char :: mids k ++ ["b"%char]) ++ sm ++ out om on) /\
    List.length (vh :: map (fun x => letters (snd x)) (fs_of hm f fbar ts perm)) = S (List.length (mids k)) /\
    Forall2 (fun v x => has_axes F A N (List.length v) x) (vh :: map (fun x => letters (snd x)) (fs_of hm f fbar ts perm))
      (h (hm, hn) :: map t (map (fun x => t_operand (fst x)) (fs_of hm f fbar ts perm))) /\
    (forall c, In c (List.concat (vh :: map (fun x => letters (snd x)) (fs_of hm f fbar ts perm))) <-> In c (sm ++ out om on)).
  Proof.
    intros P. pose proof Hc as (C1 & C2 & C3 & C4). pose proof (fs_perm hm f fbar ts perm P) as Pf.
    assert (Lf : List.length (fs_of hm f fbar ts perm) = k) by (unfold fs_of; rewrite map_length, (Permutation_length P), length_range; lia).
    split; [|split; [|split]].
    - pose proof (all_letters_nodup om on hm hn f fbar ts) as Q. unfold chain in Q. unfold sm. rewrite <- app_assoc. apply Q; assumption.
    - cbn [List.length]. rewrite map_length, Lf. unfold mids. rewrite firstn_length. cbn [List.length chars]. unfold k in *. lia.
    - constructor.
      + replace (List.length vh) with (hm + hn); [apply Ax|]. unfold vh. rewrite !app_length, ct_su, ct_sl.
        unfold eu, el. rewrite !slice_length by (cbn [List.length chars unlinked_indices]; lia). lia.
      + assert (B : Forall (fun x => fits (fst x) (snd x)) (fs_of hm f fbar ts perm)).
        { eapply Permutation_Forall; [symmetry; exact Pf|]. apply (base_fits om on hm hn f fbar ts); assumption. }
        clear - B Ax. induction B as [|x l (B1 & B2 & B3 & B4) _ IH]; cbn [map]; constructor; [|exact IH].
        replace (List.length (letters (snd x))) with (fst (t_operand (fst x)) + snd (t_operand (fst x))).
        * destruct (t_operand (fst x)) as [p q]. apply Ax.
        * unfold letters. rewrite !app_length, B1, B2, B3, B4. unfold t_operand. cbn [fst snd]. lia.
    - assert (R := call_realises om on hm hn f fbar ts Hc Hk Hh Ho (fs_of hm f fbar ts perm) Pf).
      intros c. cbn [List.concat]. rewrite in_app_iff. unfold vh, sm. rewrite !in_app_iff.
      rewrite <- flat_map_concat_map, (flat_map_snd letters).
      assert (X : In c (flat_map letters (map snd (fs_of hm f fbar ts perm))) <->
          In c (su hm fbar) \/ In c (sl hm hn f fbar) \/ In c (slice XL (fbar + f) (total n_o ts + total m_o ts))).
      { transitivity (In c (flat_map letters (labels hm f fbar ts))).
        - assert (Q : Permutation (map snd (fs_of hm f fbar ts perm)) (labels hm f fbar ts)).
          { rewrite Pf. rewrite (base_snd hm f fbar ts). reflexivity. }
          split; apply Permutation_in; [now apply Permutation_flat_map|symmetry; now apply Permutation_flat_map].
        - rewrite <- (parts_o ts 0 (hm - fbar) (fbar + f)). fold (labels hm f fbar ts).
          transitivity (In c (flat_map l_nh (labels hm f fbar ts)) \/ In c (flat_map l_mh (labels hm f fbar ts)) \/ In c (flat_map (fun p => l_no p ++ l_mo p) (labels hm f fbar ts))).
          + pose proof (ProofsFullCCLabels.letters_perm (labels hm f fbar ts)) as Q. split; intros I.
            * apply (Permutation_in c Q) in I. apply in_app_or in I as [I|I]; [auto|]. apply in_app_or in I as [I|I]; auto.
            * apply (Permutation_in c (Permutation_sym Q)). rewrite !in_app_iff. tauto.
          + unfold labels at 1 2. rewrite parts_nh, parts_mh. unfold su, sl.
            replace (total n_h ts) with (hm - fbar) by lia. replace (total m_h ts) with (hn - f) by lia. reflexivity. }
      rewrite X.
      assert (Y : In c (out om on) <-> (In c (eu fbar) \/ In c (el f fbar)) \/ In c (slice XL (fbar + f) (total n_o ts + total m_o ts))).
      { unfold out, eu, el. replace (om + on) with ((fbar + f) + (total n_o ts + total m_o ts)) by lia. rewrite <- (slice_app XL 0 (fbar + f)), in_app_iff.
        rewrite <- (slice_app XL 0 fbar f), in_app_iff. reflexivity. }
      rewrite Y. tauto.
  Qed.

  Lemma call_of_fits perm : Permutation perm (range 0 k) -> call_fits F A N h t (om + on) (call_of om on hm hn f fbar ts (fs_of hm f fbar ts perm)).
  Proof.
    intros P. destruct (call_facts perm P) as (F1 & F2 & F3 & F4). unfold call_fits, call_operands, call_of. cbn [e_inputs e_output e_h e_ts].
    rewrite chained_chain. change ("ab" +++ of_chars (out om on)) with (of_chars ("a" :: "b" :: out om on)%char). rewrite of_chars_string. unfold chain. split.
    - exact (chain_accepts F A N "a"%char "b"%char (mids k) sm (out om on) _ _ F1 F2 F3 F4).
    - rewrite <- ct_out. exact (chain_shape F A N "a"%char "b"%char (mids k) sm (out om on) _ _ F1 F2 F3 F4).
  Qed.

  Lemma call_of_value perm a b is : Permutation perm (range 0 k) -> b < A -> List.length is = om + on ->
    call_value F h t (call_of om on hm hn f fbar ts (fs_of hm f fbar ts perm)) (a :: b :: is) = value_in perm is a b.
  Proof.
    intros P Lb Li. destruct (call_facts perm P) as (F1 & F2 & F3 & F4). unfold call_value, call_operands, call_of. cbn [e_inputs e_output e_h e_ts].
    rewrite chained_chain. change ("ab" +++ of_chars (out om on)) with (of_chars ("a" :: "b" :: out om on)%char). rewrite of_chars_string. unfold chain.
    etransitivity; [exact (chain_einsum F A N "a"%char "b"%char (mids k) sm (out om on) _ _ F1 F2 F3 F4 a b is Lb (eq_trans Li (eq_sym ct_out)))|].
    destruct (nodup_split _ _ F1) as (_ & N2 & _). unfold sm in N2. rewrite <- app_assoc in N2. destruct (nodup_split _ _ N2) as (Nu & N3 & Du). destruct (nodup_split _ _ N3) as (Nl & No & Dl).
    set (g := fun rho => mprod F A _ a b).
    assert (Rg : respects F g).
    { intros r r' E. unfold g, modes_of. match goal with |- mprod _ _ ?l _ _ = mprod _ _ ?l' _ _ => assert (Q : l = l') end; [|now rewrite Q].
      apply map_ext. intros [v x]. cbn [fst snd]. f_equal. now apply map_ext. }
    unfold sm. rewrite letters_app.
    rewrite letters_modes; [|exact Nu|now apply letters_respects]. rewrite ct_su. unfold value_in, in_this_order. cbn [q_m q_n q_us q_f q_fbar].
    apply sum_modes_ext. intros s Ls. rewrite letters_modes by assumption. rewrite ct_sl. apply sum_modes_ext. intros s' Ls'.
    set (rho := with_values (sl hm hn f fbar) s' _).
    assert (Es' : map rho (sl hm hn f fbar) = s') by (apply with_values_map; [exact Nl|now rewrite ct_sl]).
    assert (Es : map rho (su hm fbar) = s).
    { rewrite <- (with_values_map (su hm fbar) s (with_values (out om on) is (fun _ => 0)) Nu) by now rewrite ct_su.
      apply map_ext_in. intros c I. apply with_values_other. intros J. apply (Du c I), in_or_app. now left. }
    assert (Ei : map rho (out om on) = is).
    { rewrite <- (with_values_map (out om on) is (fun _ => 0) No) by now rewrite ct_out.
      apply map_ext_in. intros c I. unfold rho. rewrite with_values_other by (intros J; now apply (Dl c J)).
      apply with_values_other. intros J. apply (Du c J), in_or_app. now right. }
    clearbody rho. unfold g, modes_of. cbn [combine map fst snd].
    match goal with |- mprod _ _ ?l _ _ = mprod _ _ ?l' _ _ => assert (Q : l = l') end; [|now rewrite Q]. f_equal.
    - f_equal. unfold vh. rewrite ct_e, !map_app, Es, Es', slice_map, Ei. reflexivity.
    - pose proof Hc as (C1 & C2 & C3 & C4).
      pose proof (amplitude_modes rho s s' is Es Es' Ei ts 0 0 (fbar + f) ltac:(lia) ltac:(lia) ltac:(lia)) as Am. rewrite Nat.add_0_r in Am.
      fold (labels hm f fbar ts) in Am. fold base in Am. cbn [skipn] in Am. rewrite <- Am.
      assert (Cm : forall fs : list (tamp * tlabel), map (fun vx => at_modes F (snd vx) (map rho (fst vx)))
          (combine (map (fun x => letters (snd x)) fs) (map t (map (fun x => t_operand (fst x)) fs))) =
          map (fun p => at_modes F (t (up (fst p), down (fst p))) (map rho (letters (snd p)))) fs).
      { induction fs as [|x fs IH]; [reflexivity|]. cbn [map combine fst snd]. f_equal. exact IH. }
      rewrite Cm. unfold fs_of. rewrite map_map. apply map_ext_in. intros p Ip.
      assert (Lp : p < List.length base).
      { unfold base. rewrite (base_length hm f fbar ts). apply (Permutation_in p P) in Ip. apply in_range in Ip. unfold k in Ip. lia. }
      fold base. set (G := fun p => at_modes F _ _). rewrite (nth_indep _ (identity F) (G tl0)) by (rewrite map_length; exact Lp). now rewrite map_nth.
  Qed.
End Call.

(** ** The value of a group *)
Lemma different_is us x : different_connected us x -> x = different_on_h us.
Proof.
  intros (d & Nd & I & <-). unfold different_on_h. apply Permutation_length. apply NoDup_Permutation; [exact Nd|apply NoDup_nodup|].
  intros w. rewrite I, nodup_In, filter_In, negb_true_iff, andb_false_iff, !Nat.eqb_neq. unfold disconnected. split; intros [X Y]; (split; [exact X|]); lia.
Qed.

Section Group.
  Variable F : scalars.
  Add Ring kring : (k_ring F).
  Variables A N : nat.
  Variables h t : nat * nat -> array F.
  Hypothesis Ax : operand_axes F A N h t.
  Variables (son : list (list nat) -> list (list nat)) (soc : list (list ascii) -> list (list ascii)).
  Hypothesis Hson : set_order son.
  Hypothesis Hsoc : set_order soc.
  Variables H cc S m n : nat.
  Hypothesis HS : S <= 6.
  Hypothesis HH : H <= 5.
  Hypothesis Hmn : m + n <= 6.

  Definition contr_of (c : chosen) : contr := mkcontr (c_m c) (c_n c) (c_us c) (c_f c) (c_fbar c).

  Lemma prefactor_weight c : right_prefactor (c_m c) (c_n c) (c_us c) (c_prefactor c) -> prefactor_is F (c_prefactor c) (weight F (contr_of c)).
  Proof.
    intros (x & num & den & E & _ & D & V). exists num, den. split; [exact E|]. apply different_is in D. subst x. unfold weight. cbn [q_m q_n q_us contr_of].
    set (D := fact (c_m c) * fact (c_n c) * fact (List.length (c_us c))) in *. set (X := fact (different_on_h (c_us c))) in *.
    assert (Pd : D <> 0) by (unfold D; pose proof (fact_neq_0 (c_m c)); pose proof (fact_neq_0 (c_n c)); pose proof (fact_neq_0 (List.length (c_us c))); nia).
    pose proof (fact_product_pos den) as Pv. set (u := fact_product num) in *. set (v := fact_product den) in *. clearbody D X u v.
    assert (E' : kmul F (of_nat F u) (of_nat F D) = kmul F (of_nat F X) (of_nat F v)) by (rewrite <- !of_nat_mul; now rewrite V).
    transitivity (kmul F (kmul F (of_nat F X) (one_over F D)) (kmul F (of_nat F v) (one_over F v))); [rewrite (over_spec F v Pv); ring|].
    transitivity (kmul F (kmul F (of_nat F X) (of_nat F v)) (kmul F (one_over F D) (one_over F v))); [ring|]. rewrite <- E'.
    transitivity (kmul F (kmul F (of_nat F u) (one_over F v)) (kmul F (of_nat F D) (one_over F D))); [ring|]. rewrite (over_spec F D Pd). ring.
  Qed.

  Lemma ksum_repeat (x : K F) j : ksum F (repeat x j) = kmul F (of_nat F j) x.
  Proof.
    induction j as [|j IH]; cbn [repeat]; [rewrite ksum_nil; change (of_nat F 0) with (kzero F); ring|]. rewrite ksum_cons, IH, of_nat_S. ring.
  Qed.

  Lemma map_repeat {X Y} (g : X -> Y) x j : map g (repeat x j) = repeat (g x) j.
  Proof. induction j as [|j IH]; cbn; [reflexivity|now rewrite IH]. Qed.

  Lemma chosen_value kind c : is_chosen H cc S m n kind c -> from_term son soc m n c ->
    Forall (call_fits F A N h t (m + n)) (c_calls c) /\
    forall a b is, b < A -> List.length is = m + n ->
      ksum F (map (fun e => call_value F h t e (a :: b :: is)) (c_calls c)) = contraction_value F A N h t (contr_of c) is a b.
  Proof.
    intros (Nu & (R1 & R2 & _ & C & _) & _ & _ & _ & One & _) (tm & D & E).
    assert (L1 : List.length (c_us c) <= 6) by lia. assert (L2 : c_m c + c_n c <= 10) by lia. assert (L3 : m + n <= 8) by lia.
    rewrite (calls_exact son soc Hson m n (c_m c) (c_n c) (c_f c) (c_fbar c) (c_us c) C Nu L1 L2 L3 tm D) in E. injection E as E.
    pose proof (fun perm P => call_of_fits F A N h t Ax m n _ _ _ _ _ C L1 L2 L3 perm P) as Fit.
    pose proof (fun perm a b is P => call_of_value F A N h t Ax m n _ _ _ _ _ C L1 L2 L3 perm a b is P) as Val.
    destruct (Nat.eq_dec (List.length (c_us c)) 1) as [O1|O1].
    - rewrite single_one in E by exact O1. destruct (One O1) as [e Ee].
      assert (Eb : combine (c_us c) (labels (c_m c) (c_f c) (c_fbar c) (c_us c)) = fs_of (c_m c) (c_f c) (c_fbar c) (c_us c) (range 0 (List.length (c_us c)))).
      { pose proof (base_length (c_m c) (c_f c) (c_fbar c) (c_us c)) as Bl. unfold fs_of. rewrite <- Bl. symmetry. apply map_nth_range. }
      rewrite Eb in E. set (e0 := call_of _ _ _ _ _ _ _ _) in E. set (j := match m + n with 0 => 1 | _ => _ end) in E.
      assert (Ej : c_calls c = repeat e0 (fact (m + n))).
      { rewrite <- E. f_equal. apply (f_equal (@List.length einsum)) in Ee. now rewrite <- E, !repeat_length in Ee. }
      rewrite Ej. split; [apply Forall_forall; intros x I; apply repeat_spec in I; subst x; apply Fit; reflexivity|].
      intros a b is Lb Li. rewrite map_repeat. unfold e0. rewrite Val by (auto; reflexivity). rewrite ksum_repeat.
      unfold contraction_value. cbn [q_us contr_of]. rewrite Li. unfold value_in, contr_of. destruct (c_us c) as [|u [|u' us]]; cbn in O1; try lia. reflexivity.
    - rewrite single_more in E by exact O1. rewrite <- E. split.
      + apply Forall_forall. intros x I. apply in_map_iff in I as (perm & <- & I). apply (in_unique_permutations son Hson) in I. now apply Fit.
      + intros a b is Lb Li. rewrite map_map. unfold contraction_value. cbn [q_us contr_of].
        transitivity (ksum F (map (fun o => in_this_order F A N h t (contr_of c) o is a b) (orders_of (seq 0 (List.length (c_us c)))))).
        * rewrite (ksum_ext F _ (fun o => in_this_order F A N h t (contr_of c) o is a b)).
          -- apply ksum_perm, Permutation_map. apply NoDup_Permutation; [apply (nodup_unique_permutations son Hson)|apply nodup_orders, seq_NoDup|].
             intros p. rewrite (in_unique_permutations son Hson), in_orders. unfold range. now rewrite Nat.sub_0_r.
          -- intros p I. apply (in_unique_permutations son Hson) in I. now apply Val.
        * destruct (c_us c) as [|u [|u' us]]; [congruence|cbn in O1; lia|reflexivity].
  Qed.

  Lemma add_up_perm l l' idx v : Permutation l l' -> add_up F h t l idx v -> add_up F h t l' idx v.
  Proof.
    intros P (vs & Fv & ->). destruct (Permutation_Forall2 P Fv) as (vs' & Pv & Fv'). exists vs'. split; [exact Fv'|]. now apply ksum_perm.
  Qed.
  Lemma add_up_app l l' idx v v' : add_up F h t l idx v -> add_up F h t l' idx v' -> add_up F h t (l ++ l') idx (kadd F v v').
  Proof. intros (vs & Fv & ->) (vs' & Fv' & ->). exists (vs ++ vs'). split; [now apply Forall2_app|]. symmetry. apply ksum_app. Qed.
  Lemma add_up_pairs p w l idx : prefactor_is F p w -> add_up F h t (map (pair p) l) idx (kmul F w (ksum F (map (fun e => call_value F h t e idx) l))).
  Proof.
    intros Pw. exists (map (fun e => kmul F w (call_value F h t e idx)) l). split.
    - induction l as [|e l IH]; cbn [map]; constructor; [exists w; now split|exact IH].
    - now rewrite ksum_scale.
  Qed.
  Lemma selected_active fh ft c : active fh ft (place_of c) = selected fh ft (contr_of c).
  Proof. reflexivity. Qed.

  Lemma chosen_sum kind cs fh ft : Forall (is_chosen H cc S m n kind) cs -> Forall (from_term son soc m n) cs ->
    Forall (fun pc => call_fits F A N h t (m + n) (snd pc))
      (flat_map (fun c => if active fh ft (place_of c) then map (pair (c_prefactor c)) (c_calls c) else []) cs) /\
    forall a b is, b < A -> List.length is = m + n ->
      add_up F h t (flat_map (fun c => if active fh ft (place_of c) then map (pair (c_prefactor c)) (c_calls c) else []) cs) (a :: b :: is)
        (contractions_value F A N h t fh ft (map contr_of cs) is a b).
  Proof.
    intros Fc Ff. induction cs as [|c cs IH]; [split; [constructor|intros; exists []; split; [constructor|reflexivity]]|].
    apply Forall_cons_iff in Fc as [Fc1 Fc]. apply Forall_cons_iff in Ff as [Ff1 Ff]. destruct (IH Fc Ff) as [I1 I2].
    destruct (chosen_value kind c Fc1 Ff1) as [V1 V2]. cbn [flat_map]. split.
    - apply Forall_app. split; [|exact I1]. destruct (active fh ft (place_of c)); [|constructor]. apply Forall_map. cbn [snd]. exact V1.
    - intros a b is Lb Li. unfold contractions_value. cbn [map]. rewrite ksum_cons. apply add_up_app; [|now apply I2]. rewrite <- selected_active.
      destruct (active fh ft (place_of c)); [|exists []; split; [constructor|reflexivity]].
      rewrite <- (V2 a b is Lb Li). apply add_up_pairs, prefactor_weight. destruct Fc1 as (_ & _ & _ & X & _). exact X.
  Qed.
End Group.

Lemma bares_ranks H cc S m n (kind : list tamp -> Prop) bares :
  (forall hm hn, In (hm, hn) bares <-> exists f fbar, requested m n H cc S true true hm hn [] f fbar /\ kind []) ->
  forall hm hn, In (hm, hn) bares <-> hm + hn = m + n /\ exists f fbar, requested m n H cc S true true hm hn [] f fbar /\ kind [].
Proof.
  intros X hm hn. rewrite X. split; [|tauto]. intros (f & fbar & R & Kd). split; [|eauto]. destruct R as (_ & _ & _ & (C1 & C2 & C3 & C4) & _). cbn in *. lia.
Qed.
Lemma chosen_wanted H cc S m n kind cs : Forall (is_chosen H cc S m n kind) cs -> Forall (wanted H cc S m n kind) (map contr_of cs).
Proof. intros X. apply Forall_map. eapply Forall_impl; [|exact X]. intros c (X1 & X2 & X3 & _). split; [exact X1|]. now split. Qed.

Lemma cc_file_value sot so son soc H cc S P text prog :
  set_order sot -> set_order so -> set_order son -> set_order soc -> 1 <= cc <= 6 -> S <= 6 -> H <= 5 ->
  generate_full_cc_python sot so son soc H cc S P = Ok text -> python text prog ->
  forall m n, m + n <= cc -> m + n <= P -> Forall2 (computes_contractions one_of_each_place prog H cc S m n) groups (kinds m n).
Proof.
  intros Hsot Hso Hson Hsoc C1 C2 C3 E R m n La Lb.
  pose proof (cc_file_places_with sot so son soc H cc S P text prog Hsot Hso Hson Hsoc C1 C2 C3 E R m n La Lb) as Fg.
  assert (Lm : m + n <= 6) by lia. induction Fg as [|g kd gs ks G Fg IH]; constructor; [|exact IH].
  destruct G as (bares & what & cs & Df & Nb & Ib & Fc & Fp & Nd & Cov & W & Ft). exists bares, what, (map contr_of cs).
  split; [exact Df|]. split; [exact Nb|]. split; [now apply bares_ranks|]. split; [now apply chosen_wanted|]. split.
  - exists (map c_prefactor cs). split; [|split].
    + clear - Fc. induction Fc as [|c cs (_ & _ & _ & X & _) _ IH]; cbn [map]; constructor; [exact X|exact IH].
    + replace (map _ (combine _ _)) with (map place_of cs); [exact Nd|]. clear. induction cs as [|c cs IH]; [reflexivity|]. cbn [map combine]. now rewrite IH.
    + replace (map _ (combine _ _)) with (map place_of cs) by (clear; induction cs as [|c cs IH]; [reflexivity|]; cbn [map combine]; now rewrite IH).
      intros q (W1 & W2 & W3). eexists. apply (Cov _ _ _ _ _ W2 W3 W1).
  - intros F A N h t Ax fh ft. destruct (chosen_sum F A N h t Ax son soc Hson H cc S m n C2 C3 Lm kd cs fh ft Fc Ft) as [X Y]. split.
    + eapply Permutation_Forall; [symmetry; apply W|exact X].
    + intros a b is L1 L2. eapply add_up_perm; [symmetry; apply W|]. now apply Y.
Qed.

Lemma cc_file_value_every sot so son soc H cc S P text prog :
  set_order sot -> set_order so -> set_order son -> set_order soc -> 1 <= cc <= 6 -> S <= 6 -> H <= 5 -> ~ loses H cc S P ->
  generate_full_cc_python sot so son soc H cc S P = Ok text -> python text prog ->
  forall m n, m + n <= cc -> m + n <= P -> Forall2 (computes_contractions all_once prog H cc S m n) groups (kinds m n).
Proof.
  intros Hsot Hso Hson Hsoc C1 C2 C3 Ls E R m n La Lb.
  pose proof (cc_file_every_with sot so son soc H cc S P text prog Hsot Hso Hson Hsoc C1 C2 C3 Ls E R m n La Lb) as Fg.
  assert (Lm : m + n <= 6) by lia. induction Fg as [|g kd gs ks G Fg IH]; constructor; [|exact IH].
  destruct G as (bares & what & cs & Df & Nb & Ib & Fc & Cov & W & Ft). exists bares, what, (map contr_of cs).
  split; [exact Df|]. split; [exact Nb|]. split; [now apply bares_ranks|]. split; [now apply chosen_wanted|]. split.
  - intros q (W1 & W2 & W3). destruct (Cov _ _ _ _ _ W2 W3 W1) as (b & c & a & -> & (S1 & S2 & S3) & U).
    exists (map contr_of b), (contr_of c), (map contr_of a). split; [now rewrite map_app|]. split; [split; [exact S1|split; [exact S2|now symmetry]]|].
    intros q'' I (T1 & T2 & T3). rewrite <- map_app in I. apply in_map_iff in I as (c' & <- & I). apply (U c' I). split; [exact T1|]. split; [exact T2|now symmetry].
  - intros F A N h t Ax fh ft. destruct (chosen_sum F A N h t Ax son soc Hson H cc S m n C2 C3 Lm kd cs fh ft Fc Ft) as [X Y]. split.
    + eapply Permutation_Forall; [symmetry; apply W|exact X].
    + intros a b is L1 L2. eapply add_up_perm; [symmetry; apply W|]. now apply Y.
Qed.

(** The number that calls add up to is determined by their texts. *)
Lemma add_up_unique F h t l idx v v' : add_up F h t l idx v -> add_up F h t l idx v' -> v = v'.
Proof.
  intros (vs & Fv & ->) (vs' & Fv' & ->). f_equal. revert vs' Fv'. induction Fv as [|pc x l vs (w & (num & den & E1 & ->) & ->) _ IH]; intros vs' Fv'; inversion Fv' as [|? x' ? vs0 (w' & (num' & den' & E2 & ->) & ->) Fv0]; subst; [reflexivity|].
  rewrite E1 in E2. apply prefactor_text_inj in E2 as [-> ->]. f_equal. now apply IH.
Qed.
