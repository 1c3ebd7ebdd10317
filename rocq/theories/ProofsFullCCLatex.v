(** Proofs about the LaTeX of the full coupled cluster equations: the right
    hand sides. *)
From Coq Require Import Sorted.
From Verif Require Import PyBase PyBaseFacts PyStr ModelHelper ModelW ModelFullCC ModelPrefactor ModelFullCCPy ModelFullCCLatex
  SpecFullCC SpecFullCCPy SpecPrefactor SpecFullCCLatex ProofsHelper ProofsW ProofsStr ProofsFullCC ProofsFullCCLabels
  ProofsFullCCPy ProofsFullCCBuckets ProofsFullCCLatexText.
Open Scope string_scope.

(** ** Texts that clean to texts *)
Definition cleans (r s : string) : Prop := forall b, clean (r ++ b) = s ++ clean b.

Lemma cleans_tidy s : tidy s = true -> cleans s s.
Proof. intros H b. now apply clean_app. Qed.
Lemma cleans_app r s r' s' : cleans r s -> cleans r' s' -> cleans (r ++ r') (s ++ s').
Proof. intros H H' b. rewrite !append_assoc, H, H'. reflexivity. Qed.
Lemma cleans_join sep rs ss : tidy sep = true -> Forall2 cleans rs ss -> cleans (join sep rs) (String.concat sep ss).
Proof.
  intros Hs H. induction H as [|r s rs ss Hr H IH]; [now apply cleans_tidy|].
  destruct H as [|r' s' rs ss Hr' H]; [exact Hr|].
  change (join sep (r :: r' :: rs)) with (r ++ sep ++ join sep (r' :: rs)).
  change (String.concat sep (s :: s' :: ss)) with (s ++ sep ++ String.concat sep (s' :: ss)).
  apply cleans_app; [exact Hr|]. apply cleans_app; [now apply cleans_tidy|exact IH].
Qed.
Lemma cleans_clean r s : cleans r s -> clean r = s.
Proof. intros H. specialize (H ""). rewrite !append_nil_r in H. exact H. Qed.

(** ** Letters of a term *)
Lemma plain_SL a n : plain_letters (slice SL a n).
Proof. apply letters_plain. intros c H. left. now apply in_slice in H. Qed.
Lemma plain_XL a n : plain_letters (slice XL a n).
Proof. apply letters_plain. intros c H. right. now apply in_slice in H. Qed.

Lemma parts_plain ts l u x : Forall plain_label (parts ts l u x).
Proof.
  revert l u x; induction ts as [|t ts IH]; intros; cbn [parts]; constructor; auto.
  unfold plain_label; cbn [l_nh l_mh l_no l_mo]. repeat split; first [apply plain_SL|apply plain_XL].
Qed.

Lemma fits_nonempty t p : fits t p -> 1 <= up t + down t -> nonempty_label p.
Proof.
  intros (F1 & F2 & F3 & F4) H E. unfold up, down in H.
  apply (f_equal (@List.length ascii)) in E. rewrite !app_length in E. cbn in E. lia.
Qed.

Lemma parts_good ts l u x : Forall (fun t => 1 <= up t + down t) ts ->
  Forall2 fits ts (parts ts l u x) ->
  Forall (fun p => plain_label p /\ nonempty_label p) (parts ts l u x).
Proof.
  intros N F. pose proof (parts_plain ts l u x) as P. revert P. generalize dependent (parts ts l u x).
  intros ps F P. induction F as [|t p ts ps Hf F IH]; [constructor|].
  inversion N; inversion P; subst. constructor; [|now apply IH]. split; [assumption|]. eapply fits_nonempty; eauto.
Qed.

Section OneTerm.
  Variables hm hn f fbar : nat.
  Hypothesis Hh : hm + hn <= 10.
  Hypothesis Hf : f <= hn.
  Hypothesis Hfb : fbar <= hm.
  Variables num den : list nat.
  Variables k x : nat.
  Variable ts : list tamp.
  Hypothesis Hnz : Forall (fun t => 1 <= up t + down t) ts.
  Hypothesis Hnh : total n_h ts + fbar = hm.
  Hypothesis Hmh : total m_h ts + f = hn.
  Hypothesis Hk : k + fbar + f <= 8.
  Hypothesis Hx : x + total n_o ts + total m_o ts <= 8.

  Definition term_raw : string :=
    raw_term f fbar num den (hm + hn) (slice SL 0 (hm - fbar)) (slice XL k fbar)
      (slice SL (hm - fbar) (hn - f)) (slice XL (k + fbar) f) (parts ts 0 (hm - fbar) x).
  Definition term_clean : string :=
    spec_term f fbar num den (hm + hn) (slice SL 0 (hm - fbar)) (slice XL k fbar)
      (slice SL (hm - fbar) (hn - f)) (slice XL (k + fbar) f) (parts ts 0 (hm - fbar) x).

  Lemma term_fits : Forall2 fits ts (parts ts 0 (hm - fbar) x).
  Proof. apply parts_fit; lia. Qed.

  Lemma term_cleans : cleans term_raw term_clean.
  Proof.
    intros b. apply clean_raw_term; try apply plain_SL; try apply plain_XL. apply parts_good; [assumption|apply term_fits].
  Qed.

  Lemma term_text_ok gap : x = k + fbar + f + gap -> term_text k gap hm hn f fbar ts num den term_clean.
  Proof.
    intros Ex. exists (slice SL 0 (hm - fbar)), (slice SL (hm - fbar) (hn - f)), (slice XL k fbar), (slice XL (k + fbar) f),
      (parts ts 0 (hm - fbar) x).
    split; [apply term_fits|].
    assert (LS : forall a n, a + n <= 10 -> List.length (slice SL a n) = n) by (intros; now apply slice_length).
    assert (LX : forall a n, a + n <= 8 -> List.length (slice XL a n) = n) by (intros; now apply slice_length).
    rewrite !LS, !LX by lia. split; [lia|]. split; [lia|]. split; [reflexivity|]. split; [reflexivity|].
    split. { change (slice SL (hm - fbar) (hn - f)) with (slice SL (0 + (hm - fbar)) (hn - f)). rewrite slice_app. reflexivity. }
    rewrite parts_nh, parts_mh, parts_o. replace (total n_h ts) with (hm - fbar) by lia. replace (total m_h ts) with (hn - f) by lia.
    split; [reflexivity|]. split; [reflexivity|]. split; [now rewrite slice_app|]. split; [now rewrite Ex|]. reflexivity.
  Qed.
End OneTerm.

(** ** What is printed for a term *)
Lemma render_h_text hm hn fbar f l1 l2 k : fbar <= hm -> f <= hn ->
  render_h_latex (h_latex_labels (mkch (hm + hn) hm hn fbar f l1 l2) k)
  = hamiltonian_text (hm + hn) (slice SL 0 (hm - fbar)) (slice XL k fbar) (slice SL (hm - fbar) (hn - f)) (slice XL (k + fbar) f).
Proof.
  intros H1 H2. unfold h_latex_labels, hamiltonian_text. cbn [ch_rank ch_m ch_n ch_m_o ch_n_o].
  destruct (hm + hn) as [|r]; [reflexivity|]. cbn [Nat.eqb render_h_latex]. unfold render_label. cbn [fst snd].
  change string_of_list_ascii with of_chars.
  rewrite sslice_0_of_chars, !sslice_of_chars. cbn [append]. now repeat (rewrite append_assoc; cbn [append]).
Qed.

Lemma f_power_id r a b f fbar l1 l2 r' hm hn l3 l4 :
  f_power (mkco r a b f fbar l1 l2) (mkch r' hm hn fbar f l3 l4) = f /\
  fbar_power (mkco r a b f fbar l1 l2) (mkch r' hm hn fbar f l3 l4) = fbar.
Proof.
  unfold f_power, fbar_power. cbn [co_m_h co_n_h ch_m_o ch_n_o].
  split; [destruct f|destruct fbar]; reflexivity.
Qed.

Section Described.
  Variable son : list nat -> list nat.
  Hypothesis Hson : set_order son.
  Variables om on hm hn f fbar : nat.
  Variable us : list tamp.
  Variable t : term.
  Hypothesis Hc : contraction om on hm hn us f fbar.
  Hypothesis Hnz : Forall (fun t => 1 <= up t + down t) us.
  Hypothesis Hd : describes om on hm hn us f fbar t.
  Hypothesis Hh : hm + hn <= 10.
  Hypothesis Ho : om + on <= 8.

  Definition the_prefactor : prefactor := build_prefactor son (snd (fst t)) (snd t).

  Lemma prefactor_is : prefactor_of hm hn us (fst the_prefactor) (snd the_prefactor).
  Proof.
    unfold the_prefactor, prefactor_of. destruct us as [|u r] eqn:E.
    - rewrite (prefactor_bare _ _ _ _ _ _ _ _ Hd). auto.
    - destruct (prefactor_value son om on hm hn (u :: r) f fbar t) as (x & num & den & D & B & V & N); auto; [discriminate|].
      rewrite B. cbn [fst snd]. eauto.
  Qed.

  Lemma plain_group x : map render_t_latex (t_latex_loop (factors us) (mkoff (hm - fbar) 0 x)) = map raw_amp (parts us 0 (hm - fbar) x)
    \/ 8 < x + total n_o us + total m_o us.
  Proof.
    destruct (Nat.leb_spec (x + total n_o us + total m_o us) 8); [|right; lia]. left.
    destruct us as [|u r] eqn:E; [reflexivity|]. cbn [factors]. rewrite <- E in *.
    destruct Hc as (C1 & C2 & C3 & C4). apply latex_loop_parts; auto; lia.
  Qed.

  Lemma plain_raw : render_lterm (latex_term son t)
    = term_raw hm hn f fbar (fst the_prefactor) (snd the_prefactor) 0 (fbar + f) us.
  Proof.
    destruct Hc as (C1 & C2 & C3 & C4). unfold the_prefactor. unfold describes in Hd. rewrite Hd. unfold latex_term.
    destruct (f_power_id (om + on) om on f fbar (map n_o (factors us)) (map m_o (factors us)) (hm + hn) hm hn
               (map n_h (factors us)) (map m_h (factors us))) as [E1 E2].
    unfold render_lterm. cbn [lt_f lt_fbar lt_prefactor lt_h lt_ts fst snd]. rewrite E1, E2, !render_power_text, render_fraction_text.
    rewrite render_h_text by lia. unfold latex_prefactor, term_raw, raw_term. repeat f_equal.
    unfold t_latex_group. cbn [ch_m ch_m_o ch_n_o].
    destruct (plain_group (0 + (fbar + f))) as [G|G]; [exact G|lia].
  Qed.

  Lemma plain_described : exists s, plain_term om on t s /\ cleans (render_lterm (latex_term son t)) s.
  Proof.
    destruct Hc as (C1 & C2 & C3 & C4).
    exists (term_clean hm hn f fbar (fst the_prefactor) (snd the_prefactor) 0 (fbar + f) us). split.
    - exists hm, hn, us, f, fbar, (fst the_prefactor), (snd the_prefactor). split; [exact Hd|]. split; [apply prefactor_is|].
      apply term_text_ok; lia.
    - rewrite plain_raw. apply term_cleans; auto; lia.
  Qed.
End Described.

Definition described (om on : nat) (t : term) (hm hn : nat) (us : list tamp) (f fbar : nat) : Prop :=
  contraction om on hm hn us f fbar /\ Forall (fun t => 1 <= up t + down t) us /\
  describes om on hm hn us f fbar t /\ hm + hn <= 10.
Definition good (om on : nat) (t : term) : Prop := exists hm hn us f fbar, described om on t hm hn us f fbar.

(** ** Plain sums *)
Lemma forall2_exists {A B} (P : A -> B -> Prop) l : (forall x, In x l -> exists y, P x y) -> exists ys, Forall2 P l ys.
Proof.
  induction l as [|x l IH]; intros H; [exists []; constructor|].
  destruct (H x) as [y Hy]; [now left|]. destruct IH as [ys Hys]; [intros; apply H; now right|]. exists (y :: ys). now constructor.
Qed.
Lemma forall2_split {A B} (P Q : A -> B -> Prop) l ys : Forall2 (fun x y => P x y /\ Q x y) l ys -> Forall2 P l ys /\ Forall2 Q l ys.
Proof. induction 1 as [|x y l ys [H1 H2] _ [I1 I2]]; split; constructor; auto. Qed.
Lemma forall2_map_l {A B C} (P : C -> B -> Prop) (g : A -> C) l ys : Forall2 (fun x y => P (g x) y) l ys -> Forall2 P (map g l) ys.
Proof. induction 1; constructor; auto. Qed.
Lemma forall2_len {A B} (P : A -> B -> Prop) l ys : Forall2 P l ys -> List.length l = List.length ys.
Proof. induction 1; cbn; auto. Qed.
Lemma forall2_skipn {A B} (P : A -> B -> Prop) n : forall l ys, Forall2 P l ys -> Forall2 P (skipn n l) (skipn n ys).
Proof. induction n; intros l ys H; [exact H|]. destruct H; cbn; [constructor|now apply IHn]. Qed.
Lemma forall2_firstn {A B} (P : A -> B -> Prop) n : forall l ys, Forall2 P l ys -> Forall2 P (firstn n l) (firstn n ys).
Proof. induction n; intros l ys H; [constructor|]. destruct H; cbn; [constructor|constructor; [assumption|now apply IHn]]. Qed.
Lemma forall2_pyslice {A B} (P : A -> B -> Prop) a b l ys : Forall2 P l ys -> Forall2 P (PyBase.slice a b l) (PyBase.slice a b ys).
Proof. intros H. unfold PyBase.slice. now apply forall2_firstn, forall2_skipn. Qed.

Definition chunks {A} (l : list A) : list (list A) :=
  map (fun i => PyBase.slice (i * split_number) ((i + 1) * split_number) l) (range 0 (List.length l / split_number)).

Lemma range_S n : range 0 (S n) = (range 0 n ++ [n])%list.
Proof. unfold range. rewrite !Nat.sub_0_r. now rewrite seq_S. Qed.

Lemma concat_slices {A} (l : list A) n : n * 7 <= List.length l ->
  List.concat (map (fun i => PyBase.slice (i * 7) ((i + 1) * 7) l) (range 0 n)) = firstn (n * 7) l /\
  Forall (fun x => List.length x = 7) (map (fun i => PyBase.slice (i * 7) ((i + 1) * 7) l) (range 0 n)).
Proof.
  induction n as [|n IH]; intros H; [split; constructor|]. destruct IH as [I1 I2]; [lia|].
  rewrite range_S, map_app, concat_app. cbn [map List.concat]. rewrite app_nil_r. split.
  - rewrite I1. unfold PyBase.slice. replace ((n + 1) * 7 - n * 7) with 7 by lia. rewrite firstn_skipn_comm.
    replace (n * 7 + 7) with (S n * 7) by lia.
    rewrite <- (firstn_skipn (n * 7) (firstn (S n * 7) l)) at 2. f_equal. rewrite firstn_firstn. f_equal. lia.
  - apply Forall_app. split; [exact I2|]. constructor; [|constructor]. unfold PyBase.slice.
    rewrite firstn_length, skipn_length. lia.
Qed.

Lemma chunks_spec {A} (l : list A) :
  Forall (fun x => List.length x = 7) (chunks l) /\
  l = (List.concat (chunks l) ++ skipn (List.length l / 7 * 7) l)%list /\
  List.length (skipn (List.length l / 7 * 7) l) < 7.
Proof.
  pose proof (Nat.div_mod (List.length l) 7 ltac:(lia)) as D.
  pose proof (Nat.mod_upper_bound (List.length l) 7 ltac:(lia)) as U.
  destruct (concat_slices l (List.length l / 7)) as [C1 C2]; [lia|]. unfold chunks, split_number.
  split; [exact C2|]. rewrite C1, firstn_skipn. split; [reflexivity|]. rewrite skipn_length. lia.
Qed.

Lemma forall2_map2 {A B C} (P : B -> C -> Prop) (g : A -> B) (h : A -> C) l : (forall x, P (g x) (h x)) -> Forall2 P (map g l) (map h l).
Proof. intros H. induction l; constructor; auto. Qed.

Lemma chunks_forall2 {A B} (P : A -> B -> Prop) l ys : Forall2 P l ys -> Forall2 (Forall2 P) (chunks l) (chunks ys).
Proof.
  intros H. unfold chunks. rewrite <- (forall2_len _ _ _ H). apply forall2_map2. intros i. now apply forall2_pyslice.
Qed.

Lemma splitting_break : splitting = line_break.
Proof. reflexivity. Qed.

Lemma line_cleans lts ss : Forall2 (fun x s => cleans (render_lterm x) s) lts ss -> cleans (render_line lts) (String.concat " + " ss).
Proof. intros H. apply cleans_join; [reflexivity|]. now apply forall2_map_l. Qed.

Lemma glue_plain_text none lts ss : Forall2 (fun x s => cleans (render_lterm x) s) lts ss ->
  exists text, plain_text ss text /\ cleans (render_lsum none (glue_plain lts)) text.
Proof.
  intros H. pose proof (forall2_len _ _ _ H) as L. unfold glue_plain.
  destruct (Nat.ltb_spec (List.length lts) (split_number * 2)) as [Hn|Hn]; unfold split_number in Hn.
  - exists (sum_text ss). split; [left; split; [lia|reflexivity]|]. cbn [render_lsum]. unfold sum_text.
    apply cleans_app; [now apply cleans_tidy|]. apply cleans_app; [now apply line_cleans|now apply cleans_tidy].
  - destruct (chunks_spec ss) as (C1 & C2 & C3). exists (lines_text (chunks ss)). split.
    + right. split; [lia|]. exists (chunks ss), (skipn (List.length ss / 7 * 7) ss). auto.
    + fold (chunks lts). cbn [render_lsum]. unfold lines_text.
      change nl with newline.
      apply cleans_app; [now apply cleans_tidy|]. apply cleans_app; [now apply cleans_tidy|].
      apply cleans_app; [|apply cleans_app; now apply cleans_tidy].
      rewrite splitting_break. apply cleans_join; [reflexivity|]. apply forall2_map_l.
      pose proof (chunks_forall2 _ _ _ H) as F. clear - F.
      induction F as [|x y a b Hxy F IH]; [constructor|]. cbn [map]. constructor; [now apply line_cleans|exact IH].
Qed.

Section Parts.
  Variable so : list (list tamp) -> list (list tamp).
  Hypothesis Hso : set_order so.
  Variable son : list nat -> list nat.
  Hypothesis Hson : set_order son.
  Variables om on : nat.
  Hypothesis Ho : om + on <= 8.

  Lemma plain_terms l : (forall t, In t l -> good om on t) ->
    exists ss, Forall2 (plain_term om on) l ss /\ Forall2 (fun x s => cleans (render_lterm x) s) (map (latex_term son) l) ss.
  Proof.
    intros G.
    destruct (forall2_exists (fun t s => plain_term om on t s /\ cleans (render_lterm (latex_term son t)) s) l) as [ss F].
    { intros t Ht. destruct (G t Ht) as (hm & hn & us & f & fb & C & N & D & Hh). eapply plain_described; eauto. }
    exists ss. apply forall2_split in F as [F1 F2]. split; [exact F1|]. now apply forall2_map_l.
  Qed.

  Lemma plain_part_ok none l : (forall t, In t l -> good om on t) ->
    exists text, plain_part om on l text /\ cleans (render_lsum none (make_latex_plain son l)) text.
  Proof.
    intros G. destruct (plain_terms l G) as (ss & F1 & F2).
    destruct (glue_plain_text none _ _ F2) as (text & P & C). exists text. split; [|exact C]. now exists ss.
  Qed.

  (** ** Disconnected amplitudes *)
  Lemma loose_factors t : disconnected_factors t = loose (snd t).
  Proof.
    unfold disconnected_factors, loose, term_ts. apply filter_ext. intros a. unfold is_connected, is_disconnected. now rewrite negb_involutive.
  Qed.

  Lemma total_filter (g : tamp -> nat) (p : tamp -> bool) ts :
    total g ts = total g (filter p ts) + total g (filter (fun t => negb (p t)) ts).
  Proof.
    clear. unfold total. induction ts as [|t ts IH]; [reflexivity|]. cbn. destruct (p t); cbn; lia.
  Qed.
  Lemma total_zero (g : tamp -> nat) ts : (forall t, In t ts -> g t = 0) -> total g ts = 0.
  Proof. unfold total. induction ts as [|t ts IH]; intros H; [reflexivity|]. cbn. rewrite (H t) by now left. apply IH. intros; apply H; now right. Qed.
  Lemma loose_zero ts : total n_h (loose ts) = 0 /\ total m_h (loose ts) = 0.
  Proof.
    split; apply total_zero; intros t Ht; apply filter_In in Ht as [_ Ht]; unfold is_disconnected in Ht;
    apply andb_true_iff in Ht as [A B]; apply Nat.eqb_eq in A, B; assumption.
  Qed.
  Lemma bound_total g ts : total g ts = total g (loose ts) + total g (bound ts).
  Proof. apply total_filter. Qed.
  Lemma legs_total ts : legs ts = total n_o ts + total m_o ts.
  Proof. unfold legs, list_sum, total. induction ts as [|t ts IH]; [reflexivity|]. cbn [map fold_right] in *. rewrite IH. lia. Qed.
  Lemma loose_factors_us us : loose (factors us) = loose us \/ us = [].
  Proof. destruct us; [now right|now left]. Qed.

  (** ** Finding the own factor of a term *)
  Lemma sublist_len {A} (a b : list A) : sublist a b -> List.length a <= List.length b.
  Proof. induction 1; cbn; lia. Qed.
  Lemma sublist_same {A} (a b : list A) : sublist a b -> List.length b <= List.length a -> a = b.
  Proof.
    induction 1 as [l|x l l' H IH|x l l' H IH]; cbn; intros L.
    - destruct l; [reflexivity|cbn in L; lia].
    - f_equal. apply IH. lia.
    - apply sublist_len in H. lia.
  Qed.
  Lemma sublist_filter2 {A} (p : A -> bool) a b : sublist a b -> sublist (filter p a) (filter p b).
  Proof.
    induction 1 as [l|x l l' H IH|x l l' H IH]; cbn; [constructor| |]; destruct (p x); auto; now constructor.
  Qed.
  Lemma filter_all {A} (p : A -> bool) l : (forall x, In x l -> p x = true) -> filter p l = l.
  Proof. induction l as [|x l IH]; intros H; [reflexivity|]. cbn. rewrite H by now left. f_equal. apply IH. intros; apply H; now right. Qed.
  Lemma sublist_skips {A} (a b : list A) n : sublist a (skipn n b) -> sublist a b.
  Proof.
    revert b; induction n; intros b H; [exact H|]. destruct b; [exact H|]. cbn in H. constructor. now apply IHn.
  Qed.

  Lemma index_from_sound t l : forall pos off i, index_from t l pos off = Some i ->
    off <= i /\ pos <= i /\ nth_error l (i - pos) = Some t.
  Proof.
    induction l as [|x l IH]; cbn [index_from]; intros pos off i H; [discriminate|].
    destruct (Nat.leb off pos && tamp_eqb t x) eqn:E.
    - injection H as <-. apply andb_true_iff in E as [E1 E2]. apply Nat.leb_le in E1. apply tamp_eqb_eq in E2. subst.
      rewrite Nat.sub_diag. auto.
    - apply IH in H as (H1 & H2 & H3). split; [exact H1|]. split; [lia|].
      replace (i - pos) with (S (i - S pos)) by lia. exact H3.
  Qed.

  Lemma nth_skipn {A} (l : list A) i x : nth_error l i = Some x -> skipn i l = x :: skipn (S i) l.
  Proof. revert l; induction i; intros [|y l] H; cbn in *; try discriminate; [now injection H as ->|]. now apply IHi. Qed.
  Lemma skipn_plus {A} (l : list A) a b : skipn (a + b) l = skipn b (skipn a l).
  Proof. revert l; induction a; intros l; [reflexivity|]. destruct l; cbn; [now rewrite skipn_nil|apply IHa]. Qed.

  Lemma factor_indices_sound fs ts : forall off idx, factor_indices fs ts off = Some idx -> sublist fs (skipn off ts).
  Proof.
    induction fs as [|t fs IH]; intros off idx H; [constructor|]. cbn in H.
    destruct (index_from t ts 0 off) as [i|] eqn:E; [|discriminate].
    destruct (factor_indices fs ts (S i)) as [r|] eqn:E2; [|discriminate].
    apply index_from_sound in E as (H1 & _ & H3). rewrite Nat.sub_0_r in H3.
    apply IH in E2. apply (sublist_skips _ _ (i - off)). rewrite <- skipn_plus.
    replace (off + (i - off)) with i by lia. rewrite (nth_skipn _ _ _ H3). now constructor.
  Qed.

  Fixpoint positions (k : nat) (ts : list tamp) : list nat :=
    match ts with
    | [] => []
    | t :: r => if is_disconnected t then k :: positions (S k) r else positions (S k) r
    end.

  Lemma index_from_pre t pre rest : forall pos off, pos + List.length pre <= off ->
    index_from t (pre ++ rest) pos off = index_from t rest (pos + List.length pre) off.
  Proof.
    induction pre as [|x pre IH]; intros pos off H; cbn in *; [now rewrite Nat.add_0_r|].
    destruct (Nat.leb_spec off pos); [lia|]. cbn. rewrite IH by lia. f_equal. lia.
  Qed.

  Lemma factor_indices_own rest : forall pre,
    factor_indices (loose rest) (pre ++ rest) (List.length pre) = Some (positions (List.length pre) rest).
  Proof.
    induction rest as [|x rest IH]; intros pre; [reflexivity|]. cbn [loose filter positions].
    specialize (IH (pre ++ [x])%list). rewrite <- app_assoc, app_length in IH. cbn [List.length app] in IH.
    rewrite Nat.add_1_r in IH. fold (loose rest). destruct (is_disconnected x) eqn:E.
    - cbn [factor_indices]. rewrite index_from_pre by (cbn; lia). cbn [index_from Nat.add]. rewrite Nat.leb_refl.
      rewrite (proj2 (tamp_eqb_eq x x) eq_refl). cbn [andb]. now rewrite IH.
    - rewrite <- IH. destruct (loose rest) as [|y ys] eqn:El; [reflexivity|]. cbn [factor_indices].
      rewrite (index_from_pre y pre (x :: rest) 0 (List.length pre)) by (cbn; lia).
      assert (N : tamp_eqb y x = false).
      { destruct (tamp_eqb y x) eqn:Ee; [|reflexivity]. apply tamp_eqb_eq in Ee. subst.
        assert (In x (loose rest)) by (rewrite El; now left). apply filter_In in H as [_ H]. congruence. }
      replace (index_from y (pre ++ x :: rest) 0 (S (List.length pre))) with (index_from y ((pre ++ [x]) ++ rest) 0 (S (List.length pre)))
        by now rewrite <- app_assoc.
      rewrite (index_from_pre y (pre ++ [x])) by (rewrite app_length; cbn; lia).
      cbn [index_from Nat.add]. rewrite N, andb_false_r. rewrite app_length. cbn [List.length]. rewrite Nat.add_1_r.
      assert (I : forall l p o, o <= p -> index_from y l p o = index_from y l p (S o) \/ p = o).
      { induction l as [|z l IHl]; intros p o Hp; [now left|]. destruct (Nat.eq_dec p o); [now right|left]. cbn [index_from].
        destruct (Nat.leb_spec o p); [|lia]. destruct (Nat.leb_spec (S o) p); [|lia]. cbn [andb].
        destruct (tamp_eqb y z); [reflexivity|]. destruct (IHl (S p) o) as [->|]; [lia|reflexivity|lia]. }
      destruct (I rest (S (List.length pre)) (List.length pre)) as [->|]; [lia|reflexivity|lia].
  Qed.

  Lemma positions_ge k ts i : In i (positions k ts) -> k <= i.
  Proof.
    revert k; induction ts as [|t ts IH]; cbn; intros k H; [easy|].
    destruct (is_disconnected t); [destruct H as [->|H]|]; try lia; apply IH in H; lia.
  Qed.

  Lemma without_own ts : without_indices (positions 0 ts) ts = bound ts.
  Proof.
    unfold without_indices. change (List.length ts) with (0 + List.length ts). generalize 0 as k.
    induction ts as [|t ts IH]; intros k; [now destruct (range k (k + List.length (@nil tamp)))|].
    assert (R : range k (k + List.length (t :: ts)) = k :: range (S k) (S k + List.length ts)).
    { unfold range. replace (k + List.length (t :: ts) - k) with (S (List.length ts)) by (cbn; lia).
      replace (S k + List.length ts - S k) with (List.length ts) by lia. reflexivity. }
    rewrite R. cbn [combine filter fst].
    assert (E : existsb (Nat.eqb k) (positions k (t :: ts)) = is_disconnected t).
    { cbn [positions]. destruct (is_disconnected t).
      - cbn. now rewrite Nat.eqb_refl.
      - apply not_true_iff_false. intros X. apply existsb_exists in X as (i & Hi & X). apply Nat.eqb_eq in X. apply positions_ge in Hi. lia. }
    rewrite E.
    assert (F : filter (fun it => negb (existsb (Nat.eqb (fst it)) (positions k (t :: ts)))) (combine (range (S k) (S k + List.length ts)) ts)
              = filter (fun it => negb (existsb (Nat.eqb (fst it)) (positions (S k) ts))) (combine (range (S k) (S k + List.length ts)) ts)).
    { apply filter_ext_in. intros [i a] Hi. apply in_combine_l in Hi. unfold range in Hi. apply in_seq in Hi. cbn [fst positions].
      destruct (is_disconnected t); [|reflexivity]. cbn [existsb]. destruct (Nat.eqb_spec i k); [lia|reflexivity]. }
    rewrite F. unfold bound. cbn [filter]. destruct (is_disconnected t); cbn [negb map snd]; rewrite IH; reflexivity.
  Qed.

  Lemma positions_none k ts : positions k ts = [] -> loose ts = [].
  Proof.
    unfold loose. revert k; induction ts as [|t ts IH]; intros k H; [reflexivity|]. cbn in *.
    destruct (is_disconnected t); [discriminate|]. eapply IH; eauto.
  Qed.

  Fixpoint place (f : list tamp) (fs : list (list tamp)) : nat :=
    match fs with [] => 0 | g :: r => if tamps_eqb f g then 0 else S (place f r) end.

  Lemma adjust_own h ts fs : loose ts <> [] -> In (loose ts) fs ->
    (forall g, In g fs -> loose g = g) -> StronglySorted (fun a b => List.length b <= List.length a) fs ->
    forall i last, adjust_loop i fs h ts last
      = Ok (i + place (loose ts) fs, bound ts,
            if Nat.eqb (ch_m_o h) 0 && Nat.eqb (ch_n_o h) 0 then legs (loose ts) else ch_m_o h + ch_n_o h + legs (loose ts)).
  Proof.
    intros Hne. induction fs as [|g fs IH]; intros Hin Hl Hs i last; [easy|].
    cbn [adjust_loop place]. destruct (tamps_eqb (loose ts) g) eqn:E.
    - apply tamps_eqb_eq in E. subst g. pose proof (factor_indices_own ts []) as F. cbn [app List.length] in F. rewrite F.
      destruct (positions 0 ts) eqn:P; [exfalso; apply Hne; eapply positions_none; eauto|]. rewrite <- P, without_own, Nat.add_0_r. reflexivity.
    - assert (Hin' : In (loose ts) fs).
      { destruct Hin as [Eg|]; [|assumption]. symmetry in Eg. apply tamps_eqb_eq in Eg. congruence. }
      inversion Hs as [|? ? Hs' Hall]; subst.
      destruct (factor_indices g ts 0) as [idx|] eqn:F.
      + exfalso. apply factor_indices_sound in F. cbn [skipn] in F. apply (sublist_filter2 is_disconnected) in F.
        fold (loose g) in F. fold (loose ts) in F. rewrite (Hl g) in F by now left.
        rewrite Forall_forall in Hall. specialize (Hall _ Hin').
        apply sublist_same in F; [|exact Hall]. symmetry in F. apply tamps_eqb_eq in F. congruence.
      + rewrite IH; [now rewrite Nat.add_succ_comm|exact Hin'|intros; apply Hl; now right|exact Hs'].
  Qed.

  (** ** The factors *)
  Lemma common_terms_spec l :
    let fs := generate_linked_common_terms so l in
    NoDup fs /\ (forall p, In p fs <-> exists t, In t l /\ loose (snd t) = p) /\
    StronglySorted (fun a b => List.length b <= List.length a) fs.
  Proof.
    cbn zeta. unfold generate_linked_common_terms. repeat split.
    - eapply Permutation_NoDup; [apply isort_perm|]. eapply Permutation_NoDup; [apply Hso|]. apply nodup_dedup, tamps_eqb_eq.
    - rewrite in_isort. intros H. eapply Permutation_in in H; [|symmetry; apply Hso]. apply in_dedup in H; [|apply tamps_eqb_eq].
      apply in_map_iff in H as (t & <- & Ht). exists t. split; [exact Ht|]. symmetry. apply loose_factors.
    - intros (t & Ht & <-). rewrite in_isort. eapply Permutation_in; [apply Hso|]. apply in_dedup; [apply tamps_eqb_eq|].
      apply in_map_iff. exists t. split; [apply loose_factors|exact Ht].
    - set (leb := fun a b : list tamp => Nat.leb (List.length b) (List.length a)).
      assert (S : srt leb (isort leb (so (dedup tamps_eqb (map disconnected_factors l))))).
      { apply isort_sorted; unfold leb; intros; rewrite ?Nat.leb_le in *; lia. }
      revert S. generalize (isort leb (so (dedup tamps_eqb (map disconnected_factors l)))). intros m S.
      induction S as [|x m S IH F]; constructor; auto. eapply Forall_impl; [|exact F]. cbn. unfold leb. intros a. now rewrite Nat.leb_le.
  Qed.

  Lemma place_nth f fs : In f fs -> nth_error fs (place f fs) = Some f.
  Proof.
    induction fs as [|g fs IH]; intros H; [easy|]. cbn [place]. destruct (tamps_eqb f g) eqn:E.
    - apply tamps_eqb_eq in E. now subst.
    - destruct H as [H|H]; [symmetry in H; apply tamps_eqb_eq in H; congruence|]. cbn. now apply IH.
  Qed.

  (** *** One linked term *)
  Definition linked_lterm (t : term) : lterm :=
    let '(o, h, ts) := t in
    mklt (f_power o h) (fbar_power o h) (latex_prefactor son h ts) (h_latex_labels h (legs (loose ts)))
      (t_latex_group (bound ts) (Some h)
         (if Nat.eqb (ch_m_o h) 0 && Nat.eqb (ch_n_o h) 0 then legs (loose ts) else ch_m_o h + ch_n_o h + legs (loose ts))).

  Lemma latex_linked_ok fs t : loose (snd t) <> [] -> In (loose (snd t)) fs ->
    (forall g, In g fs -> loose g = g) -> StronglySorted (fun a b => List.length b <= List.length a) fs ->
    latex_linked_term son fs t = Ok (place (loose (snd t)) fs, linked_lterm t).
  Proof.
    destruct t as [[o h] ts]. cbn [snd]. intros H1 H2 H3 H4. unfold latex_linked_term, linked_condensed_adjust_t_terms, linked_lterm.
    rewrite (adjust_own h ts fs H1 H2 H3 H4 0 None). cbn [bind Nat.add]. unfold py_nth. rewrite (place_nth _ _ H2). reflexivity.
  Qed.

  Lemma bound_nz us : Forall (fun t => 1 <= up t + down t) us -> Forall (fun t => 1 <= up t + down t) (bound us).
  Proof. intros H. rewrite Forall_forall in *. intros t Ht. apply filter_In in Ht as [Ht _]. auto. Qed.
  Lemma loose_nz us : Forall (fun t => 1 <= up t + down t) us -> Forall (fun t => 1 <= up t + down t) (loose us).
  Proof. intros H. rewrite Forall_forall in *. intros t Ht. apply filter_In in Ht as [Ht _]. auto. Qed.

  Lemma linked_described t : om + on <= 3 -> good om on t -> loose (snd t) <> [] -> snd t <> [t_one] ->
    exists s, condensed_term om on t s /\ cleans (render_lterm (linked_lterm t)) s.
  Proof.
    intros Ho3 (hm & hn & us & f & fb & C & N & D & Hh) L N1.
    pose proof C as (C1 & C2 & C3 & C4).
    assert (Hus : factors us = us).
    { destruct us; [|reflexivity]. exfalso. apply N1. unfold describes in D. rewrite D. reflexivity. }
    set (P := build_prefactor son (snd (fst t)) (snd t)).
    set (k := total n_o (loose us) + total m_o (loose us)).
    pose proof (loose_zero us) as [Z1 Z2].
    pose proof (bound_total n_h us) as B1. pose proof (bound_total m_h us) as B2.
    pose proof (bound_total n_o us) as B3. pose proof (bound_total m_o us) as B4.
    assert (K : k + total n_o (bound us) + total m_o (bound us) + (fb + f) <= 3) by (unfold k; lia).
    exists (term_clean hm hn f fb (fst P) (snd P) k (k + fb + f + (fb + f)) (bound us)). split.
    - exists hm, hn, us, f, fb, (fst P), (snd P). split; [exact D|]. split; [now apply (prefactor_is son Hson om on hm hn f fb)|].
      fold k. apply term_text_ok; lia.
    - assert (E : render_lterm (linked_lterm t) = term_raw hm hn f fb (fst P) (snd P) k (k + fb + f + (fb + f)) (bound us)).
      { unfold P. unfold describes in D. rewrite D. unfold linked_lterm.
        destruct (f_power_id (om + on) om on f fb (map n_o (factors us)) (map m_o (factors us)) (hm + hn) hm hn
               (map n_h (factors us)) (map m_h (factors us))) as [E1 E2].
        unfold render_lterm. cbn [lt_f lt_fbar lt_prefactor lt_h lt_ts fst snd]. rewrite E1, E2, !render_power_text, render_fraction_text.
        rewrite Hus, legs_total. fold k.
        rewrite render_h_text by lia. unfold latex_prefactor, term_raw, raw_term. repeat f_equal.
        unfold t_latex_group. cbn [ch_m ch_m_o ch_n_o].
        replace (_ + (fb + f)) with (k + fb + f + (fb + f)).
        2:{ destruct (Nat.eqb_spec fb 0) as [->|]; [destruct (Nat.eqb_spec f 0) as [->|]|]; cbn [andb]; lia. }
        apply latex_loop_parts; [now apply bound_nz|lia..]. }
      rewrite E. apply term_cleans; [lia|lia|lia|now apply bound_nz|lia..].
  Qed.

  Lemma common_text p : Forall (fun t => 1 <= up t + down t) p -> loose p = p -> total n_o p + total m_o p <= 8 ->
    exists s, factor_text p s /\ cleans (concat_str (map render_t_latex (t_latex_group p None 0))) s.
  Proof.
    intros N L Hx. pose proof (loose_zero p) as [Z1 Z2]. rewrite L in Z1, Z2.
    exists (String.concat "" (map amplitude_text (parts p 0 0 0))). split.
    - exists (parts p 0 0 0). split; [apply parts_fit; lia|]. rewrite parts_nh, parts_mh, parts_o, Z1, Z2. repeat split.
    - unfold t_latex_group. rewrite latex_loop_parts by (auto; lia).
      intros b. apply clean_raw_amps. apply parts_good; [assumption|]. apply parts_fit; lia.
  Qed.

  (** *** The linked part *)
  Lemma filter_map_snd {A B} (g : A -> B) (key : A -> nat) i l :
    map snd (filter (fun it => Nat.eqb (fst it) i) (map (fun t => (key t, g t)) l)) = map g (filter (fun t => Nat.eqb (key t) i) l).
  Proof. induction l as [|x l IH]; [reflexivity|]. cbn. destruct (Nat.eqb (key x) i); cbn; now rewrite IH. Qed.

  Lemma mapM_map_ok {A B} (f : A -> res B) (g : A -> B) l : (forall x, In x l -> f x = Ok (g x)) -> mapM f l = Ok (map g l).
  Proof.
    induction l as [|x l IH]; intros H; [reflexivity|]. cbn. rewrite H by now left. cbn. rewrite IH by (intros; apply H; now right). reflexivity.
  Qed.

  Lemma combine_forall2 {A B} (fs : list A) k (P : A -> B -> Prop) (g : nat * A -> B) :
    (forall i f, nth_error fs i = Some f -> P f (g (k + i, f))) ->
    Forall2 P fs (map g (combine (range k (k + List.length fs)) fs)).
  Proof.
    revert k; induction fs as [|f fs IH]; intros k H; [destruct (range k _); constructor|].
    assert (R : range k (k + List.length (f :: fs)) = k :: range (S k) (S k + List.length fs)).
    { unfold range. replace (k + List.length (f :: fs) - k) with (S (List.length fs)) by (cbn; lia).
      replace (S k + List.length fs - S k) with (List.length fs) by lia. reflexivity. }
    rewrite R. cbn [combine map]. constructor; [rewrite <- (Nat.add_0_r k) at 1; now apply (H 0)|].
    apply IH. intros i x Hx. specialize (H (S i) x Hx). rewrite Nat.add_succ_r in H. exact H.
  Qed.

  Lemma linked_part_ok none l : 2 <= om + on <= 3 -> l <> [] -> (forall t, In t l -> good om on t) ->
    (forall t, In t l -> loose (snd t) <> [] /\ snd t <> [t_one]) ->
    exists sum text, make_latex_linked so son l = Ok sum /\ linked_part om on l text /\ cleans (render_lsum none sum) text.
  Proof.
    intros Hr Hne G L. destruct (common_terms_spec l) as (F1 & F2 & F3).
    set (fs := generate_linked_common_terms so l) in *.
    assert (Hl : forall g, In g fs -> loose g = g).
    { intros g Hg. apply F2 in Hg as (t & _ & <-). unfold loose. apply filter_all. intros x Hx. now apply filter_In in Hx. }
    assert (HM : mapM (latex_linked_term son fs) l = Ok (map (fun t => (place (loose (snd t)) fs, linked_lterm t)) l)).
    { apply mapM_map_ok. intros t Ht. apply latex_linked_ok; auto; [now apply L|]. apply F2. eauto. }
    assert (HF : linked_factors so l = Ok fs).
    { destruct l as [|t l]; [easy|]. unfold linked_factors.
      destruct (G t) as (hm & hn & us & f & fb & C & N & D & Hh); [now left|]. unfold describes in D. rewrite D at 1 2. unfold term_omega.
      cbn [fst co_rank]. destruct (Nat.eqb_spec (om + on) 2); [reflexivity|]. destruct (Nat.eqb_spec (om + on) 3); [reflexivity|lia]. }
    unfold make_latex_linked. rewrite HF. cbn [bind]. rewrite HM. cbn [bind].
    assert (TX : forall p, In p fs -> exists s, (exists ss common,
        Forall2 (condensed_term om on) (filter (fun t => if list_eq_dec tamp_eq_dec (loose (snd t)) p then true else false) l) ss /\
        factor_text p common /\ s = sum_text ss ++ common) /\
        cleans ("(" ++ render_line (map linked_lterm (filter (fun t => if list_eq_dec tamp_eq_dec (loose (snd t)) p then true else false) l))
                ++ ")" ++ concat_str (map render_t_latex (t_latex_group p None 0))) s).
    { intros p Hp.
      destruct (common_text p) as (common & T1 & T2).
      - apply F2 in Hp as (t & Ht & <-). destruct (G t Ht) as (hm & hn & us & f & fb & C & N & D & Hh).
        destruct (L t Ht) as [_ L2]. unfold describes in D. assert (E : snd t = us).
        { rewrite D. cbn. destruct us; [|reflexivity]. exfalso; apply L2. now rewrite D. }
        rewrite E. now apply loose_nz.
      - now apply Hl.
      - apply F2 in Hp as (t & Ht & <-). destruct (G t Ht) as (hm & hn & us & f & fb & C & N & D & Hh).
        destruct (L t Ht) as [_ L2]. unfold describes in D. assert (E : snd t = us).
        { rewrite D. cbn. destruct us; [|reflexivity]. exfalso; apply L2. now rewrite D. }
        rewrite E. pose proof (bound_total n_o us). pose proof (bound_total m_o us). destruct C as (C1 & C2 & C3 & C4). lia.
      - destruct (forall2_exists (fun t s => condensed_term om on t s /\ cleans (render_lterm (linked_lterm t)) s)
          (filter (fun t => if list_eq_dec tamp_eq_dec (loose (snd t)) p then true else false) l)) as [ss F].
        { intros t Ht. apply filter_In in Ht as [Ht _]. destruct (L t Ht). apply linked_described; auto; lia. }
        apply forall2_split in F as [S1 S2].
        exists (sum_text ss ++ common). split; [now exists ss, common|]. unfold sum_text. rewrite !append_assoc.
        apply cleans_app; [now apply cleans_tidy|]. apply cleans_app; [apply line_cleans; now apply forall2_map_l|].
        apply cleans_app; [now apply cleans_tidy|exact T2]. }
    destruct (forall2_exists _ fs TX) as [texts FT]. apply forall2_split in FT as [FT1 FT2].
    eexists. exists (String.concat line_break texts). split; [reflexivity|]. split; [exists fs, texts; auto|].
    cbn [render_lsum]. rewrite splitting_break, map_map. apply cleans_join; [reflexivity|].
    cbn [fst snd].
    assert (EQ : Forall2 (fun p r => r = "(" ++ render_line (map linked_lterm (filter (fun t => if list_eq_dec tamp_eq_dec (loose (snd t)) p then true else false) l))
                ++ ")" ++ concat_str (map render_t_latex (t_latex_group p None 0))) fs
      (map (fun x => "(" ++ render_line (map snd (filter (fun it => Nat.eqb (fst it) (fst x)) (map (fun t => (place (loose (snd t)) fs, linked_lterm t)) l)))
                ++ ")" ++ concat_str (map render_t_latex (t_latex_group (snd x) None 0))) (combine (range 0 (List.length fs)) fs))).
    { apply (combine_forall2 fs 0). intros i p Hi. cbn [fst snd Nat.add]. rewrite filter_map_snd. f_equal. f_equal. f_equal. f_equal. apply (f_equal (map linked_lterm)).
      apply filter_ext_in. intros t Ht.
      assert (Hin : In (loose (snd t)) fs) by (apply F2; eauto). pose proof (place_nth _ _ Hin) as Pl.
      destruct (list_eq_dec tamp_eq_dec (loose (snd t)) p) as [Ep|Hn].
      - rewrite Ep in Pl |- *. apply Nat.eqb_eq. rewrite NoDup_nth_error in F1. apply F1; [apply nth_error_Some; rewrite Pl; discriminate|rewrite Pl; now symmetry].
      - apply Nat.eqb_neq. intros E. rewrite E in Pl. congruence. }
    revert EQ FT2. generalize (map (fun x => "(" ++ render_line (map snd (filter (fun it => Nat.eqb (fst it) (fst x)) (map (fun t => (place (loose (snd t)) fs, linked_lterm t)) l)))
                ++ ")" ++ concat_str (map render_t_latex (t_latex_group (snd x) None 0))) (combine (range 0 (List.length fs)) fs)).
    intros rs EQ. clear - EQ. revert texts. induction EQ as [|p r fs rs E EQ IH]; intros texts FT; inversion FT; subst; constructor; auto.
  Qed.

  (** *** The unlinked part *)
  Lemma parts_app a b l u x : parts (a ++ b) l u x
    = (parts a l u x ++ parts b (l + total n_h a) (u + total m_h a) (x + total n_o a + total m_o a))%list.
  Proof.
    revert l u x; induction a as [|t a IH]; intros l u x.
    - unfold total; cbn [app fold_right parts]. now rewrite !Nat.add_0_r.
    - cbn [app parts]. rewrite IH. unfold total; cbn [fold_right]. f_equal. f_equal. f_equal; lia.
  Qed.
  Lemma slice_none {A} (s : list A) a b : ProofsFullCCLabels.slice s a 0 = ProofsFullCCLabels.slice s b 0.
  Proof. reflexivity. Qed.
  Lemma parts_shift b l u x x' : total n_o b = 0 -> total m_o b = 0 -> parts b l u x = parts b l u x'.
  Proof.
    revert l u x x'; induction b as [|t b IH]; intros l u x x' H1 H2; [reflexivity|].
    unfold total in H1, H2; cbn [fold_right] in H1, H2. fold (total n_o b) in *. fold (total m_o b) in *.
    assert (A : n_o t = 0) by lia. assert (B : m_o t = 0) by lia. cbn [parts]. rewrite A, B.
    f_equal. apply IH; lia.
  Qed.

  Lemma total_app (g : tamp -> nat) a b : total g (a ++ b) = total g a + total g b.
  Proof. clear. unfold total. induction a as [|x a IH]; cbn; lia. Qed.
  Lemma total_cons (g : tamp -> nat) x a : total g (x :: a) = g x + total g a.
  Proof. reflexivity. Qed.

  Lemma parts_only_summed ts l u x : Forall (fun t => 1 <= up t + down t) ts -> total n_o ts = 0 -> total m_o ts = 0 ->
    Forall2 fits ts (parts ts l u x) -> Forall (fun p => plain_label p /\ only_summed p) (parts ts l u x).
  Proof.
    intros N Z1 Z2 F. pose proof (parts_plain ts l u x) as P. revert P. generalize dependent (parts ts l u x). intros ps F P.
    induction F as [|t p ts ps Hf F IH]; [constructor|]. inversion N; inversion P; subst. rewrite total_cons in Z1, Z2.
    constructor; [|apply IH; auto; lia]. split; [assumption|]. destruct Hf as (F1 & F2 & F3 & F4).
    assert (E1 : l_no p = []) by (apply length_zero_iff_nil; lia). assert (E2 : l_mo p = []) by (apply length_zero_iff_nil; lia).
    split; [exact E2|]. split; [exact E1|]. intros E. apply (f_equal (@List.length ascii)) in E. rewrite app_length in E. cbn in E.
    unfold up, down in *. lia.
  Qed.

  Lemma unlinked_described t : 1 <= om + on -> good om on t -> unlinked om on (snd t) ->
    exists s, without_factor om on (mkt 0 0 on om) t s /\
      cleans (replace_empty (raw_amp (mktl [] [] (ProofsFullCCLabels.slice XL 0 om) (ProofsFullCCLabels.slice XL om on))) (render_lterm (latex_term son t))) s.
  Proof.
    intros Hr (hm & hn & us & f & fb & C & N & D & Hh) (c & Hc & [Dm Dn] & [Tm Tn]).
    pose proof C as (C1 & C2 & C3 & C4).
    assert (Ec : c = mkt 0 0 on om) by (destruct c; cbn in *; subst; reflexivity).
    assert (Hus : snd t = us).
    { unfold describes in D. rewrite D in Hc |- *. cbn [snd] in Hc |- *. destruct us; [|reflexivity]. cbn in Hc. destruct Hc as [Hc|[]].
      rewrite Ec in Hc. injection Hc. intros. lia. }
    rewrite Hus in Hc. destruct (in_split _ _ Hc) as (us1 & us2 & Es).
    set (P := build_prefactor son (snd (fst t)) (snd t)).
    assert (TT : forall g, total g us = total g us1 + (g c + total g us2)) by (intros g; rewrite Es, total_app; reflexivity).
    pose proof (TT n_h) as T1. pose proof (TT m_h) as T2. pose proof (TT n_o) as T3. pose proof (TT m_o) as T4.
    rewrite Ec in T1, T2, T3, T4. cbn [n_h m_h n_o m_o] in T1, T2, T3, T4.
    assert (Z : f = 0 /\ fb = 0 /\ total n_o us1 = 0 /\ total n_o us2 = 0 /\ total m_o us1 = 0 /\ total m_o us2 = 0) by lia.
    destruct Z as (-> & -> & Z1 & Z2 & Z3 & Z4).
    assert (N' : Forall (fun t => 1 <= up t + down t) us1 /\ Forall (fun t => 1 <= up t + down t) us2).
    { rewrite Es, Forall_app in N. destruct N as [Na Nb]. inversion Nb. auto. }
    destruct N' as [N1 N2].
    assert (N12 : Forall (fun t => 1 <= up t + down t) (us1 ++ us2)%list) by now apply Forall_app.
    exists (term_clean hm hn 0 0 (fst P) (snd P) 0 0 (us1 ++ us2)). split.
    - exists hm, hn, us, us1, us2, 0, 0, (fst P), (snd P). split; [exact D|]. split; [now rewrite Es, Ec|].
      split; [now apply (prefactor_is son Hson om on hm hn 0 0)|].
      apply term_text_ok; rewrite ?total_app; lia.
    - rewrite (plain_raw son om on hm hn 0 0 us t C N D Hh Ho). unfold the_prefactor. fold P.
      assert (E : term_raw hm hn 0 0 (fst P) (snd P) 0 (0 + 0) us
                = raw_term 0 0 (fst P) (snd P) (hm + hn) (ProofsFullCCLabels.slice SL 0 (hm - 0)) (ProofsFullCCLabels.slice XL 0 0)
                   (ProofsFullCCLabels.slice SL (hm - 0) (hn - 0)) (ProofsFullCCLabels.slice XL (0 + 0) 0)
                   (parts us1 0 (hm - 0) 0 ++ mktl [] [] (ProofsFullCCLabels.slice XL 0 om) (ProofsFullCCLabels.slice XL om on) :: parts us2 (total n_h us1) (hm - 0 + total m_h us1) 0)).
      { unfold term_raw. f_equal. rewrite Es, Ec, parts_app. f_equal. cbn [parts n_h m_h n_o m_o]. rewrite Z1, Z3, !Nat.add_0_l, !Nat.add_0_r.
        f_equal. now apply parts_shift. }
      rewrite E. rewrite remove_common; try apply plain_SL; try apply plain_XL.
      + assert (E2 : parts (us1 ++ us2) 0 (hm - 0) 0 = (parts us1 0 (hm - 0) 0 ++ parts us2 (total n_h us1) (hm - 0 + total m_h us1) 0)%list).
        { rewrite parts_app, Z1, Z3. reflexivity. }
        rewrite <- E2. apply (term_cleans hm hn 0 0 Hh ltac:(lia) ltac:(lia) (fst P) (snd P) 0 0 (us1 ++ us2)); rewrite ?total_app; auto; lia.
      + split; [reflexivity|]. split; [reflexivity|]. cbn [l_mo l_no]. intros X. apply (f_equal (@List.length ascii)) in X.
        rewrite app_length, !slice_length in X by (cbn; lia). cbn in X. lia.
      + apply parts_only_summed; auto. apply parts_fit; lia.
      + apply parts_only_summed; auto. apply parts_fit; lia.
  Qed.

  Lemma unlinked_part_ok none l : 1 <= om + on -> l <> [] -> (forall t, In t l -> good om on t) ->
    (forall t, In t l -> unlinked om on (snd t)) ->
    exists sum text, make_latex_unlinked son l = Ok sum /\ unlinked_part om on l text /\ cleans (render_lsum none sum) text.
  Proof.
    intros Hr Hne G U.
    set (q := mktl [] [] (ProofsFullCCLabels.slice XL 0 om) (ProofsFullCCLabels.slice XL om on)).
    assert (UF : unlinked_factor l = Ok (mkt 0 0 on om)).
    { destruct l as [|t l]; [easy|]. unfold unlinked_factor.
      destruct (G t) as (hm & hn & us & f & fb & C & N & D & Hh); [now left|].
      assert (E1 : co_n (term_omega t) = on) by (unfold describes in D; now rewrite D).
      assert (E2 : co_m (term_omega t) = om) by (unfold describes in D; now rewrite D). rewrite E1, E2.
      rewrite (proj2 (forallb_forall _ _)); [reflexivity|]. intros x Hx. destruct (U x Hx) as (c & Hc & [Dm Dn] & [Tm Tn]).
      apply existsb_exists. exists c. split; [exact Hc|]. apply tamp_eqb_eq. destruct c; cbn in *; subst; reflexivity. }
    assert (N : Forall (fun t => 1 <= up t + down t) [mkt 0 0 on om]).
    { constructor; [|constructor]. unfold up, down. cbn. lia. }
    assert (LP : map render_t_latex (t_latex_group [mkt 0 0 on om] None 0) = [raw_amp q]).
    { unfold t_latex_group. rewrite latex_loop_parts; [reflexivity|exact N|cbn; lia..]. }
    assert (LB : exists lab, t_latex_group [mkt 0 0 on om] None 0 = [lab] /\ render_t_latex lab = raw_amp q).
    { destruct (t_latex_group [mkt 0 0 on om] None 0) as [|lab [|]]; cbn [map] in LP; try discriminate. exists lab. split; [reflexivity|]. exact (f_equal (fun l => hd "" l) LP). }
    destruct LB as (lab & LB1 & LB2).
    destruct (common_text [mkt 0 0 on om] N eq_refl) as (common & T1 & T2); [cbn; lia|].
    rewrite LB1 in T2. cbn [map] in T2. change (concat_str [render_t_latex lab]) with (render_t_latex lab ++ "") in T2. rewrite append_nil_r in T2.
    destruct (forall2_exists (fun t s => without_factor om on (mkt 0 0 on om) t s /\
       cleans (replace_empty (raw_amp q) (render_lterm (latex_term son t))) s) l) as [ss F].
    { intros t Ht. apply unlinked_described; auto. }
    apply forall2_split in F as [S1 S2].
    unfold make_latex_unlinked. rewrite UF. cbn [bind]. rewrite LB1. unfold py_nth. cbn [nth_error bind].
    eexists. exists (sum_text ss ++ common). split; [reflexivity|]. split; [now exists ss, common|].
    cbn [render_lsum]. unfold sum_text. rewrite !append_assoc.
    apply cleans_app; [now apply cleans_tidy|]. apply cleans_app; [|apply cleans_app; [now apply cleans_tidy|exact T2]].
    apply cleans_join; [reflexivity|]. rewrite map_map, LB2. now apply forall2_map_l.
  Qed.

  (** ** The right hand side *)
  Lemma section_tidy : tidy ModelFullCCLatex.section_break = true.
  Proof. reflexivity. Qed.

  Lemma rhs_ok fully linked_ unlinked_ : 1 <= om + on ->
    (forall t, In t (fully ++ linked_ ++ unlinked_)%list -> good om on t) ->
    (forall t, In t linked_ -> 2 <= om + on /\ loose (snd t) <> [] /\ snd t <> [t_one]) ->
    (forall t, In t unlinked_ -> unlinked om on (snd t)) ->
    (linked_ <> [] /\ 4 <= om + on /\ write_cc_latex_from_lists so son (om + on) fully linked_ unlinked_ = Err NotImplementedErr) \/
    ((linked_ = [] \/ om + on <= 3) /\
     exists e, write_cc_latex_from_lists so son (om + on) fully linked_ unlinked_ = Ok e /\
       rhs_text om on fully linked_ unlinked_ (render_equation (om + on) e)).
  Proof.
    intros Hr G L U. unfold write_cc_latex_from_lists.
    destruct (Nat.eqb_spec (om + on) 0); [lia|].
    assert (GF : forall t, In t fully -> good om on t) by (intros; apply G; apply in_or_app; now left).
    assert (GL : forall t, In t linked_ -> good om on t) by (intros; apply G; apply in_or_app; right; apply in_or_app; now left).
    assert (GU : forall t, In t unlinked_ -> good om on t) by (intros; apply G; apply in_or_app; right; apply in_or_app; now right).
    set (n1 := tab ++ "\textit{no fully connected terms}"). set (n2 := tab ++ "\textit{no linked disconnected terms}").
    set (n3 := tab ++ "\textit{no unlinked disconnected terms}").
    assert (A : exists sum text, or_none fully (Ok (make_latex_plain son fully)) = Ok sum /\
       part_or "fully connected" (plain_part om on) fully text /\ cleans (render_lsum n1 sum) text).
    { destruct fully as [|t r]; [exists LNone, n1; repeat split; now apply cleans_tidy|].
      destruct (plain_part_ok n1 (t :: r) GF) as (text & P & C). exists (make_latex_plain son (t :: r)), text. auto. }
    destruct A as (sa & ta & A1 & A2 & A3).
    assert (CC : exists sum text, or_none unlinked_ (make_latex_unlinked son unlinked_) = Ok sum /\
       part_or "unlinked disconnected" (unlinked_part om on) unlinked_ text /\ cleans (render_lsum n3 sum) text).
    { destruct unlinked_ as [|t r]; [exists LNone, n3; repeat split; now apply cleans_tidy|].
      apply unlinked_part_ok; auto. discriminate. }
    destruct CC as (sc & tc & C1 & C2 & C3).
    rewrite A1. cbn [bind].
    assert (FIN : forall sb tb, part_or "linked disconnected" (linked_part om on) linked_ tb -> cleans (render_lsum n2 sb) tb ->
       rhs_text om on fully linked_ unlinked_ (render_equation (om + on) (mkeq sa sb sc))).
    { intros sb tb B2 B3. exists ta, tb, tc. split; [exact A2|]. split; [exact B2|]. split; [exact C2|].
      unfold render_equation. destruct (Nat.eqb_spec (om + on) 0); [lia|]. cbn [eq_fully eq_linked eq_unlinked].
      match goal with |- replace_empty "_{}" (replace_empty "^{}" ?s) = _ => change (clean s = ta ++ SpecFullCCLatex.section_break ++ tb ++ SpecFullCCLatex.section_break ++ tc) end.
      apply cleans_clean. change SpecFullCCLatex.section_break with ModelFullCCLatex.section_break.
      pose proof (cleans_tidy _ section_tidy) as ST.
      apply cleans_app; [exact A3|]. apply cleans_app; [exact ST|]. apply cleans_app; [exact B3|]. apply cleans_app; [exact ST|exact C3]. }
    destruct linked_ as [|t r] eqn:El.
    - right. split; [now left|]. cbn [or_none bind]. rewrite C1. cbn [bind]. eexists. split; [reflexivity|].
      apply (FIN LNone n2); [reflexivity|now apply cleans_tidy].
    - rewrite <- El in *. assert (Hne : linked_ <> []) by (rewrite El; discriminate).
      assert (R2 : 2 <= om + on) by (apply (L t); rewrite El; now left).
      replace (or_none linked_ _) with (make_latex_linked so son linked_).
      2:{ rewrite El. cbn [or_none]. destruct (Nat.ltb_spec 1 (om + on)); [reflexivity|lia]. }
      destruct (Nat.leb_spec (om + on) 3) as [R3|R3].
      + right. split; [now right|].
        destruct (linked_part_ok n2 linked_) as (sb & tb & B1 & B2 & B3); auto; [intros x Hx; destruct (L x Hx); tauto|].
        rewrite B1. cbn [bind]. rewrite C1. cbn [bind]. eexists. split; [reflexivity|]. eapply FIN; [|exact B3].
        rewrite El in *. exact B2.
      + left. split; [exact Hne|]. split; [lia|]. unfold make_latex_linked, linked_factors. rewrite El.
        destruct (GL t) as (hm & hn & us & f & fb & C & N & D & Hh); [rewrite El; now left|].
        replace (co_rank (term_omega t)) with (om + on) by (unfold describes in D; now rewrite D).
        destruct (Nat.eqb_spec (om + on) 2); [lia|]. destruct (Nat.eqb_spec (om + on) 3); [lia|]. reflexivity.
  Qed.
End Parts.
