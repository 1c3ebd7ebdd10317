(** Proofs about the LaTeX of the e^T ansatz: equations and the file. *)
From Coq Require Import Lia Permutation Factorial Sorted.
From Verif Require Import PyBase PyStr PyBaseFacts ModelHelper ModelW ModelLatexW ModelFullCC ModelFullCCPy ModelFullCCLatex ModelZhz ModelEt ModelEtLatex
  ProofsHelper ProofsW ProofsStr ProofsFullCC ProofsFullCCLabels ProofsFullCCBuckets ProofsFullCCLatexText ProofsFullCCLatex ProofsFullCCLatexFile
  SpecFullCC SpecFullCCPy SpecLatexW SpecFullCCLatex SpecZhz ProofsZhz ProofsZhzLatex ProofsZhzFile ProofsZhzEquation
  SpecEt ProofsEt ProofsEtGen SpecEtLatex ProofsEtLatex ProofsEtLatexTerm.
Open Scope string_scope.

(** ** All contractions of a projection *)
Definition contraction_for (k : pairs) : contraction :=
  mkcontraction (k_zp k) (k_zh k) (repeat 1 (k_zt k) ++ repeat 0 (k_ht k)) (k_hp k) (repeat 0 (k_zt k) ++ repeat 1 (k_ht k)).
Lemma contraction_for_pairs k : pairs_of (contraction_for k) = k.
Proof.
  unfold pairs_of, contraction_for. cbn [e_zp e_zh e_zt e_hp e_ht]. rewrite !list_sum_app, !sum_repeat0, !sum_repeat1, Nat.add_0_r.
  now destruct k.
Qed.
Lemma contraction_for_complete k : complete (k_zp k + k_hp k) (k_t k) (k_up k) (k_down k) (k_z k) (contraction_for k).
Proof.
  unfold complete, contraction_for, k_t, k_up, k_down, k_z. cbn [e_zp e_zh e_zt e_hp e_ht].
  rewrite !list_sum_app, !sum_repeat0, !sum_repeat1, !app_length, !repeat_length. repeat split; try lia.
  intros i Hi. destruct (Nat.lt_ge_cases i (k_zt k)) as [L|L].
  - rewrite !app_nth1 by (rewrite repeat_length; exact L). rewrite !nth_repeat. rewrite (nth_indep _ 0 1) by (rewrite repeat_length; exact L). now rewrite nth_repeat.
  - rewrite !app_nth2 by (rewrite repeat_length; exact L). rewrite !repeat_length, !nth_repeat.
    rewrite (nth_indep _ 0 1) by (rewrite repeat_length; lia). now rewrite nth_repeat.
Qed.

Definition series (e : nat) : list series_term := map series_of (range 0 (e + 1)).

Section Equation.
  Variables (s : side) (P H cc e : nat) (rf : bool) (o : gop).
  Hypothesis He : 1 <= e.
  Hypothesis Om : g_m o = 0.
  Hypothesis On : g_n o = P.
  Hypothesis HP : P <= cc.

  Definition Hs := generate_pruned_H_operator H.
  Definition Zs := generate_z_operator cc true.

  Lemma all_terms : exists l, concatM (fun st => filter_out_valid_eTz_terms o st Hs Zs s) (series e) = Ok l /\
    forall t, In t l <-> exists c, eT_pairs s P H cc e (pairs_of c) /\
      complete P (k_t (pairs_of c)) (k_up (pairs_of c)) (k_down (pairs_of c)) (k_z (pairs_of c)) c /\
      t = written P (k_t (pairs_of c)) (k_up (pairs_of c)) (k_down (pairs_of c)) (k_z (pairs_of c)) c.
  Proof.
    destruct (z_ground cc true) as [GZ IZ]. rewrite z_filter_ground in GZ, IZ.
    assert (T : forall q, q <= e -> exists l, filter_out_valid_eTz_terms o (series_of q) Hs Zs s = Ok l /\
       forall t, In t l <-> contraction_of_lists s P q Hs Zs t).
    { intros q Hq. destruct (et_terms_exact s o e (series e) q (series_of q) Hs Zs) as (l & E & _ & I); auto.
      - apply pruned_distinct.
      - now apply taylor_1.
      - unfold series. rewrite nth_error_map. unfold range. rewrite Nat.sub_0_r.
        rewrite (nth_error_nth' _ 0) by (rewrite seq_length; lia). now rewrite seq_nth by lia.
      - exists l. split; [exact E|]. now rewrite <- On. }
    destruct (concatM_in (fun st => filter_out_valid_eTz_terms o st Hs Zs s) (series e)) as (l & E & I).
    { intros st Hst. apply in_map_iff in Hst as (q & <- & Hq). apply in_range in Hq. destruct (T q) as (l & E & _); [lia|]. eauto. }
    exists l. split; [exact E|]. intros t. rewrite I. split.
    - intros (st & y & Hst & Ey & Hy). apply in_map_iff in Hst as (q & <- & Hq). apply in_range in Hq.
      destruct (T q) as (l' & E' & I'); [lia|]. rewrite E' in Ey. injection Ey as <-. apply I' in Hy as (h & z & c & Hh & Hz & A & C & ->).
      destruct (written_ts _ _ _ _ _ _ C) as (Eq & Em & En & Ek & EP & _).
      exists c. rewrite <- Eq, <- Em, <- En, <- Ek. split; [|auto]. split; [lia|]. rewrite <- Eq, <- Em, <- En, <- Ek.
      split; [exact (pruned_in _ _ Hh)|]. split; [apply IZ; eauto|]. split; [lia|exact A].
    - intros (c & (B1 & B2 & B3 & B4 & B5) & C & ->). destruct (T (k_t (pairs_of c)) B4) as (l' & E' & I').
      exists (series_of (k_t (pairs_of c))), l'. split; [apply in_map; apply in_range; lia|]. split; [exact E'|]. apply I'.
      destruct B2 as [B21 B22]. destruct (in_pruned H _ _ B21 B22) as (h & Hh & E1 & E2). destruct (proj2 (IZ _) B3) as (z & Hz & E3).
      exists h, z, c. rewrite E1, E2, E3. auto.
  Qed.

  (** The contractions of the terms. *)
  Lemma all_printed : exists l ks, concatM (fun st => filter_out_valid_eTz_terms o st Hs Zs s) (series e) = Ok l /\ l <> [] /\
    mapM (third_eTz_term rf true) l = Ok (map (fun k => Some (elt true k)) ks) /\
    forall k, In k ks <-> eT_pairs s P H cc e k.
  Proof.
    destruct all_terms as (l & E & I).
    assert (X : exists ks, mapM (third_eTz_term rf true) l = Ok (map (fun k => Some (elt true k)) ks) /\
       (forall k, In k ks <-> exists c, k = pairs_of c /\ 
          In (written P (k_t (pairs_of c)) (k_up (pairs_of c)) (k_down (pairs_of c)) (k_z (pairs_of c)) c) l /\ 
          complete P (k_t (pairs_of c)) (k_up (pairs_of c)) (k_down (pairs_of c)) (k_z (pairs_of c)) c)).
    { assert (Y : forall t, In t l -> exists c, complete P (k_t (pairs_of c)) (k_up (pairs_of c)) (k_down (pairs_of c)) (k_z (pairs_of c)) c /\
         t = written P (k_t (pairs_of c)) (k_up (pairs_of c)) (k_down (pairs_of c)) (k_z (pairs_of c)) c).
      { intros t Ht. apply I in Ht as (c & _ & C & ->). eauto. }
      clear - Y. induction l as [|t l IH]; [exists []; split; [reflexivity|]; intros k; split; [easy|intros (c & _ & [] & _)]|].
      destruct IH as (ks & Ek & Ik); [intros; apply Y; now right|]. destruct (Y t (or_introl eq_refl)) as (c & C & ->).
      exists (pairs_of c :: ks). cbn [mapM map]. rewrite (printed_term rf true _ _ _ _ _ _ C). cbn [bind]. rewrite Ek. split; [reflexivity|].
      intros k. split.
      - intros [<-|Hk]; [exists c; split; [reflexivity|]; split; [now left|exact C]|].
        apply Ik in Hk as (c' & -> & Hc & C'). exists c'. split; [reflexivity|]. split; [now right|exact C'].
      - intros (c' & -> & [Hc|Hc] & C').
        + left. assert (S1 : tt_ts (written P (k_t (pairs_of c)) (k_up (pairs_of c)) (k_down (pairs_of c)) (k_z (pairs_of c)) c)
            = tt_ts (written P (k_t (pairs_of c')) (k_up (pairs_of c')) (k_down (pairs_of c')) (k_z (pairs_of c')) c')) by now rewrite Hc.
          pose proof (printed_term rf true _ _ _ _ _ _ C) as E1. pose proof (printed_term rf true _ _ _ _ _ _ C') as E2.
          pose proof (f_equal tt_h Hc) as Hh. pose proof (f_equal tt_z Hc) as Hz. unfold written in Hh, Hz. cbn [tt_h tt_z] in Hh, Hz.
          injection Hh. injection Hz. intros.
          assert (Q : k_t (pairs_of c) = k_t (pairs_of c')).
          { unfold k_t, k_up, k_z, k_down in *. unfold pairs_of in *. cbn [k_zp k_zh k_zt k_hp k_ht] in *. lia. }
          unfold k_t, k_up, k_z, k_down in *. unfold pairs_of in *. cbn [k_zp k_zh k_zt k_hp k_ht] in *. f_equal; lia.
        + right. apply Ik. eauto. }
    destruct X as (ks & Ek & Ik). exists l, ks. split; [exact E|]. split; [|split; [exact Ek|]].
    - intros ->. assert (K : eT_pairs s P H cc e (mkpairs P 0 0 0 0)).
      { unfold eT_pairs, h_allowed, allowed_on, k_up, k_down, k_z, k_t. cbn [k_zp k_zh k_zt k_hp k_ht]. repeat split; lia. }
      pose proof (contraction_for_complete (mkpairs P 0 0 0 0)) as C. set (c := contraction_for (mkpairs P 0 0 0 0)) in *.
      apply (proj2 (I (written P (k_t (pairs_of c)) (k_up (pairs_of c)) (k_down (pairs_of c)) (k_z (pairs_of c)) c))).
      exists c. subst c. rewrite !contraction_for_pairs. cbn [k_zp k_hp] in C. rewrite Nat.add_0_r in C. auto.
    - intros k. rewrite Ik. split.
      + intros (c & -> & Hc & C). apply I in Hc as (c' & K & C' & Hc).
        pose proof (f_equal tt_h Hc) as Hh. pose proof (f_equal tt_z Hc) as Hz. unfold written in Hh, Hz. cbn [tt_h tt_z] in Hh, Hz.
        injection Hh. injection Hz. intros.
        replace (pairs_of c) with (pairs_of c'); [exact K|].
        unfold k_t, k_up, k_z, k_down in *. unfold pairs_of in *. cbn [k_zp k_zh k_zt k_hp k_ht] in *. f_equal; lia.
      + intros K. exists (contraction_for k). rewrite !contraction_for_pairs. pose proof (contraction_for_complete k) as C.
        rewrite (proj1 K) in C. split; [reflexivity|]. split; [|exact C]. apply I. exists (contraction_for k). rewrite !contraction_for_pairs. auto.
  Qed.

  (** Each of them once. *)
  Lemma keep_first_elt ks seen :
    keep_first (fun a b => render_elterm s a =? render_elterm s b) (map (elt true) seen) (map (elt true) ks)
    = map (elt true) (keep_first (fun a b => render_elterm s (elt true a) =? render_elterm s (elt true b)) seen ks).
  Proof.
    revert seen. induction ks as [|k ks IH]; intros seen; [reflexivity|]. cbn [map keep_first].
    assert (X : existsb (fun b => render_elterm s (elt true k) =? render_elterm s b) (map (elt true) seen)
      = existsb (fun b => render_elterm s (elt true k) =? render_elterm s (elt true b)) seen).
    { induction seen as [|y l IHs]; [reflexivity|]. cbn [map existsb]. now rewrite IHs. }
    rewrite X. destruct (existsb _ seen); [apply IH|]. cbn [map]. f_equal. exact (IH (k :: seen)).
  Qed.
  Lemma raw_inj k k' : eT_pairs s P H cc e k -> eT_pairs s P H cc e k' ->
    render_elterm s (elt true k) = render_elterm s (elt true k') -> k = k'.
  Proof.
    intros (B1 & (B2 & B3) & _ & _ & B4) (C1 & (C2 & C3) & _ & _ & C4) E.
    apply (tidied_inj s P); auto; try lia.
    rewrite <- (cleans_clean _ _ (term_cleans s k)), <- (cleans_clean _ _ (term_cleans s k')). now rewrite E.
  Qed.
  Lemma keep_first_once (r : pairs -> string) ks : forall seen,
    (forall a b, In a (seen ++ ks)%list -> In b (seen ++ ks)%list -> r a = r b -> a = b) ->
    let l := keep_first (fun a b => r a =? r b) seen ks in
    NoDup l /\ forall k, In k l <-> In k ks /\ ~ In k seen.
  Proof.
    induction ks as [|k ks IH]; intros seen Inj; cbv zeta; cbn [keep_first]; [split; [constructor|cbn; tauto]|].
    destruct (existsb (fun b => r k =? r b) seen) eqn:B.
    - apply existsb_exists in B as (y & Hy & B). apply String.eqb_eq in B.
      assert (k = y) by (apply Inj; auto; apply in_or_app; [right; now left|now left]). subst y.
      destruct (IH seen) as [N I]. { intros a b Ha Hb. apply Inj; rewrite in_app_iff in *; cbn [In]; tauto. }
      split; [exact N|]. intros x. rewrite I. cbn [In]. split; [tauto|]. intros [[->|Hx] Hn]; tauto.
    - assert (Nk : ~ In k seen).
      { intros Hk. assert (X : existsb (fun b => r k =? r b) seen = true); [|congruence]. apply existsb_exists. exists k. split; [exact Hk|apply String.eqb_refl]. }
      destruct (IH (k :: seen)) as [N I]. { intros a b Ha Hb. apply Inj; rewrite in_app_iff in *; cbn [In] in *; tauto. }
      split; [constructor; [rewrite I; cbn [In]; tauto|exact N]|].
      intros x. cbn [In]. rewrite I. cbn [In]. split; [intros [->|[Hx Hn]]; tauto|].
      intros [[->|Hx] Hn]; [now left|]. assert (E : {k = x} + {k <> x}) by (repeat decide equality). destruct E as [->|Nx]; [now left|right; tauto].
  Qed.

  Lemma sum_ok : exists x ks, eT_z_symmetric_latex_sum o (series e) Hs Zs s true rf = Ok (Some x) /\
    NoDup ks /\ (forall k, In k ks <-> eT_pairs s P H cc e k) /\ x = esum_of 4 (map (elt true) ks).
  Proof.
    destruct all_printed as (l & ks & E & Ne & Ep & Ik).
    destruct (keep_first_once (fun k => render_elterm s (elt true k)) ks []) as [N I].
    { intros a b Ha Hb. cbn [app] in *. apply raw_inj; now apply Ik. }
    set (kept := keep_first (fun a b => render_elterm s (elt true a) =? render_elterm s (elt true b)) [] ks) in *.
    exists (esum_of 4 (map (elt true) kept)), kept. split.
    - unfold eT_z_symmetric_latex_sum, build_third_eTz_term. rewrite E. cbn [bind]. destruct l as [|t l]; [congruence|].
      unfold prepare_third_eTz_latex. rewrite concatM_mapM, Ep. cbn [bind].
      assert (FM : flat_map option_list (map (fun k => Some (elt true k)) ks) = map (elt true) ks).
      { clear. induction ks as [|k ks IH]; [reflexivity|]. cbn [map flat_map option_list app]. now rewrite IH. }
      rewrite FM. change (@nil elterm) with (map (elt true) []). rewrite keep_first_elt. reflexivity.
    - split; [exact N|]. split; [|reflexivity]. intros k. rewrite I, Ik. cbn [In]. tauto.
  Qed.

  Lemma esum_cleans rs ss : 1 <= 4 -> Forall2 (fun t x => cleans (render_elterm s t) x) rs ss ->
    exists sum, eT_sum_text 4 ss sum /\ cleans (render_esum_latex s (esum_of 4 rs)) sum.
  Proof.
    intros _ F. pose proof (forall2_len _ _ _ F) as L. unfold esum_of, eT_sum_text. rewrite <- L.
    destruct (Nat.leb_spec (List.length rs) (4 + 2)) as [B|B].
    - exists (sum_text ss). split; [left; auto|]. cbn [render_esum_latex]. unfold sum_text.
      apply cleans_app; [now apply cleans_tidy|]. apply cleans_app; [|now apply cleans_tidy]. apply cleans_join; [reflexivity|]. now apply forall2_map_l.
    - destruct (eT_lines_form 4 ss ltac:(lia)) as (full & rest & E1 & E2 & E3 & E4).
      exists (newline ++ String.concat line_break (map (String.concat " + ") (eT_lines 4 ss)) ++ newline). split.
      + right. split; [exact B|]. exists full, rest. rewrite E4. auto.
      + cbn [render_esum_latex]. apply cleans_app; [now apply cleans_tidy|]. apply cleans_app; [|now apply cleans_tidy].
        rewrite <- splitting_break. apply cleans_join; [reflexivity|].
        assert (FL : Forall2 (Forall2 (fun t x => cleans (render_elterm s t) x)) (eT_lines 4 rs) (eT_lines 4 ss)).
        { unfold eT_lines. rewrite <- L. apply Forall2_app.
          - apply forall2_map2. intros i. now apply forall2_pyslice.
          - cbv zeta. destruct (Nat.eqb _ 0); [constructor|]. constructor; [|constructor].
            rewrite <- (firstn_all rs), <- (firstn_all ss) in F.
            pose proof (forall2_pyslice (fun t x => cleans (render_elterm s t) x) (List.length rs - List.length rs mod 4) (List.length rs)) as G.
            specialize (G rs ss). rewrite !firstn_all in F. specialize (G F). unfold PyBase.slice in G.
            rewrite !firstn_all2 in G by (rewrite skipn_length; lia). exact G. }
        clear - FL. induction FL as [|a b x y Hab _ IH]; [constructor|]. cbn [map]. constructor; [|exact IH].
        apply cleans_join; [reflexivity|]. now apply forall2_map_l.
  Qed.

  Lemma equation_fine_eT : P <= 8 -> o = op_of (0, P) ->
    exists x, eT_z_symmetric_latex_sum o (series e) Hs Zs s true rf = Ok x /\
      eT_equation_text s P H cc e (render_eT_equation s o x).
  Proof.
    intros P8 Eo. destruct sum_ok as (x & ks & E & N & I & ->). eexists. split; [exact E|].
    assert (F : Forall2 (fun t y => cleans (render_elterm s t) y) (map (elt true) ks) (map (tidied s) ks))
      by (apply forall2_map2; intros; apply term_cleans).
    destruct (esum_cleans _ _ ltac:(lia) F) as (sum & S1 & S2).
    exists ks, (map (tidied s) ks), sum. split; [exact N|]. split; [exact I|]. split.
    { clear. induction ks; constructor; auto. apply tidied_text. }
    split.
    { apply NoDup_map_inj; [exact N|]. intros a b Ha Hb Eab. apply I in Ha, Hb.
      destruct Ha as (B1 & (B2 & B3) & _ & _ & B4), Hb as (C1 & (C2 & C3) & _ & _ & C4). apply (tidied_inj s P); auto; lia. }
    split; [exact S1|]. apply cleans_clean. apply cleans_app.
    - destruct s; [now apply cleans_tidy|]. rewrite Eo. apply cleans_b_ok.
      pose proof first_check as FC. rewrite forallb_forall in FC. apply (FC (0, P)). apply in_small. lia.
    - apply cleans_app; [now apply cleans_tidy|]. apply cleans_app; [exact S2|]. apply cleans_app; [now apply cleans_tidy|].
      destruct s; [now apply cleans_tidy|]. apply cleans_app; [now apply cleans_tidy|]. apply cleans_app; [|now apply cleans_tidy].
      rewrite Eo. apply cleans_b_ok. pose proof fifth_check as FC. rewrite forallb_forall in FC. apply (FC (0, P)). apply in_small. lia.
  Qed.
End Equation.

(** ** The projections that are printed *)
Fixpoint ground_ones (prev : nat) (l : list gop) : list (nat * gop) :=
  match l with
  | [] => []
  | o :: r => if Nat.ltb 0 (g_m o) then ground_ones (g_rank o) r else (prev, o) :: ground_ones (g_rank o) r
  end.
Definition one_eT s eT H Z g rf (po : nat * gop) : res (nat * gop * option esum) :=
  do _ <- py_nth rank_names (g_rank (snd po));
  do e <- eT_z_symmetric_latex_sum (snd po) eT H Z s g rf;
  Ok (fst po, snd po, e).
Lemma loop_mapM s eT H Z g rf l : forall prev,
  eT_equations_loop s eT H Z g rf prev l = mapM (one_eT s eT H Z g rf) (ground_ones prev l).
Proof.
  induction l as [|o l IH]; intros prev; [reflexivity|]. cbn [eT_equations_loop ground_ones].
  destruct (Nat.ltb 0 (g_m o)); [apply IH|]. cbn [mapM]. unfold one_eT at 1. cbn [fst snd].
  destruct (py_nth rank_names (g_rank o)); [|reflexivity]. cbn [bind].
  destruct (eT_z_symmetric_latex_sum o eT H Z s g rf); [|reflexivity]. cbn [bind]. now rewrite IH.
Qed.

Lemma range_split a b : a <= b -> range 0 b = (range 0 a ++ seq a (b - a))%list.
Proof.
  intros L. unfold range. rewrite !Nat.sub_0_r. assert (E : b = a + (b - a)) by lia. rewrite E at 1. now rewrite seq_app.
Qed.
Lemma omega_min cc P : generate_omega_operator cc P = generate_omega_operator (Nat.min cc P) (Nat.min cc P).
Proof.
  unfold generate_omega_operator. f_equal. f_equal.
  assert (R : forall r b, b <= r -> filter (fun mn => Nat.leb (fst mn + snd mn) b) (mn_pairs r) = mn_pairs b).
  { intros r b Hb. unfold mn_pairs. rewrite filter_flat_map.
    rewrite (range_split (b + 1) (r + 1)) by lia. replace (r + 1 - (b + 1)) with (r - b) by lia.
    rewrite flat_map_app. rewrite (flat_map_nil _ (seq (b + 1) (r - b))).
    - rewrite app_nil_r. apply flat_map_ext_in. intros m Hm. apply in_range in Hm. rewrite filter_map_comm. cbn [fst snd]. f_equal.
      rewrite (range_split (b + 1 - m) (r + 1 - m)) by lia. replace (r + 1 - m - (b + 1 - m)) with (r - b) by lia.
      rewrite filter_app. rewrite (filter_none _ (seq _ _)).
      + rewrite app_nil_r. assert (A : forall l : list nat, (forall x, In x l -> Nat.leb (m + x) b = true) -> filter (fun x => Nat.leb (m + x) b) l = l).
        { induction l as [|x l IH]; intros Hl; [reflexivity|]. cbn [filter]. rewrite Hl by now left. f_equal. apply IH. intros; apply Hl; now right. }
        apply A. intros x Hx. apply in_range in Hx. apply Nat.leb_le. lia.
      + intros x Hx. apply in_seq in Hx. apply Nat.leb_gt. lia.
    - intros m Hm. apply in_seq in Hm. apply filter_none. intros [a b'] Hx. apply in_map_iff in Hx as (n & [= <- <-] & _). cbn [fst snd].
      apply Nat.leb_gt. lia. }
  rewrite (R (Nat.min cc P) (Nat.min cc P)) by lia.
  destruct (Nat.le_ge_cases P cc) as [L|L].
  - rewrite Nat.min_r by exact L. now apply R.
  - rewrite Nat.min_l by exact L.
    assert (A : forall l : list (nat * nat), (forall x, In x l -> fst x + snd x <= P) -> filter (fun mn => Nat.leb (fst mn + snd mn) P) l = l).
    { induction l as [|x l IH]; intros Hl; [reflexivity|]. cbn [filter]. replace (Nat.leb (fst x + snd x) P) with true by (symmetry; apply Nat.leb_le, Hl; now left).
      f_equal. apply IH. intros; apply Hl; now right. }
    apply A. intros [m n] Hx. apply in_mn_pairs in Hx. cbn [fst snd]. lia.
Qed.

Definition last_rank (l : list gop) : nat := match rev l with [] => 0 | o :: _ => g_rank o end.
Definition expected_ones (R : nat) : list (nat * gop) :=
  map (fun p => (match p with 0 => R | S q => q end, op_of (0, p))) (seq 0 (S R)).
Definition gop_eqb (a b : gop) : bool :=
  String.eqb (g_name a) (g_name b) && Nat.eqb (g_rank a) (g_rank b) && Nat.eqb (g_m a) (g_m b) && Nat.eqb (g_n a) (g_n b).
Lemma ones_check : forall R, R <= 8 -> ground_ones (last_rank (generate_omega_operator R R)) (generate_omega_operator R R) = expected_ones R.
Proof. intros R HR. do 9 (destruct R as [|R]; [vm_compute; reflexivity|]). lia. Qed.

Lemma map_combine {A B} (F : nat -> A -> string) (G : B -> string) ps bs : 
  Forall2 (fun p b => exists a, G b = F p a) ps bs -> exists l, List.length l = List.length ps /\
  map G bs = map (fun pa => F (fst pa) (snd pa)) (combine ps l).
Proof.
  induction 1 as [|p b ps bs (a & Ea) _ (l & L & E)]; [exists []; auto|]. exists (a :: l). cbn [List.length combine map fst snd].
  rewrite Ea, E, L. auto.
Qed.

Theorem eT_latex_file_ok s H cc P e rf : 1 <= e -> Nat.min cc P <= 8 ->
  exists text, generate_eT_z_t_symmetric_latex s true rf H cc 1 e P = Ok text /\ eT_latex_text s H cc P e rf text.
Proof.
  intros He HR. unfold generate_eT_z_t_symmetric_latex, eT_latex_equations. rewrite taylor_1 by exact He. cbn [bind].
  fold (series e). rewrite loop_mapM. change (match rev ?l with [] => 0 | omega :: _ => g_rank omega end) with (last_rank l).
  rewrite omega_min, ones_check by exact HR. set (R := Nat.min cc P) in *.
  assert (X : exists es eqns, mapM (one_eT s (series e) (generate_pruned_H_operator H) (generate_z_operator cc true) true rf) (expected_ones R) = Ok es /\
     Forall2 (fun p eqn => eT_equation_text s p H cc e eqn) (seq 0 (S R)) eqns /\
     map (render_eT_latex_equation s) es = map (fun pe => eT_section_text s (fst pe) (snd pe)) (combine (seq 0 (S R)) eqns)).
  { unfold expected_ones.
    assert (Y : forall p, In p (seq 0 (S R)) -> p <= 8 /\ p <= cc) by (intros p Hp; apply in_seq in Hp; lia).
    assert (Z : R <= 8) by exact HR. clearbody R. clear HR.
    induction (seq 0 (S R)) as [|p ps IH]; [exists [], []; repeat split; constructor|].
    destruct IH as (es & eqns & E1 & E2 & E3); [intros; apply Y; now right|]. destruct (Y p (or_introl eq_refl)) as [Y1 Y2].
    destruct (equation_fine_eT s p H cc e rf (op_of (0, p)) He eq_refl eq_refl Y2 Y1 eq_refl) as (x & Ex & Tx).
    set (b := match p with 0 => R | S q => q end).
    exists ((b, op_of (0, p), x) :: es), (render_eT_equation s (op_of (0, p)) x :: eqns). split.
    - cbn [map mapM]. unfold one_eT at 1. cbn [fst snd op_of g_rank]. destruct (some_rank_name (0 + p)) as (nm & ->); [lia|]. cbn [bind].
      change (mkgop (spelled 0 p) (0 + p) 0 p) with (op_of (0, p)). unfold Hs, Zs in Ex. rewrite Ex. cbn [bind]. now rewrite E1.
    - split; [now constructor|]. cbn [map combine fst snd]. rewrite E3. f_equal. unfold render_eT_latex_equation, eT_section_text. cbn [op_of g_rank fst snd].
      assert (ET : wrap_t_latex (op_of (0, p)) (generate_t_lhs (op_of (0, p))) = t_equation_text 0 p).
      { pose proof t_check as FC. rewrite forallb_forall in FC. apply String.eqb_eq. apply (FC (0, p)). apply in_small. lia. }
      assert (EL : generate_z_lhs (op_of (0, p)) = "i\Big(\dv{\hat{\bz}^{" ++ letters 0 p ++ "}_{\gamma}}{\tau}\Big)").
      { unfold generate_z_lhs. cbn [op_of g_rank fst snd Nat.add]. rewrite sslice_0_of_chars. reflexivity. }
      assert (EA : forall q, wrap_eT_z_align_environment s (generate_z_lhs (op_of (0, p))) q = eT_align_text s p q).
      { intros q. rewrite EL. unfold wrap_eT_z_align_environment, eT_align_text. destruct s; rewrite ?append_assoc; reflexivity. }
      change (mkgop (spelled 0 p) (0 + p) 0 p) with (op_of (0, p)). rewrite ET, EA.
      assert (EH : (if Nat.ltb b (0 + p) then "\paragraph{" ++ nth (0 + p) rank_names "" ++ " Equations}" ++ nl ++ nl else "\vspace{2cm}")
        = match p with 0 => "\vspace{2cm}" | _ => "\paragraph{" ++ nth p order_names "" ++ " Equations}" ++ newline ++ newline end).
      { subst b. destruct p as [|p]; [cbn [Nat.add]; now rewrite (proj2 (Nat.ltb_ge R 0)) by lia|].
        replace (Nat.ltb p (0 + S p)) with true by (symmetry; apply Nat.ltb_lt; lia). reflexivity. }
      rewrite EH. reflexivity. }
  destruct X as (es & eqns & E1 & E2 & E3). rewrite E1. cbn [bind]. eexists. split; [reflexivity|].
  exists eqns. split; [exact E2|]. fold R. rewrite concat_empty_sep, <- E3. reflexivity.
Qed.

(** ** Refused truncations *)
Lemma ground_zero_first cc P : exists po r, ground_ones (last_rank (generate_omega_operator cc P)) (generate_omega_operator cc P) = po :: r /\ g_rank (snd po) = 0.
Proof. destruct (first_projection cc P) as (o & r & -> & ->). cbn [ground_ones g_m Nat.ltb Nat.leb]. eauto. Qed.

Theorem eT_latex_excited_refused s H cc P e rf : 1 <= e ->
  generate_eT_z_t_symmetric_latex s false rf H cc 1 e P = Err NotImplementedErr.
Proof.
  intros He. unfold generate_eT_z_t_symmetric_latex, eT_latex_equations. rewrite taylor_1 by exact He. cbn [bind]. rewrite loop_mapM.
  change (match rev ?l with [] => 0 | omega :: _ => g_rank omega end) with (last_rank l).
  destruct (ground_zero_first cc P) as (po & r & -> & E). cbn [mapM]. unfold one_eT. rewrite E. reflexivity.
Qed.
Theorem eT_latex_order0_refused s g H cc P rf : generate_eT_z_t_symmetric_latex s g rf H cc 1 0 P = Err IndexErr.
Proof. reflexivity. Qed.

Lemma ground_ones_in l : forall prev po, In po (ground_ones prev l) -> In (snd po) l /\ g_m (snd po) = 0.
Proof.
  induction l as [|o l IH]; intros prev po Hp; [easy|]. cbn [ground_ones] in Hp. destruct (Nat.ltb_spec 0 (g_m o)) as [B|B].
  - apply IH in Hp as [? ?]. split; [now right|auto].
  - destruct Hp as [<-|Hp]; [split; [now left|cbn; lia]|]. apply IH in Hp as [? ?]. split; [now right|auto].
Qed.
Lemma in_ground_ones l : forall prev o, In o l -> g_m o = 0 -> exists p, In (p, o) (ground_ones prev l).
Proof.
  induction l as [|x l IH]; intros prev o Ho Hm; [easy|]. cbn [ground_ones]. destruct Ho as [->|Ho].
  - rewrite Hm. cbn [Nat.ltb Nat.leb]. exists prev. now left.
  - destruct (IH (g_rank x) o Ho Hm) as [p Hp]. destruct (Nat.ltb 0 (g_m x)); exists p; [exact Hp|now right].
Qed.

Theorem eT_latex_rank9_refused s H cc P e rf : 1 <= e -> 9 <= cc -> 9 <= P ->
  generate_eT_z_t_symmetric_latex s true rf H cc 1 e P = Err IndexErr.
Proof.
  intros He Hc HP. destruct (projections_exact cc P) as (N & I & _).
  unfold generate_eT_z_t_symmetric_latex, eT_latex_equations. rewrite taylor_1 by exact He. cbn [bind]. fold (series e). rewrite loop_mapM.
  change (match rev ?l with [] => 0 | omega :: _ => g_rank omega end) with (last_rank l).
  rewrite (mapM_err_only _ IndexErr); [reflexivity| |].
  - intros po Hpo. apply ground_ones_in in Hpo as [Ho Hm]. apply I in Ho as (Sp & R & L1 & L2). unfold one_eT.
    destruct (Nat.leb_spec (g_rank (snd po)) 8) as [L|L].
    + destruct (some_rank_name _ L) as [nm ->]. cbn [bind].
      destruct (sum_ok s (g_n (snd po)) H cc e rf (snd po) He Hm eq_refl ltac:(lia)) as (x & ks & E & _). unfold Hs, Zs in E. rewrite E. cbn [bind]. eauto.
    + rewrite no_rank_name by lia. now right.
  - destruct (in_ground_ones (generate_omega_operator cc P) (last_rank (generate_omega_operator cc P)) (op_of (0, 9))) as [p Hp].
    + apply I. repeat split; cbn; lia.
    + reflexivity.
    + eexists. split; [exact Hp|]. reflexivity.
Qed.

Theorem eT_latex_iff s g rf H cc e P :
  (exists text, generate_eT_z_t_symmetric_latex s g rf H cc 1 e P = Ok text) <-> g = true /\ 1 <= e /\ Nat.min cc P <= 8.
Proof.
  split.
  - intros [text E]. destruct e as [|e]; [rewrite eT_latex_order0_refused in E; discriminate|].
    destruct g; [|rewrite eT_latex_excited_refused in E by lia; discriminate]. split; [reflexivity|]. split; [lia|].
    destruct (Nat.le_gt_cases (Nat.min cc P) 8) as [L|L]; [exact L|]. rewrite eT_latex_rank9_refused in E by lia. discriminate.
  - intros (-> & He & HR). destruct (eT_latex_file_ok s H cc P e rf He HR) as (text & E & _). eauto.
Qed.
Theorem eT_latex_errors s g rf H cc e P err : generate_eT_z_t_symmetric_latex s g rf H cc 1 e P = Err err ->
  err = match e, g with 0, _ => IndexErr | _, false => NotImplementedErr | _, true => IndexErr end.
Proof.
  intros E. destruct e as [|e]; [rewrite eT_latex_order0_refused in E; congruence|].
  destruct g; [|rewrite eT_latex_excited_refused in E by lia; congruence].
  destruct (Nat.le_gt_cases (Nat.min cc P) 8) as [L|L].
  - destruct (eT_latex_file_ok s H cc P (S e) rf ltac:(lia) L) as (text & E' & _). congruence.
  - rewrite eT_latex_rank9_refused in E by lia. congruence.
Qed.

Theorem kinds_differ s P rf q m n k c q' m' n' k' c' x x' :
  complete P q m n k c -> complete P q' m' n' k' c' -> m <= 2 -> m' <= 2 -> allowed_on s n -> allowed_on s n' ->
  third_eTz_term rf true (written P q m n k c) = Ok (Some x) -> third_eTz_term rf true (written P q' m' n' k' c') = Ok (Some x') ->
  clean (render_elterm s x) = clean (render_elterm s x') -> pairs_of c = pairs_of c'.
Proof.
  intros C C' M M' A A' E E' T. rewrite (printed_term rf true _ _ _ _ _ _ C) in E. rewrite (printed_term rf true _ _ _ _ _ _ C') in E'.
  injection E as <-. injection E' as <-.
  destruct (written_ts _ _ _ _ _ _ C) as (_ & E1 & E2 & _ & E3 & _), (written_ts _ _ _ _ _ _ C') as (_ & F1 & F2 & _ & F3 & _).
  apply (tidied_inj s P); [lia|lia|lia|lia|now rewrite <- E2|now rewrite <- F2|].
  rewrite <- (cleans_clean _ _ (term_cleans s (pairs_of c))), <- (cleans_clean _ _ (term_cleans s (pairs_of c'))). exact T.
Qed.
Theorem term_printed (s : side) P rf q m n k c : complete P q m n k c ->
  exists x, third_eTz_term rf true (written P q m n k c) = Ok (Some x) /\
    eT_term_text false s (pairs_of c) (render_elterm s x) /\ eT_term_text true s (pairs_of c) (clean (render_elterm s x)).
Proof.
  intros C. eexists. split; [exact (printed_term rf true _ _ _ _ _ _ C)|]. split; [apply term_text|].
  rewrite (cleans_clean _ _ (term_cleans s (pairs_of c))). apply tidied_text.
Qed.
