(** Proofs about whole runs of the driver. *)
From Coq Require Import List Arith ZArith Ascii String Lia.
From Verif Require Import PyBase PyStr SpecPython SpecNames SpecEt SpecEtPy SpecEtText
  SpecFullCC SpecFullCCText SpecFullCCPlaces ModelFullCC ModelFullCCPy ModelFullCCLatex ModelZhz ModelEtPy ModelEtLatex
  ProofsFullCC ProofsFullCCFile ProofsFullCCLatexFile ProofsFullCCText ProofsFullCCPlaces ProofsNamesFullCCFile ProofsNamesEt ProofsZhzEquation
  ProofsEtFile ProofsEtLatexFile ProofsEtProgram ModelHeaders ModelTrunc ModelRun SpecTrunc SpecRun ProofsTrunc.
Import ListNotations.
Local Open Scope list_scope.

(** ** The driver in two parts *)
Lemma driver_parts fs a : driver_main fs a =
  (do st <- driver_source fs a; do c <- driver_request a (snd st); Ok (fst st, c)).
Proof.
  unfold driver_main, driver_source, driver_request.
  match goal with |- bind ?x _ = bind ?y _ => change y with x; destruct x as [[saved d]|] end; [|reflexivity].
  cbn [bind fst snd]. match goal with |- bind ?x _ = bind (bind ?y _) _ => change y with x; destruct x end; reflexivity.
Qed.

(** ** Dictionaries *)
Definition complete (t : ktype) (d : dict) : Prop :=
  is_dict d /\ (forall k v, In (k, v) d -> exists m, k = DEnum m) /\ (forall k, In k (keys_of t) -> exists v, dict_value d k = Ok v).

Lemma value_iff d k v : is_dict d -> (ModelTrunc.dict_value d k = Ok v <-> has_value d k v).
Proof.
  intros Hd. unfold ModelTrunc.dict_value, has_value. rewrite <- (dict_get_some d (DEnum k) v Hd).
  destruct (dict_get d (DEnum k)); split; congruence.
Qed.

Lemma source_complete fs a t saved d : source_ok fs a t saved d -> complete t d.
Proof.
  intros [(values & text & _ & _ & Hdv & _ & _)|(p & text & _ & _ & _ & Hl & Hv & _)].
  - destruct (dict_of_values_enum _ _ _ Hdv) as [He Hd]. split; [exact Hd|]. split; [exact He|]. intros k. now apply (dict_of_values_get t values).
  - pose proof (proj1 (load_valid text d Hl)) as Hd. split; [exact Hd|]. split; [apply Hv|]. intros k. now apply valid_get.
Qed.

Lemma verify_cases t d : is_dict d -> {verify_truncations t d = Ok tt /\ acceptable t d} + {~ acceptable t d /\ exists e, verify_truncations t d = Err e}.
Proof.
  intros Hd. pose proof (verify_exact t d Hd) as V. destruct (verify_truncations t d) as [[]|e].
  - left. split; [reflexivity|]. now apply V.
  - right. split; [|eauto]. intros A. apply V in A. discriminate.
Qed.

Lemma nat_value d k t top : is_dict d -> acceptable t d -> In (k, top) (documented t) ->
  exists n, rank_value d k = Ok n /\ has_value d k (Z.of_nat n).
Proof.
  intros Hd [_ A] Hk. destruct (A k top Hk) as (v & Hv & B). exists (Z.to_nat v). split.
  - unfold rank_value. apply (value_iff d k v Hd) in Hv. now rewrite Hv.
  - now rewrite Z2Nat.id by lia.
Qed.

Lemma nat_unique d k n m : is_dict d -> has_value d k (Z.of_nat n) -> has_value d k (Z.of_nat m) -> n = m.
Proof. intros Hd A B. apply (value_iff _ _ _ Hd) in A. apply (value_iff _ _ _ Hd) in B. assert (Ok (Z.of_nat n) = Ok (Z.of_nat m)) as [=] by congruence. lia. Qed.
Lemma Z_unique d k v w : is_dict d -> has_value d k v -> has_value d k w -> v = w.
Proof. intros Hd A B. apply (value_iff _ _ _ Hd) in A. apply (value_iff _ _ _ Hd) in B. congruence. Qed.

Lemma fcc_get d : is_dict d -> acceptable Fcc d -> exists H cc S P, fcc_values d H cc S P /\
  rank_value d KH = Ok H /\ rank_value d KCC = Ok cc /\ rank_value d KS = Ok S /\ rank_value d KP = Ok P.
Proof.
  intros Hd A.
  destruct (nat_value d KH Fcc 6%Z Hd A) as (H & E1 & V1); [cbn; auto|].
  destruct (nat_value d KCC Fcc 6%Z Hd A) as (cc & E2 & V2); [cbn; auto|].
  destruct (nat_value d KS Fcc 6%Z Hd A) as (S & E3 & V3); [cbn; auto|].
  destruct (nat_value d KP Fcc 6%Z Hd A) as (P & E4 & V4); [cbn; auto|].
  exists H, cc, S, P. unfold fcc_values. auto 10.
Qed.
Lemma fcc_unique d H cc S P H' cc' S' P' : is_dict d -> fcc_values d H cc S P -> fcc_values d H' cc' S' P' -> H = H' /\ cc = cc' /\ S = S' /\ P = P'.
Proof. intros Hd (A1 & A2 & A3 & A4) (B1 & B2 & B3 & B4). repeat split; eapply nat_unique; eassumption. Qed.
Lemma fcc_bounds d H cc S P : is_dict d -> acceptable Fcc d -> fcc_values d H cc S P -> 1 <= H <= 6 /\ 1 <= cc <= 6 /\ 1 <= S <= 6 /\ 1 <= P <= 6.
Proof.
  intros Hd A (V1 & V2 & V3 & V4).
  pose proof (dict_bound Fcc d KH 6%Z H Hd A ltac:(cbn; auto) V1). pose proof (dict_bound Fcc d KCC 6%Z cc Hd A ltac:(cbn; auto) V2).
  pose proof (dict_bound Fcc d KS 6%Z S Hd A ltac:(cbn; auto) V3). pose proof (dict_bound Fcc d KP 6%Z P Hd A ltac:(cbn; auto) V4). lia.
Qed.

Lemma eTz_get d : is_dict d -> acceptable ETz d -> exists H cc e P, eTz_values d H cc 1 e P /\
  rank_value d KH = Ok H /\ rank_value d KCC = Ok cc /\ rank_value d KT = Ok 1 /\ rank_value d KeT = Ok e /\ rank_value d KP = Ok P.
Proof.
  intros Hd A.
  destruct (nat_value d KH ETz 6%Z Hd A) as (H & E1 & V1); [cbn; auto|].
  destruct (nat_value d KCC ETz 6%Z Hd A) as (cc & E2 & V2); [cbn; auto|].
  destruct (nat_value d KT ETz 1%Z Hd A) as (T & E3 & V3); [cbn; auto|].
  destruct (nat_value d KeT ETz 8%Z Hd A) as (e & E4 & V4); [cbn; auto|].
  destruct (nat_value d KP ETz 6%Z Hd A) as (P & E5 & V5); [cbn; auto 10|].
  pose proof (dict_bound ETz d KT 1%Z T Hd A ltac:(cbn; auto) V3). assert (T = 1) as -> by lia.
  exists H, cc, e, P. unfold eTz_values. auto 10.
Qed.
Lemma eTz_unique d H cc e P H' cc' e' P' : is_dict d -> eTz_values d H cc 1 e P -> eTz_values d H' cc' 1 e' P' -> H = H' /\ cc = cc' /\ e = e' /\ P = P'.
Proof. intros Hd (A1 & A2 & A3 & A4 & A5) (B1 & B2 & B3 & B4 & B5). repeat split; eapply nat_unique; eassumption. Qed.
Lemma eTz_bounds d H cc e P : is_dict d -> acceptable ETz d -> eTz_values d H cc 1 e P -> 1 <= H <= 6 /\ 1 <= cc <= 6 /\ 1 <= e <= 8 /\ 1 <= P <= 6.
Proof.
  intros Hd A (V1 & V2 & V3 & V4 & V5).
  pose proof (dict_bound ETz d KH 6%Z H Hd A ltac:(cbn; auto) V1). pose proof (dict_bound ETz d KCC 6%Z cc Hd A ltac:(cbn; auto) V2).
  pose proof (dict_bound ETz d KeT 8%Z e Hd A ltac:(cbn; auto) V4). pose proof (dict_bound ETz d KP 6%Z P Hd A ltac:(cbn; auto 10) V5). lia.
Qed.

(** ** The z t document for any integers *)
Lemma z_t_nat H cc P g rf : z_t_latex (Z.of_nat H) (Z.of_nat cc) (Z.of_nat P) g rf = generate_z_t_symmetric_latex H cc P g rf.
Proof.
  unfold z_t_latex, z_projections, z_hamiltonian, generate_z_t_symmetric_latex, z_equations.
  destruct (Z.ltb_spec (Z.of_nat cc) 0); [lia|]. destruct (Z.ltb_spec (Z.of_nat P) 0); [lia|]. destruct (Z.ltb_spec (Z.of_nat H) 0); [lia|].
  cbn [orb]. now rewrite !Nat2Z.id.
Qed.

Lemma no_hamiltonian_total o cc rf : exists e, generate_z_symmetric_latex_equations o [] (generate_z_operator cc true) true rf = Ok e.
Proof.
  assert (X : exists z r, generate_z_operator cc true = z :: r).
  { destruct (generate_z_operator cc true) as [|z r] eqn:E; [|eauto]. exfalso.
    assert (I : In (mkgop (z_name 0 0) 0 0 0) (generate_z_operator cc true)); [|rewrite E in I; destruct I].
    unfold generate_z_operator. apply in_map_iff. exists (0, 0). split; [reflexivity|]. apply filter_In. split; [|reflexivity].
    apply in_mn_pairs. cbn. lia. }
  destruct X as (z & r & ->).
  unfold generate_z_symmetric_latex_equations, build_third_z_term, build_z_term, filter_out_valid_z_terms, concatM. eexists; reflexivity.
Qed.

Lemma z_equation_total o H cc rf : exists e, generate_z_symmetric_latex_equations o (z_hamiltonian H) (generate_z_operator cc true) true rf = Ok e.
Proof. unfold z_hamiltonian. destruct (H <? 0)%Z; [apply no_hamiltonian_total|apply equation_total]. Qed.

Definition one_zz (H cc : Z) (g rf : bool) (omega : gop) : res (gop * string) :=
  do _ <- py_nth rank_names (g_rank omega);
  do e <- generate_z_symmetric_latex_equations omega (z_hamiltonian H) (generate_z_operator (Z.to_nat cc) g) g rf;
  Ok (omega, e).

Lemma z_t_total H cc P rf : (cc < 0 \/ P < 0 \/ Z.min cc P <= 8)%Z -> exists text, z_t_latex H cc P true rf = Ok text.
Proof.
  intros B. unfold z_t_latex. change (fun omega : gop => _) with (one_zz H cc true rf).
  assert (X : exists l, mapM (one_zz H cc true rf) (z_projections cc P) = Ok l); [|destruct X as [l ->]; cbn [bind]; eauto].
  assert (Y : forall o, In o (z_projections cc P) -> exists r, one_zz H cc true rf o = Ok r).
  { unfold z_projections. intros o. destruct (Z.ltb_spec cc 0); [intros []|]. destruct (Z.ltb_spec P 0); [intros []|]. cbn [orb].
    intros Ho. apply projections_exact in Ho as (_ & _ & L1 & L2). unfold one_zz.
    destruct (some_rank_name (g_rank o)) as (nm & ->); [lia|]. cbn [bind].
    destruct (z_equation_total o H (Z.to_nat cc) rf) as [e ->]. cbn [bind]. eauto. }
  induction (z_projections cc P) as [|o os IH]; [exists []; reflexivity|].
  destruct (Y o) as (r & E); [now left|]. destruct IH as (rs & Es); [intros; apply Y; now right|].
  exists (r :: rs). cbn [mapM]. rewrite E. cbn [bind]. now rewrite Es.
Qed.

Lemma z_t_none H cc P g rf : (cc < 0 \/ P < 0)%Z -> exists text, z_t_latex H cc P g rf = Ok text.
Proof.
  intros B. unfold z_t_latex, z_projections.
  assert (((cc <? 0) || (P <? 0))%Z = true) as -> by (apply Bool.orb_true_iff; destruct B; [left|right]; now apply Z.ltb_lt).
  cbn. eauto.
Qed.

Lemma z_t_excited H cc P rf : (0 <= cc)%Z -> (0 <= P)%Z -> z_t_latex H cc P false rf = Err NotImplementedErr.
Proof.
  intros B1 B2. unfold z_t_latex, z_projections. destruct (Z.ltb_spec cc 0); [lia|]. destruct (Z.ltb_spec P 0); [lia|]. cbn [orb].
  destruct (first_projection (Z.to_nat cc) (Z.to_nat P)) as (o & r & -> & ->). reflexivity.
Qed.

Lemma z_t_rank9 H cc P rf : (9 <= cc)%Z -> (9 <= P)%Z -> z_t_latex H cc P true rf = Err IndexErr.
Proof.
  intros Hc HP. unfold z_t_latex. change (fun omega : gop => _) with (one_zz H cc true rf).
  unfold z_projections. destruct (Z.ltb_spec cc 0); [lia|]. destruct (Z.ltb_spec P 0); [lia|]. cbn [orb].
  destruct (projections_exact (Z.to_nat cc) (Z.to_nat P)) as (N & I & _).
  rewrite (mapM_err_only (one_zz H cc true rf) IndexErr); [reflexivity| |].
  - intros o _. unfold one_zz. destruct (Nat.leb_spec (g_rank o) 8) as [L|L].
    + destruct (some_rank_name _ L) as [s ->]. cbn [bind]. destruct (z_equation_total o H (Z.to_nat cc) rf) as [e ->]. cbn [bind]. eauto.
    + rewrite no_rank_name by lia. now right.
  - exists (mkgop (spelled 9 0) 9 9 0). split; [|reflexivity]. apply I. repeat split; cbn; lia.
Qed.

Lemma z_t_iff H cc P g rf :
  (exists text, z_t_latex H cc P g rf = Ok text) <-> (cc < 0 \/ P < 0 \/ (g = true /\ Z.min cc P <= 8))%Z.
Proof.
  split.
  - intros [text E]. destruct (Z.ltb_spec cc 0); [now left|]. destruct (Z.ltb_spec P 0); [now right; left|]. right. right.
    destruct g; [|rewrite z_t_excited in E by lia; discriminate]. split; [reflexivity|].
    destruct (Z.leb_spec (Z.min cc P) 8); [assumption|]. rewrite z_t_rank9 in E by lia. discriminate.
  - intros [B|[B|[-> B]]]; [apply z_t_none; auto|apply z_t_none; auto|apply z_t_total; auto].
Qed.

(** ** The generators *)
Section Run.
  Variable lt : list (list tamp) -> list (list tamp).
  Variable ln : list nat -> list nat.
  Variable lp : list (list (nat * nat)) -> list (list (nat * nat)).
  Variable pt : list (list tamp) -> list (list tamp).
  Variable pn : list nat -> list nat.
  Variable pl : list (list nat) -> list (list nat).
  Variable pc : list (list ascii) -> list (list ascii).
  Hypotheses (L1 : set_order lt) (L2 : set_order ln) (L3 : set_order lp)
    (P1 : set_order pt) (P2 : set_order pn) (P3 : set_order pl) (P4 : set_order pc).

  Notation generate := (generate lt ln lp pt pn pl pc).
  Notation run := (run lt ln lp pt pn pl pc).

  Lemma generate_iff c : complete (ansatz_type (gc_ansatz c)) (gc_trunc c) ->
    ((exists text, generate c = Ok text) <-> can_write c).
  Proof.
    intros (Hd & He & Hg). unfold ModelRun.generate, can_write. destruct (gc_kind c), (gc_ansatz c); cbn [ansatz_type] in Hg.
    - (* latex full cc *)
      destruct (verify_cases Fcc (gc_trunc c) Hd) as [[-> A]|[A [e ->]]]; cbn [bind]; [|split; [intros [? ?]; discriminate|tauto]].
      destruct (fcc_get _ Hd A) as (H & cc & S & P & V & -> & -> & -> & ->). cbn [bind].
      destruct V as (V1 & V2 & V3 & V4).
      destruct (latex_file lt ln lp (gc_trunc c) H cc S P (gc_ground c) (gc_remove_f c) L1 L2 L3 Hd A V1 V2 V3 V4) as [F G].
      split.
      + intros [text E]. split; [exact A|]. exists H, cc, S, P. split; [repeat split; assumption|].
        destruct (Nat.leb_spec cc 3); [auto|]. destruct (Nat.leb_spec P 3); [auto|]. rewrite G in E by lia. discriminate.
      + intros (_ & H' & cc' & S' & P' & V' & B). destruct (fcc_unique _ _ _ _ _ _ _ _ _ Hd V' ltac:(repeat split; eassumption)) as (-> & -> & -> & ->).
        destruct (F B) as (body & -> & _). cbn [bind]. eauto.
    - (* latex z t *)
      destruct (Hg KH) as [H EH]; [cbn; auto|]. destruct (Hg KCC) as [cc EC]; [cbn; auto|]. destruct (Hg KP) as [P EP]; [cbn; auto|].
      rewrite EH, EC, EP. cbn [bind]. apply (value_iff _ _ _ Hd) in EH, EC, EP. pose proof (z_t_iff H cc P (gc_ground c) (gc_remove_f c)) as I. split.
      + intros [text E]. exists H, cc, P. split; [repeat split; assumption|]. apply I.
        destruct (z_t_latex H cc P (gc_ground c) (gc_remove_f c)); [eauto|discriminate].
      + intros (H' & cc' & P' & (V1 & V2 & V3) & B). rewrite (Z_unique _ _ _ _ Hd V2 EC), (Z_unique _ _ _ _ Hd V3 EP) in B.
        apply I in B as [text ->]. cbn [bind]. eauto.
    - (* latex eT *)
      destruct (verify_cases ETz (gc_trunc c) Hd) as [[-> A]|[A [e ->]]]; cbn [bind]; [|split; [intros [? ?]; discriminate|tauto]].
      destruct (eTz_get _ Hd A) as (H & cc & e & P & V & -> & -> & -> & -> & ->). cbn [bind].
      pose proof (eTz_bounds _ _ _ _ _ Hd A V) as B.
      pose proof (eT_latex_iff (side_of (gc_side c)) (gc_ground c) (gc_remove_f c) H cc e P) as I. split.
      + intros [text E]. split; [exact A|]. apply I.
        destruct (generate_eT_z_t_symmetric_latex (side_of (gc_side c)) (gc_ground c) (gc_remove_f c) H cc 1 e P); [eauto|discriminate].
      + intros (_ & G). destruct (proj2 I) as [text ->]; [repeat split; [exact G|lia|lia]|]. cbn [bind]. eauto.
    - (* python full cc *)
      destruct (verify_cases Fcc (gc_trunc c) Hd) as [[-> A]|[A [e ->]]]; cbn [bind]; [|split; [intros [? ?]; discriminate|tauto]].
      destruct (fcc_get _ Hd A) as (H & cc & S & P & V & -> & -> & -> & ->). cbn [bind].
      destruct V as (V1 & V2 & V3 & V4).
      destruct (file_iff pt pn pl pc (gc_trunc c) H cc S P P1 P3 P4 Hd A V1 V2 V3 V4) as [F G]. unfold generate_full_cc_python. split.
      + intros [text E]. split; [exact A|]. exists H, cc, S, P. split; [repeat split; assumption|].
        destruct (Nat.leb_spec H 5); [auto|]. rewrite G in E by lia. discriminate.
      + intros (_ & H' & cc' & S' & P' & V' & B). destruct (fcc_unique _ _ _ _ _ _ _ _ _ Hd V' ltac:(repeat split; eassumption)) as (-> & -> & -> & ->).
        destruct (F B) as (body & ->). cbn [bind]. eauto.
    - split; [intros [? ?]; discriminate|tauto].
    - (* python eT *)
      destruct (verify_cases ETz (gc_trunc c) Hd) as [[-> A]|[A [e ->]]]; cbn [bind]; [|split; [intros [? ?]; discriminate|tauto]].
      destruct (eTz_get _ Hd A) as (H & cc & e & P & V & -> & -> & -> & -> & ->). cbn [bind].
      pose proof (eTz_bounds _ _ _ _ _ Hd A V) as B. unfold generate_eT_zhz_python.
      pose proof (eT_file_iff (side_of (gc_side c)) (gc_ground c) H cc e P ltac:(lia) ltac:(lia)) as I. split.
      + intros [text E]. split; [exact A|]. exists H, cc, e, P. split; [exact V|].
        destruct (generate_eT_zhz_python_file_contents (side_of (gc_side c)) (gc_ground c) H cc 1 e P) as [body|]; [|discriminate].
        destruct (proj1 I) as [I1 I2]; [eauto|]. split; [exact I1|]. destruct (gc_side c); exact I2.
      + intros (_ & H' & cc' & e' & P' & V' & I1 & I2). destruct (eTz_unique _ _ _ _ _ _ _ _ _ Hd V' V) as (-> & -> & -> & ->).
        destruct (proj2 I) as [body ->]; [split; [exact I1|]; destruct (gc_side c); exact I2|]. cbn [bind]. eauto.
  Qed.

  Lemma generate_content c text : complete (ansatz_type (gc_ansatz c)) (gc_trunc c) -> generate c = Ok text -> content_ok c text.
  Proof.
    intros W E. assert (C : can_write c) by (apply generate_iff; eauto). destruct W as (Hd & _ & Hg).
    unfold ModelRun.generate in E. unfold can_write in C. unfold content_ok. destruct (gc_kind c), (gc_ansatz c); cbn [ansatz_type] in Hg.
    - destruct C as (A & H & cc & S & P & V & B). intros H' cc' S' P' V'. destruct (fcc_unique _ _ _ _ _ _ _ _ _ Hd V' V) as (-> & -> & -> & ->).
      destruct (fcc_get _ Hd A) as (H1 & cc1 & S1 & P5 & V1 & E1 & E2 & E3 & E4). destruct (fcc_unique _ _ _ _ _ _ _ _ _ Hd V1 V) as (-> & -> & -> & ->).
      rewrite (proj2 (verify_exact Fcc _ Hd) A), E1, E2, E3, E4 in E. cbn [bind] in E. destruct V as (V2 & V3 & V4 & V5).
      destruct (latex_file lt ln lp (gc_trunc c) H cc S P (gc_ground c) (gc_remove_f c) L1 L2 L3 Hd A V2 V3 V4 V5) as [F _].
      destruct (F B) as (body & Eb & T). rewrite Eb in E. cbn [bind] in E. injection E as <-. exists body. split; [reflexivity|exact T].
    - destruct C as (H0 & cc0 & P0 & V & B). intros H cc P V' B1 B2.
      destruct V' as (V1 & V2 & V3). destruct V as (_ & W2 & W3).
      rewrite (Z_unique _ _ _ _ Hd W2 V2), (Z_unique _ _ _ _ Hd W3 V3) in B.
      apply (value_iff _ _ _ Hd) in V1, V2, V3. rewrite V1, V2, V3 in E. cbn [bind] in E. rewrite z_t_nat in E.
      assert (G : gc_ground c = true) by (destruct B as [?|[?|[? _]]]; [lia|lia|assumption]). rewrite G in E.
      destruct (z_file_ok H cc (gc_remove_f c) B1 P B2) as (body & Eb & T). rewrite Eb in E. cbn [bind] in E. injection E as <-.
      exists body. split; [reflexivity|exact T].
    - destruct C as (A & G). rewrite (proj2 (verify_exact ETz _ Hd) A), G in E. cbn [bind] in E.
      destruct (eTz_get _ Hd A) as (H1 & cc1 & e1 & P5 & V1 & E1 & E2 & E3 & E4 & E5). rewrite E1, E2, E3, E4, E5 in E. cbn [bind] in E.
      intros H cc e P V. destruct (eTz_unique _ _ _ _ _ _ _ _ _ Hd V1 V) as (-> & -> & -> & ->). pose proof (eTz_bounds _ _ _ _ _ Hd A V) as B.
      destruct (eT_latex_file_ok (side_of (gc_side c)) H cc P e (gc_remove_f c)) as (body & Eb & T); [lia|lia|]. rewrite Eb in E. cbn [bind] in E.
      injection E as <-. exists body. split; [reflexivity|]. unfold side_asked. destruct (gc_side c); exact T.
    - destruct C as (A & H & cc & S & P & V & B). intros H' cc' S' P' V'. destruct (fcc_unique _ _ _ _ _ _ _ _ _ Hd V' V) as (-> & -> & -> & ->).
      destruct (fcc_get _ Hd A) as (H1 & cc1 & S1 & P5 & V1 & E1 & E2 & E3 & E4). destruct (fcc_unique _ _ _ _ _ _ _ _ _ Hd V1 V) as (-> & -> & -> & ->).
      rewrite (proj2 (verify_exact Fcc _ Hd) A), E1, E2, E3, E4 in E. cbn [bind] in E.
      pose proof (fcc_bounds _ _ _ _ _ Hd A V) as Bo.
      destruct (cc_file_program pt pn pl pc H cc S P text P1 P3 P4 ltac:(lia) ltac:(lia) ltac:(lia) E) as (prog & R & _ & _ & I & D).
      exists prog. split; [exact R|]. split; [exact I|]. split.
      + intros m n Hm Hn. destruct (D m n Hm Hn) as (D1 & D2 & _). split; [exact D1|]. split; [exact D2|].
        apply (cc_file_places pt pn pl pc H cc S P text prog); auto; lia.
      + apply (cc_file_names pt pn pl pc H cc S P text prog); auto; lia.
    - destruct C.
    - destruct C as (A & H & cc & e & P & V & B). rewrite (proj2 (verify_exact ETz _ Hd) A) in E. cbn [bind] in E.
      destruct (eTz_get _ Hd A) as (H1 & cc1 & e1 & P5 & V1 & E1 & E2 & E3 & E4 & E5). rewrite E1, E2, E3, E4, E5 in E. cbn [bind] in E.
      intros H' cc' e' P' V'. destruct (eTz_unique _ _ _ _ _ _ _ _ _ Hd V' V) as (-> & -> & -> & ->).
      destruct (eTz_unique _ _ _ _ _ _ _ _ _ Hd V1 V) as (-> & -> & -> & ->). pose proof (eTz_bounds _ _ _ _ _ Hd A V) as Bo.
      assert (side_asked c = side_of (gc_side c)) as -> by (unfold side_asked; destruct (gc_side c); reflexivity).
      destruct (file_program (side_of (gc_side c)) (gc_ground c) H cc e P text ltac:(lia) E) as (prog & R & _ & _ & I & D).
      exists prog. split; [exact R|]. split; [exact I|]. split; [exact D|].
      apply (eT_file_names (side_of (gc_side c)) (gc_ground c) H cc e P text prog ltac:(lia) E R).
  Qed.

  (** ** Runs *)
  Lemma default_path_other k an d g rf s p : default_path k an d g rf s = Ok p -> p <> truncations_file.
  Proof.
    intros E Ep. subst p. destruct k, an; cbn [default_path] in E; try discriminate E; try (destruct g, rf, s; discriminate E).
    apply eT_path_inv in E as (?&?&?&?&?&_&_&_&_&_&E). discriminate E.
  Qed.
  Lemma main_path_other fs a saved c : driver_main fs a = Ok (saved, c) -> gc_path c <> truncations_file.
  Proof.
    rewrite driver_parts. destruct (driver_source fs a) as [[sv d]|]; [|discriminate]. cbn [bind fst snd].
    destruct (driver_request a d) as [c'|] eqn:E; [|discriminate]. cbn [bind]. intros [= <- <-]. unfold driver_request in E.
    match type of E with bind ?x _ = _ => destruct x as [an|] end; [|discriminate]. cbn [bind] in E.
    apply dispatch_inv in E as (_&_&_&_&_&_&E). exact (default_path_other _ _ _ _ _ _ _ E).
  Qed.

  Lemma write_same fs p t : write fs p t p = Some t. Proof. unfold write. now rewrite String.eqb_refl. Qed.
  Lemma write_other fs p t q : q <> p -> write fs p t q = fs q.
  Proof. intros H. unfold write. apply String.eqb_neq in H. now rewrite H. Qed.

  Lemma run_main_ok fs a saved c : driver_main fs a = Ok (saved, c) ->
    run fs a = let fs1 := match saved with Some t => write fs truncations_file t | None => fs end in
               match generate c with Ok text => (write fs1 (gc_path c) text, Ok tt) | Err e => (fs1, Err e) end.
  Proof.
    rewrite driver_parts. unfold ModelRun.run. destruct (driver_source fs a) as [[sv d]|]; [|discriminate]. cbn [bind fst snd].
    destruct (driver_request a d) as [c'|]; [|discriminate]. cbn [bind]. intros [= <- <-]. destruct (generate c'); reflexivity.
  Qed.
  Lemma run_main_err fs a e : driver_main fs a = Err e ->
    run fs a = (match driver_source fs a with Ok (Some t, _) => write fs truncations_file t | _ => fs end, Err e).
  Proof.
    rewrite driver_parts. unfold ModelRun.run. destruct (driver_source fs a) as [[[sv|] d]|]; cbn [bind fst snd]; [| |intros [= <-]; reflexivity];
      (destruct (driver_request a d) as [c'|]; [discriminate|]); cbn [bind]; intros [= <-]; reflexivity.
  Qed.

  Lemma main_complete fs a saved c : driver_main fs a = Ok (saved, c) -> complete (ansatz_type (gc_ansatz c)) (gc_trunc c).
  Proof.
    intros E. destruct (driver_sound _ _ _ _ E) as (t & Hs & Hc). destruct Hc as (_ & -> & _). exact (source_complete _ _ _ _ _ Hs).
  Qed.

  (** The text saved. *)
  Lemma source_saved fs a saved d : driver_source fs a = Ok (saved, d) ->
    match saved with Some text => saved_truncations a text | None => arg_t a = None end.
  Proof.
    unfold driver_source. destruct (arg_t a) as [values|] eqn:Et, (arg_path a) as [p|] eqn:Ep; try discriminate.
    - destruct (make_trunc values) as [d'|] eqn:Ed; [|discriminate]. cbn [bind]. destruct (save_to_JSON d') as [text|] eqn:Es; [|discriminate].
      cbn [bind]. intros [= <- <-]. destruct (key_list_type (List.length values)) as [t|] eqn:Ek; [|unfold make_trunc in Ed; rewrite Ek in Ed; discriminate].
      exists values, t, d'. repeat split; auto; now apply (make_trunc_exact values d' t).
    - destruct (fs p); [|discriminate]. destruct (load_from_JSON s); [|discriminate]. cbn [bind]. now intros [= <- <-].
  Qed.
  Lemma saved_source fs a text : saved_truncations a text -> exists d, driver_source fs a = Ok (Some text, d).
  Proof.
    intros (values & t & d & Et & Ep & Dv & Es). exists d. unfold driver_source. rewrite Et, Ep.
    rewrite (proj1 (proj2 (make_trunc_exact values d t) Dv)). cbn [bind]. now rewrite Es.
  Qed.

  Theorem run_truncations fs a :
    (forall text, saved_truncations a text -> fst (run fs a) truncations_file = Some text) /\
    ((forall text, ~ saved_truncations a text) -> fst (run fs a) truncations_file = fs truncations_file).
  Proof.
    destruct (driver_main fs a) as [[saved c]|e] eqn:E.
    - pose proof (main_path_other _ _ _ _ E) as Np. rewrite (run_main_ok _ _ _ _ E). cbn zeta.
      assert (X : exists d, driver_source fs a = Ok (saved, d)).
      { rewrite driver_parts in E. destruct (driver_source fs a) as [[sv d]|]; [|discriminate]. cbn [bind fst snd] in E.
        destruct (driver_request a d); [|discriminate]. cbn [bind] in E. injection E as <- _. eauto. }
      destruct X as [d X].
      assert (Y : fst (match generate c with Ok text => (write (match saved with Some t => write fs truncations_file t | None => fs end) (gc_path c) text, Ok tt)
                   | Err e => (match saved with Some t => write fs truncations_file t | None => fs end, Err e) end) truncations_file
                = match saved with Some t => Some t | None => fs truncations_file end).
      { destruct (generate c); cbn [fst]; [rewrite write_other by congruence|]; (destruct saved; [apply write_same|reflexivity]). }
      rewrite Y. split.
      + intros text Hs. destruct (saved_source fs a text Hs) as [d' Hd']. rewrite Hd' in X. injection X as <- _. reflexivity.
      + intros N. pose proof (source_saved _ _ _ _ X) as S. destruct saved; [now apply N in S|reflexivity].
    - rewrite (run_main_err _ _ _ E). cbn [fst]. split.
      + intros text Hs. destruct (saved_source fs a text Hs) as [d' ->]. apply write_same.
      + intros N. destruct (driver_source fs a) as [[[text|] d]|] eqn:X; try reflexivity. pose proof (source_saved _ _ _ _ X) as S. now apply N in S.
  Qed.

  Theorem run_writes fs a fs' : run fs a = (fs', Ok tt) ->
    exists saved c text, driver_main fs a = Ok (saved, c) /\ can_write c /\ content_ok c text /\
      gc_path c <> truncations_file /\ fs' (gc_path c) = Some text /\
      forall p, p <> gc_path c -> p <> truncations_file -> fs' p = fs p.
  Proof.
    intros R. destruct (driver_main fs a) as [[saved c]|e] eqn:E; [|rewrite (run_main_err _ _ _ E) in R; discriminate].
    pose proof (main_complete _ _ _ _ E) as W. pose proof (main_path_other _ _ _ _ E) as Np.
    rewrite (run_main_ok _ _ _ _ E) in R. cbn zeta in R. destruct (generate c) as [text|] eqn:G; [|discriminate].
    injection R as <-. exists saved, c, text. split; [reflexivity|]. split; [apply generate_iff; eauto|]. split; [now apply generate_content|].
    split; [exact Np|]. split; [apply write_same|]. intros p Hp Ht. rewrite write_other by exact Hp. destruct saved; [now apply write_other|reflexivity].
  Qed.

  Theorem run_fails fs a fs' e : run fs a = (fs', Err e) ->
    (forall saved c, driver_main fs a = Ok (saved, c) -> ~ can_write c) /\ forall p, p <> truncations_file -> fs' p = fs p.
  Proof.
    intros R. destruct (driver_main fs a) as [[saved c]|e'] eqn:E.
    - pose proof (main_complete _ _ _ _ E) as W. rewrite (run_main_ok _ _ _ _ E) in R. cbn zeta in R.
      destruct (generate c) as [text|] eqn:G; [discriminate|]. injection R as <- <-. split.
      + intros s' c' [= <- <-] C. apply (generate_iff c W) in C as [t' C]. congruence.
      + intros p Hp. destruct saved; [now apply write_other|reflexivity].
    - rewrite (run_main_err _ _ _ E) in R. injection R as <- _. split; [discriminate|]. intros p Hp.
      destruct (driver_source fs a) as [[[text|] d]|]; try reflexivity. now apply write_other.
  Qed.

  Theorem run_succeeds fs a saved c : driver_main fs a = Ok (saved, c) -> (snd (run fs a) = Ok tt <-> can_write c).
  Proof.
    intros E. rewrite <- (generate_iff c (main_complete _ _ _ _ E)). rewrite (run_main_ok _ _ _ _ E). cbn zeta.
    destruct (generate c); cbn [snd]; split; [intros _; eexists; reflexivity|reflexivity|discriminate|intros [? X]; discriminate].
  Qed.

  (** ** Replaying the saved truncations *)
  Lemma values_acceptable t values d : dict_of_values t values d -> (acceptable t d <-> exactly_valid t d).
  Proof.
    intros Dv. split; [|now intros [A _]]. intros A. split; [exact A|]. intros k v Hin. destruct Dv as [L ->].
    apply in_combine_l in Hin. apply in_map_iff in Hin as ((m & top) & <- & Hin). now exists m, top.
  Qed.

  Lemma verify_assertion t d : is_dict d -> (forall k v, In (k, v) d -> exists m, k = DEnum m) -> ~ acceptable t d ->
    verify_truncations t d = Err AssertionErr.
  Proof.
    intros Hd He N. destruct (verify_truncations t d) as [[]|e] eqn:E; [now apply (verify_exact t d Hd) in E|]. f_equal.
    unfold verify_truncations in E. destruct d as [|kv d]; [now injection E|].
    set (d' := kv :: d) in *. assert (F : forallb (fun kv => is_enum (fst kv)) d' = true).
    { apply forallb_forall. intros [k v] Hin. destruct (He k v Hin) as [m ->]. reflexivity. }
    rewrite F in E. cbn [negb] in E. rewrite (to_strings_ok d' He Hd) in E. cbn [bind] in E. revert E. clear.
    induction (keys_of t) as [|k r IH]; [discriminate|]. cbn [verify_keys].
    destruct (dict_get (map to_str d') (DStr (tkey_value k))) as [v|]; [|now intros [= <-]].
    destruct (negb (1 <=? v)%Z); [now intros [= <-]|]. destruct (negb (v <=? truncation_maximum k)%Z); [now intros [= <-]|exact IH].
  Qed.

  Lemma load_saved_values t values d text : dict_of_values t values d -> save_to_JSON d = Ok text ->
    (exactly_valid t d -> load_from_JSON text = Ok d) /\ (~ exactly_valid t d -> load_from_JSON text = Err AssertionErr).
  Proof.
    intros Dv Es. destruct (dict_of_values_enum _ _ _ Dv) as [He Hd]. pose proof (dict_of_values_length _ _ _ Dv) as Hl.
    assert (X : load_from_JSON text = do _ <- verify_truncations t d; Ok d).
    { destruct (enum_dict_items d He) as [l ->]. rewrite save_text in Es by exact Hd.
      unfold load_from_JSON. replace text with ("{" ++ join ", " (map item_text (named_items l)) ++ "}")%string by congruence. rewrite loads_saved by exact Hd. cbn [bind]. rewrite to_enum_saved by exact Hd. cbn [bind].
      rewrite Hl, type_of_length. cbn [bind]. reflexivity. }
    rewrite X. split.
    - intros V. now rewrite (proj2 (verify_exact t d Hd)) by apply V.
    - intros N. rewrite verify_assertion; [reflexivity|exact Hd|exact He|]. intros A. now apply (values_acceptable _ _ _ Dv) in A.
  Qed.

  Theorem run_replay fs a t values d fs' : arg_t a = Some values -> arg_path a = None -> dict_of_values t values d ->
    run fs a = (fs', Ok tt) ->
    (exactly_valid t d -> snd (run fs' (replay a)) = Ok tt /\ forall p, fst (run fs' (replay a)) p = fs' p) /\
    (~ exactly_valid t d -> run fs' (replay a) = (fs', Err AssertionErr)) /\
    (t <> Zhz -> exactly_valid t d).
  Proof.
    intros Et Ep Dv R. destruct (values_saved t values (proj1 Dv)) as (d0 & text & Dv0 & Es).
    assert (d0 = d) as -> by (destruct Dv0 as [_ ->]; destruct Dv as [_ ->]; reflexivity).
    assert (Sv : saved_truncations a text) by (exists values, t, d; auto).
    destruct (saved_source fs a text Sv) as [d1 S1].
    assert (d1 = d) as ->.
    { unfold driver_source in S1. rewrite Et, Ep in S1. rewrite (proj1 (proj2 (make_trunc_exact values d t) Dv)) in S1. cbn [bind] in S1.
      rewrite Es in S1. cbn [bind] in S1. congruence. }
    assert (Ft : fs' truncations_file = Some text).
    { destruct (run_truncations fs a) as [X _]. specialize (X text Sv). now rewrite R in X. }
    destruct (load_saved_values _ _ _ _ Dv Es) as [Lo Lx].
    assert (R0 := R). unfold ModelRun.run in R. rewrite S1 in R.
    destruct (driver_request a d) as [c|] eqn:Q; [|discriminate]. destruct (generate c) as [out|] eqn:G; [|discriminate]. injection R as <-.
    set (fs' := write (write fs "../truncs.json" text) (gc_path c) out) in *.
    split; [|split].
    - intros V. unfold ModelRun.run.
      assert (S2 : driver_source fs' (replay a) = Ok (None, d)).
      { unfold driver_source. cbn [replay arg_t arg_path]. rewrite Ft, (Lo V). reflexivity. }
      rewrite S2. change (driver_request (replay a) d) with (driver_request a d). rewrite Q, G. cbn [fst snd]. split; [reflexivity|].
      intros p. unfold write at 1. destruct (String.eqb_spec p (gc_path c)) as [->|]; [|reflexivity]. unfold fs'. now rewrite write_same.
    - intros N. unfold ModelRun.run. unfold driver_source. cbn [replay arg_t arg_path]. rewrite Ft, (Lx N). reflexivity.
    - intros Nt. apply (values_acceptable _ _ _ Dv).
      assert (M : driver_main fs a = Ok (Some text, c)) by (rewrite driver_parts, S1; cbn [bind fst snd]; rewrite Q; reflexivity).
      pose proof (main_complete _ _ _ _ M) as W. assert (C : can_write c) by (apply (generate_iff c W); eauto).
      destruct (driver_sound _ _ _ _ M) as (t' & Hs & Hc).
      assert (gc_trunc c = d) as Ed.
      { unfold driver_request in Q. match type of Q with bind ?x _ = _ => destruct x as [an|] end; [|discriminate]. cbn [bind] in Q.
        now apply dispatch_inv in Q as (_ & _ & -> & _). }
      assert (t' = t) as ->.
      { destruct Hs as [(values' & text' & Et' & _ & Dv' & _ & _)|(p & ? & Et' & _)]; [|congruence].
        assert (values' = values) as -> by congruence. destruct Dv' as [L' _]. destruct Dv as [L _].
        rewrite L in L'. destruct t, t'; try reflexivity; discriminate L'. }
      destruct Hc as (_ & Ha & _). unfold can_write in C. rewrite Ed in C. destruct (gc_kind c), (gc_ansatz c); cbn [ansatz_type] in Ha; subst t; tauto.
  Qed.

  (** ** Flags without effect *)
  Lemma generate_same c c' : same_output c c' -> generate c = generate c'.
  Proof.
    destruct c as [k an p d g rf s], c' as [k' an' p' d' g' rf' s']. unfold same_output.
    cbn [gc_kind gc_ansatz gc_trunc gc_ground gc_remove_f gc_side]. intros (-> & -> & -> & X). unfold ModelRun.generate.
    cbn [gc_kind gc_ansatz gc_trunc gc_ground gc_remove_f gc_side]. destruct k', an'.
    - destruct X as [-> ->]. reflexivity.
    - destruct X as [-> ->]. reflexivity.
    - destruct X as (-> & -> & ->). reflexivity.
    - reflexivity.
    - reflexivity.
    - destruct X as [-> ->]. reflexivity.
  Qed.

  Theorem run_same_output fs a a' saved c saved' c' :
    driver_main fs a = Ok (saved, c) -> driver_main fs a' = Ok (saved', c') -> same_output c c' ->
    snd (run fs a) = snd (run fs a') /\
    (snd (run fs a) = Ok tt -> exists text, fst (run fs a) (gc_path c) = Some text /\ fst (run fs a') (gc_path c') = Some text).
  Proof.
    intros E E' S. apply generate_same in S. rewrite (run_main_ok _ _ _ _ E), (run_main_ok _ _ _ _ E'). cbn zeta. rewrite <- S.
    destruct (generate c) as [text|]; cbn [fst snd]; (split; [reflexivity|]); [|discriminate]. intros _. exists text. now rewrite !write_same.
  Qed.
  Lemma can_write_same c c' : gc_kind c = gc_kind c' -> gc_ansatz c = gc_ansatz c' -> gc_trunc c = gc_trunc c' ->
    gc_ground c = gc_ground c' -> gc_side c = gc_side c' -> can_write c -> can_write c'.
  Proof. unfold can_write. intros -> -> -> -> ->. auto. Qed.

  Theorem run_ok_iff fs a : snd (run fs a) = Ok tt <-> exists c, asks fs a c /\ can_write c.
  Proof.
    split.
    - intros R. destruct (run fs a) as [fs' r] eqn:E. cbn [snd] in R. subst r.
      destruct (run_writes _ _ _ E) as (saved & c & text & M & C & _). exists c. split; [|exact C].
      destruct (driver_sound _ _ _ _ M) as (t & X). now exists t, saved.
    - intros (c & (t & saved & So & Co) & C). pose proof Co as (_ & Ht & Hk & Hsd & Hg & _ & Ha & Hz).
      destruct (driver_complete fs a t saved (gc_trunc c) (gc_ansatz c) So Ht Ha) as (c' & M & Co').
      { intros [Z1 Z2]. apply Hz. split; [exact Z1|]. now rewrite Hk, Z2. }
      apply (run_succeeds _ _ _ _ M). destruct Co' as (Hd' & Ht' & Hk' & Hsd' & Hg' & _).
      apply (can_write_same c); try congruence. destruct (gc_ansatz c), (gc_ansatz c'); try reflexivity; cbn [ansatz_type] in *; congruence.
  Qed.

  Lemma asks_main fs a saved c : driver_main fs a = Ok (saved, c) -> asks fs a c.
  Proof. intros M. destruct (driver_sound _ _ _ _ M) as (t & X). now exists t, saved. Qed.

  Theorem run_writes_asked fs a fs' : run fs a = (fs', Ok tt) ->
    exists saved c text, driver_main fs a = Ok (saved, c) /\ asks fs a c /\ can_write c /\ content_ok c text /\
      gc_path c <> truncations_file /\ fs' (gc_path c) = Some text /\
      forall p, p <> gc_path c -> p <> truncations_file -> fs' p = fs p.
  Proof.
    intros R. destruct (run_writes _ _ _ R) as (saved & c & text & M & X). exists saved, c, text. split; [exact M|]. split; [|exact X].
    exact (asks_main _ _ _ _ M).
  Qed.

  Theorem run_fails_asked fs a fs' e : run fs a = (fs', Err e) ->
    (forall c, asks fs a c -> ~ can_write c) /\ forall p, p <> truncations_file -> fs' p = fs p.
  Proof.
    intros R. split; [|exact (proj2 (run_fails _ _ _ _ R))]. intros c A C.
    assert (X : snd (run fs a) = Ok tt) by (apply run_ok_iff; eauto). rewrite R in X. discriminate.
  Qed.

  Theorem run_other_side fs a saved c : driver_main fs a = Ok (saved, c) -> gc_ansatz c <> ETZT ->
    exists c', driver_main fs (other_side a) = Ok (saved, c') /\ gc_path c' <> gc_path c /\
      snd (run fs (other_side a)) = snd (run fs a) /\
      (snd (run fs a) = Ok tt -> exists text, fst (run fs a) (gc_path c) = Some text /\ fst (run fs (other_side a)) (gc_path c') = Some text).
  Proof.
    intros M N. pose proof M as M0. rewrite driver_parts in M.
    destruct (driver_source fs a) as [[sv d]|] eqn:So; [|discriminate]. cbn [bind fst snd] in M.
    destruct (driver_request a d) as [c0|] eqn:Q; [|discriminate]. cbn [bind] in M. injection M as -> ->.
    unfold driver_request in Q. destruct (match arg_ansatz a with Some name => _ | None => _ end) as [an|] eqn:An; [|discriminate].
    cbn [bind] in Q.
    assert (M' : exists c', driver_main fs (other_side a) = Ok (saved, c') /\
      dispatch (if arg_code a then KPython else KLatex) an d (negb (arg_excited a))
         (match arg_remove_f a with Some s => negb (String.eqb s "") | None => false end)
         (if negb (arg_lhs a) then LHS else RHS) = Ok c').
    { destruct (driver_sound _ _ _ _ M0) as (t & Hs & Hc). pose proof Hc as (_ & Ht & Hk & _ & _ & _ & Ha & Hz).
      destruct (driver_complete fs (other_side a) t saved (gc_trunc c) (gc_ansatz c)) as (c' & M' & _).
      - destruct Hs as [Hs|Hs]; [left|right]; exact Hs.
      - exact Ht.
      - exact Ha.
      - intros [Z1 Z2]. apply Hz. split; [exact Z1|]. rewrite Hk. cbn [other_side arg_code] in Z2. now rewrite Z2.
      - exists c'. split; [exact M'|]. rewrite driver_parts in M'.
        change (driver_source fs (other_side a)) with (driver_source fs a) in M'. rewrite So in M'. cbn [bind fst snd] in M'.
        unfold driver_request in M'. cbn [other_side arg_ansatz arg_excited arg_remove_f arg_code arg_lhs] in M'. rewrite An in M'. cbn [bind] in M'.
        match goal with |- ?x = Ok c' => change ((do call <- x; Ok (saved, call)) = Ok (saved, c')) in M'; destruct x as [x0|] end; [|discriminate].
        cbn [bind] in M'. congruence. }
    destruct M' as (c' & M' & Q'). exists c'. split; [exact M'|].
    assert (F : gc_kind c = gc_kind c' /\ gc_ansatz c = gc_ansatz c' /\ gc_trunc c = gc_trunc c' /\ gc_ground c = gc_ground c' /\ gc_remove_f c = gc_remove_f c' /\ gc_side c <> gc_side c').
    { apply dispatch_inv in Q as (-> & -> & -> & -> & -> & -> & _), Q' as (-> & -> & -> & -> & -> & -> & _).
      repeat (split; [reflexivity|]). destruct (arg_lhs a); discriminate. }
    destruct F as (F1 & F2 & F3 & F4 & F5 & F6). split.
    - intros Ep. symmetry in Ep. apply (paths_exact _ _ _ _ _ _ _ _ _ _ _ _ _ _ Q Q') in Ep. now destruct Ep as (_ & _ & Es & _).
    - assert (S : same_output c c').
      { unfold same_output. rewrite <- F1, <- F2. repeat (split; [auto|]). destruct (gc_kind c), (gc_ansatz c); auto; contradiction. }
      destruct (run_same_output _ _ _ _ _ _ _ M0 M' S) as [A B]. split; [now symmetry|exact B].
  Qed.
End Run.
