(** Proofs: the document of the z ansatz is the part without amplitudes of the e^T
    module. *)
From Coq Require Import List Arith Bool Factorial String Lia Permutation Ring.
From Verif Require Import PyBase PyBaseFacts ModelFullCC ModelZhz ModelEt ModelEtPy SpecFullCC SpecFullCCLatex SpecZhz SpecEt SpecEtPy SpecEtLatex SpecPython SpecEtText SpecEinsum SpecFullCCValue SpecEtValue SpecEtBoth SpecZhzValue
  ProofsEinsum ProofsWValue ProofsFullCCValue ProofsZhzFile ProofsZhzEquation ProofsEtValue ProofsEtShift ProofsEtBoth.
Import ListNotations.
Local Open Scope nat_scope.
Local Open Scope list_scope.

(** The kind of a product h z of the ground state. *)
Definition hz_kind (c : pairing nat) : pairs := mkpairs (c_rp c) (c_rh c) 0 (c_hp c) 0.
Definition of_kind (k : pairs) : pairing nat := mkpairing 0 0 0  0 0 0  (k_hp k) 0 0  (k_zp k) 0 (k_zh k).

Notation hz_contracts p H CC := (contracts 0 p (h_allowed H) (z_allowed CC true) (z_allowed CC true) right_only).

Lemma hz_shape p H CC c : hz_contracts p H CC c -> c = of_kind (hz_kind c).
Proof.
  destruct c as [a1 a2 a3 b1 b2 b3 d1 d2 d3 e1 e2 e3].
  intros (Pu & _ & _ & (Fl & _) & _ & Zr). specialize (Fl eq_refl). destruct (Zr eq_refl) as [_ Z]. specialize (Z eq_refl).
  unfold p_up, l_up, l_down, r_down in *. cbn in *. unfold of_kind, hz_kind. cbn. f_equal; lia.
Qed.

Lemma hz_pairs p H CC c : hz_contracts p H CC c -> In (hz_kind c) (filter (has_operators RHS H CC) (all_paired H p 0 0)).
Proof.
  intros C. pose proof (hz_shape p H CC c C) as E. rewrite E in C. clear E. rewrite <- kinds_of_equation.
  destruct C as (_ & Pd & Ha & _ & _ & Zr). destruct (Zr eq_refl) as [Lz _]. unfold p_down, h_up, h_down, r_up, r_down in *. cbn in *.
  unfold eT_pairs, k_up, k_down, k_z, k_t, allowed_on. cbn. destruct Ha as [H1 H2]. unfold h_allowed. repeat split; try lia. discriminate.
Qed.

Lemma pairs_hz p H CC k : In k (filter (has_operators RHS H CC) (all_paired H p 0 0)) -> hz_contracts p H CC (of_kind k) /\ hz_kind (of_kind k) = k.
Proof.
  rewrite <- kinds_of_equation. destruct k as [zp zh zt hp ht]. unfold eT_pairs, k_up, k_down, k_z, k_t. cbn.
  intros (E & (H1 & H2) & Lz & Lt & _). assert (zt = 0) by lia. assert (ht = 0) by lia. subst zt ht. split; [|reflexivity].
  unfold contracts, p_up, p_down, h_up, h_down, h_allowed, fits_kind, l_up, l_down, r_up, r_down, z_allowed. cbn.
  repeat split; intros; try discriminate; lia.
Qed.

Lemma hz_perm p H CC cs : NoDup cs -> (forall c, In c cs <-> hz_contracts p H CC c) ->
  Permutation (map hz_kind cs) (filter (has_operators RHS H CC) (all_paired H p 0 0)).
Proof.
  intros Nd I. apply NoDup_Permutation.
  - apply NoDup_map_inj; [exact Nd|]. intros c d Ic Id E. apply I in Ic, Id. rewrite (hz_shape _ _ _ _ Ic), (hz_shape _ _ _ _ Id). now rewrite E.
  - apply NoDup_filter, nodup_all_paired.
  - intros k. rewrite in_map_iff. split.
    + intros (c & <- & Ic). apply hz_pairs. now apply I.
    + intros Ik. destruct (pairs_hz p H CC k Ik) as [C E]. exists (of_kind k). split; [exact E|now apply I].
Qed.

Section Numbers.
  Variable F : scalars.
  Add Ring Kr : (k_ring F).
  Variables A N : nat.
  Variable args : string -> nat * nat -> array F.

  Lemma hz_weighted p H CC c is a : hz_contracts p H CC c ->
    hz_value F A N args is a c = weighted_value F A N args RHS (hz_kind c) is a.
  Proof.
    intros C. rewrite (hz_shape p H CC c C). destruct c as [a1 a2 a3 b1 b2 b3 d1 d2 d3 e1 e2 e3].
    unfold hz_value, weighted_value, paired_value, hz_kind, of_kind, h_on_z, pair_factorials, h_up, h_down, r_up, k_up, k_down, k_z, t_product. cbn.
    rewrite !Nat.add_0_r, !Nat.mul_1_r. f_equal; [f_equal; lia|]. rewrite !sum_tuples. apply ksum_ext. intros x _. cbn. unfold sum_below.
    match goal with |- ?l = kmul F (kmul F (kone F) (kone F)) ?r => transitivity r; [reflexivity|ring] end.
  Qed.

  Lemma hz_total p H CC cs is a : NoDup cs -> (forall c, In c cs <-> hz_contracts p H CC c) ->
    hz_sum F A N args cs is a = selected_value F A N args RHS (has_operators RHS H CC) (all_paired H p 0 0) is a.
  Proof.
    intros Nd I. rewrite selected_filter. unfold hz_sum.
    rewrite (ksum_ext F (hz_value F A N args is a) (fun c => weighted_value F A N args RHS (hz_kind c) is a)) by (intros c Ic; apply (hz_weighted p H CC); now apply I).
    rewrite <- (map_map hz_kind (fun k => weighted_value F A N args RHS k is a)). apply ksum_perm, Permutation_map. now apply hz_perm.
  Qed.
End Numbers.

(** The section of a projection. *)
Lemma section_of H CC o : forall q os text, z_sections H CC q os text -> In o os ->
  exists before eqn after, z_equation_text (g_m o) (g_n o) H CC eqn /\ text = (before ++ z_align_text (g_m o) (g_n o) eqn ++ after)%string.
Proof.
  intros q os text S. induction S as [|q o' r eqn text Q _ IH]; intros []; [subst o'|].
  - match goal with |- context [(?x ++ comment_lines ++ ?t ++ comment_lines ++ _)%string] => exists (x ++ comment_lines ++ t ++ comment_lines)%string end.
    exists eqn, text. split; [exact Q|]. now rewrite !str_app_assoc.
  - destruct (IH H0) as (b & e & a & Qe & ->).
    match goal with |- context [(?x ++ comment_lines ++ ?t ++ comment_lines ++ ?z ++ b ++ _)%string] => exists (x ++ comment_lines ++ t ++ comment_lines ++ z ++ b)%string end.
    exists e, a. split; [exact Qe|]. now rewrite !str_app_assoc.
Qed.

Lemma annihilators p : exists name, spells name 0 p.
Proof. exists (string_of_list_ascii (repeat "b"%char p)). unfold spells. apply list_ascii_of_string_of_list_ascii. Qed.

Lemma hz_document_prints H CC P rf text p : (H <= 5 \/ CC <= 5) -> (CC <= 7 \/ P <= 7) -> generate_z_t_symmetric_latex H CC P true rf = Ok text -> p <= CC -> p <= P ->
  exists cs, prints_hz_sum p text cs /\ NoDup cs /\ forall c, In c cs <-> hz_contracts p H CC c.
Proof.
  intros L1 L2 G Lc Lp. destruct (z_file_ok H CC rf L1 P L2) as (text' & G' & os & body & _ & Io & _ & S & E). rewrite G in G'. injection G' as <-. clear G.
  destruct (annihilators p) as [name Sp].
  destruct (section_of H CC (mkgop name p 0 p) None os body S) as (b & eqn & a & (cs & ss & Nd & Ic & Ft & Ee) & Eb).
  { apply Io. unfold projection. cbn. auto. }
  cbn [g_m g_n] in *. exists cs. split; [|split; [exact Nd|exact Ic]]. set (note := if rf then _ else _) in E. clearbody note.
  set (trail := ("(1-\delta_{cb})" ++ "\\&-i\sum\Big(" ++ String.concat " + " (map (dt_z_text 0 p) (seq 0 (p + 1))) ++ "\Big)")%string).
  exists (note ++ b)%string, (a ++ "\end{document}")%string, (h_alone_text 0 p), trail, ss. split; [|exact Ft].
  assert (X : ("\Big)(1-\delta_{cb})" ++ "\\&-i\sum\Big(" ++ String.concat " + " (map (dt_z_text 0 p) (seq 0 (p + 1))) ++ "\Big)" = "\Big)" ++ trail)%string) by (subst trail; reflexivity).
  rewrite X in Ee. clearbody trail. rewrite <- Ee, E, Eb, !str_app_assoc. reflexivity.
Qed.

Lemma hz_both ground H CC e P P' rf text prog doc : 1 <= CC <= 5 \/ (1 <= CC <= 7 /\ H <= 5) ->
  generate_eT_zhz_python RHS ground H CC 1 e P = Ok text -> python text prog -> generate_z_t_symmetric_latex H CC P' true rf = Ok doc ->
  forall p, p <= CC -> p <= P -> p <= P' ->
    exists cs, prints_hz_sum p doc cs /\ NoDup cs /\ (forall c, In c cs <-> hz_contracts p H CC c) /\
      forall opt, exists b, ground_branch prog (terms_head RHS p "HZ" opt) b /\
        forall flag, (forall c, flag c = true) -> exists l, body_runs RHS flag b l /\
          forall F A N args, eT_axes F A N args -> forall a is, List.length is = p ->
            kadd F (eT_added F args l (a :: is)) (bare_value F A args RHS p is a) = hz_sum F A N args cs is a.
Proof.
  intros HC G Py D p Lc L1 L2. destruct (hz_document_prints H CC P' rf doc p ltac:(lia) ltac:(lia) D Lc L2) as (cs & Pc & Nd & Ic).
  exists cs. split; [exact Pc|]. split; [exact Nd|]. split; [exact Ic|]. intros opt.
  destruct (file_value RHS ground H CC e P text prog ltac:(lia) G Py p opt Lc L1) as ((d1 & b1 & o1 & I1 & _ & V1) & _).
  exists b1. split; [exists d1, o1; exact I1|]. intros flag T. destruct (V1 flag) as (l1 & R1 & W1). exists l1. split; [exact R1|].
  intros F A N args Ax a is Li. destruct (W1 F A N args Ax) as [_ E1]. rewrite (E1 a is Li), (hz_total F A N args p H CC cs is a Nd Ic).
  pose proof (equation_total F A N args RHS H CC p 0 flag is a Lc (all_allowed _ _ T)) as X.
  transitivity (selected_value F A N args RHS (fun k => has_operators RHS H CC k && allowed flag k) (all_paired H p 0 0) is a).
  - rewrite <- X. assert (Z : forall f, selected_value F A N args RHS f (all_paired H p 1 0) is a = kzero F) by reflexivity. rewrite Z. f_equal.
    symmetry. rewrite (Radd_comm (k_ring F)). apply (Radd_0_l (k_ring F)).
  - unfold selected_value. apply ksum_ext. intros k _. now rewrite (all_allowed flag k T), andb_true_r.
Qed.
