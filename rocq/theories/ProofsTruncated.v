(** The terms of smaller truncations are the terms within them of larger ones. *)
From Coq Require Import List Arith Bool Lia Permutation Sorted.
From Verif Require Import PyBase ModelFullCC ModelZhz ModelTrunc ModelEt SpecFullCC SpecZhz SpecEt SpecTruncated.
From Verif Require Import ProofsFullCC ProofsZhz ProofsEt.
From Verif Require ProofsEtGen.
Import ListNotations.

Lemma filter_perm {A} (f : A -> bool) (l l' : list A) : NoDup l -> NoDup l' ->
  (forall t, In t l <-> In t l' /\ f t = true) -> Permutation l (filter f l').
Proof.
  intros N N' I. apply NoDup_Permutation; [assumption|now apply NoDup_filter|].
  intros t. rewrite filter_In. apply I.
Qed.

(** ** Full coupled cluster *)
Lemma describes_unique om on hm hn us f fbar hm' hn' us' f' fbar' t cc g cc' g' :
  Forall (amplitude cc g) us -> Forall (amplitude cc' g') us' ->
  describes om on hm hn us f fbar t -> describes om on hm' hn' us' f' fbar' t ->
  hm = hm' /\ hn = hn' /\ us = us' /\ f = f' /\ fbar = fbar'.
Proof.
  intros A A' D D'. unfold describes in *. rewrite D in D'.
  assert (F : factors us = factors us') by (apply (f_equal snd) in D'; exact D').
  pose proof (f_equal (fun t => ch_m (snd (fst t))) D') as M.
  pose proof (f_equal (fun t => ch_n (snd (fst t))) D') as M1.
  pose proof (f_equal (fun t => ch_m_o (snd (fst t))) D') as M2.
  pose proof (f_equal (fun t => ch_n_o (snd (fst t))) D') as M3.
  cbn in M, M1, M2, M3.
  assert (us = us').
  { destruct us as [|u us], us' as [|u' us']; cbn in F; try reflexivity.
    - apply (f_equal (fun l => match l with x :: _ => up x + down x | _ => 0 end)) in F. cbn in F.
      inversion A' as [|? ? [R _] _]. unfold up, down in *. lia.
    - apply (f_equal (fun l => match l with x :: _ => up x + down x | _ => 0 end)) in F. cbn in F.
      inversion A as [|? ? [R _] _]. unfold up, down in *. lia.
    - exact F. }
  auto.
Qed.

Lemma cc_exact so omega H cc S ground rf : set_order so -> 1 <= cc ->
  exists l, full_cc_terms so omega H cc S ground rf = Ok l /\ NoDup l /\
    forall t, In t l <-> exists hm hn us f fbar, in_order us /\
      requested (g_m omega) (g_n omega) H cc S ground rf hm hn us f fbar /\
      describes (g_m omega) (g_n omega) hm hn us f fbar t.
Proof.
  intros so1 C.
  destruct (full_cc_sound so omega H cc S ground rf so1 C) as (l & E & Sd).
  destruct (full_cc_complete so omega H cc S ground rf so1 C) as (l1 & E1 & Cp). assert (l1 = l) by congruence. subst l1.
  destruct (full_cc_once so omega H cc S ground rf so1 C) as (l1 & E2 & N & On). assert (l1 = l) by congruence. subst l1.
  exists l. split; [exact E|]. split; [exact N|]. intros t. split.
  - intros I. destruct (Sd t I) as (hm & hn & us & f & fbar & R & D).
    destruct (Cp _ _ _ _ _ R) as (us' & t' & P & O & D' & I').
    assert (t = t') by (eapply (On t t' hm hn us us' f fbar); eauto; apply R). subst t'.
    exists hm, hn, us', f, fbar. split; [exact O|]. split; [|exact D'].
    destruct R as (R1 & R2 & R3 & (R4 & R5 & R6 & R7) & R8). unfold requested, SpecFullCC.contraction.
    assert (T : forall g : tamp -> nat, total g us = total g us').
    { intros g. clear - P. unfold total. induction P; cbn; lia. }
    rewrite <- !T, <- (Permutation_length P). repeat split; auto. now rewrite <- P.
  - intros (hm & hn & us & f & fbar & O & R & D).
    destruct (Cp _ _ _ _ _ R) as (us' & t' & P & O' & D' & I').
    assert (us = us').
    { clear - O O' P. unfold in_order in *. revert us' P O'. induction O as [|a us O IH Fa]; intros us' P O'.
      - now apply Permutation_nil in P.
      - destruct us' as [|b us']; [now apply Permutation_sym, Permutation_nil in P|].
        inversion O' as [|? ? O'' Fb]; subst.
        assert (a = b).
        { assert (I1 : In a (b :: us')) by (rewrite <- P; now left).
          assert (I2 : In b (a :: us)) by (rewrite P; now left).
          destruct I1 as [->|I1]; [reflexivity|]. destruct I2 as [->|I2]; [reflexivity|].
          rewrite Forall_forall in Fa, Fb. apply Fa in I2. apply Fb in I1. unfold tamp_le in *.
          destruct a, b. cbn in *. f_equal; lia. }
        subst b. f_equal. apply IH; [|assumption]. now apply Permutation_cons_inv in P. }
    subst us'. rewrite D' in I'. now rewrite D.
Qed.

Lemma cc_within_iff om on H cc S ground H' cc' S' ground' rf hm hn us f fbar t :
  requested om on H' cc' S' ground' rf hm hn us f fbar -> describes om on hm hn us f fbar t ->
  (requested om on H cc S ground rf hm hn us f fbar <-> cc_within H cc S ground t = true).
Proof.
  intros (R1 & R2 & R3 & R4 & R5) ->. unfold requested, cc_within.
  rewrite !andb_true_iff, !Nat.leb_le, forallb_forall. cbn [ch_rank fst snd].
  assert (L : List.length (filter proper (factors us)) = List.length us).
  { replace (filter proper (factors us)) with (filter proper us) by (destruct us; reflexivity). clear - R3.
    induction R3 as [|x l [R _] _ IH]; [reflexivity|]. cbn [filter].
    assert (proper x = true) as -> by (unfold proper; apply Nat.leb_le; lia). cbn [List.length]. now rewrite IH. }
  rewrite L. split.
  - intros (A & B & C & _). repeat split; auto. rewrite Forall_forall in C. intros x Ix.
    destruct us as [|u us]; [destruct Ix as [<-|[]]; cbn; destruct ground; reflexivity|]. cbn [factors] in Ix.
    destruct (C x Ix) as [D G]. rewrite andb_true_iff, Nat.leb_le. split; [lia|].
    destruct ground; [|reflexivity]. cbn. apply Nat.eqb_eq. auto.
  - intros ((A & B) & C). repeat split; auto; try apply R4. apply Forall_forall. intros x Ix.
    rewrite Forall_forall in R3. destruct (R3 x Ix) as [D G].
    assert (Ix' : In x (factors us)) by (destruct us; [destruct Ix|exact Ix]).
    specialize (C x Ix'). rewrite andb_true_iff, Nat.leb_le in C. destruct C as [C1 C2].
    split; [lia|]. intros ->. now apply Nat.eqb_eq in C2.
Qed.

Lemma cc_truncated so so' omega H cc S ground H' cc' S' ground' rf : set_order so -> set_order so' ->
  1 <= cc <= cc' -> H <= H' -> S <= S' -> (ground' = true -> ground = true) ->
  exists l l', full_cc_terms so omega H cc S ground rf = Ok l /\ full_cc_terms so' omega H' cc' S' ground' rf = Ok l' /\
    Permutation l (filter (cc_within H cc S ground) l').
Proof.
  intros so1 so2 C LH LS G.
  destruct (cc_exact so omega H cc S ground rf so1) as (l & E & N & I); [lia|].
  destruct (cc_exact so' omega H' cc' S' ground' rf so2) as (l' & E' & N' & I'); [lia|].
  exists l, l'. split; [exact E|]. split; [exact E'|]. apply filter_perm; auto.
  assert (M : forall hm hn us f fbar, requested (g_m omega) (g_n omega) H cc S ground rf hm hn us f fbar ->
     requested (g_m omega) (g_n omega) H' cc' S' ground' rf hm hn us f fbar).
  { intros hm hn us f fbar (R1 & R2 & R3 & R4 & R5). unfold requested. repeat split; try apply R4; try lia; auto.
    eapply Forall_impl; [|exact R3]. intros x [A B]. split; [lia|auto]. }
  intros t. rewrite I, I'. split.
  - intros (hm & hn & us & f & fbar & O & R & D). pose proof (M _ _ _ _ _ R) as R'. split.
    + exists hm, hn, us, f, fbar. auto.
    + now apply (cc_within_iff _ _ _ _ _ _ _ _ _ _ _ _ _ _ _ _ _ R' D).
  - intros ((hm & hn & us & f & fbar & O & R & D) & W). exists hm, hn, us, f, fbar.
    split; [exact O|]. split; [|exact D]. now apply (cc_within_iff _ _ _ _ _ _ _ _ _ _ _ _ _ _ _ _ _ R D).
Qed.

(** ** z t *)
Lemma zt_within_iff H cc ground H' cc' ground' om on k c :
  contracts om on (h_allowed H') (z_allowed cc' ground') (z_allowed cc' ground') k c ->
  (contracts om on (h_allowed H) (z_allowed cc ground) (z_allowed cc ground) k c <->
   zt_within H cc ground (recorded k c) = true).
Proof.
  intros (A1 & A2 & (A3 & A3') & A4 & A5 & A6). unfold contracts, zt_within, recorded, h_allowed, z_allowed in *.
  rewrite !andb_true_iff, Nat.leb_le. cbn [hz_rank].
  assert (Z : forall (b : bool) m n a1 a2 a3 a4 a5 a6,
    z_small cc ground (if b then Some (mkz (m + n) m n a1 a2 a3 a4 a5 a6) else None) = true <->
    (b = true -> m + n <= cc /\ (ground = true -> n = 0))).
  { intros [|] m n a1 a2 a3 a4 a5 a6; cbn; [|split; [discriminate|reflexivity]].
    rewrite andb_true_iff, Nat.leb_le. destruct ground; cbn.
    - rewrite Nat.eqb_eq. intuition.
    - intuition discriminate. }
  rewrite !Z. intuition.
Qed.

Lemma zt_truncated lhs H cc ground H' cc' ground' k :
  H <= H' -> cc <= cc' -> (ground' = true -> ground = true) ->
  exists l l',
    filter_out_valid_z_terms lhs (pruned_hamiltonian H) (sides k (generate_z_operator cc ground) (generate_z_operator cc ground)) = Ok l /\
    filter_out_valid_z_terms lhs (pruned_hamiltonian H') (sides k (generate_z_operator cc' ground') (generate_z_operator cc' ground')) = Ok l' /\
    Permutation l (filter (zt_within H cc ground) l').
Proof.
  intros LH LC G.
  destruct (z_terms_of_ansatz lhs H cc ground k) as (l & E & N & I).
  destruct (z_terms_of_ansatz lhs H' cc' ground' k) as (l' & E' & N' & I').
  exists l, l'. split; [exact E|]. split; [exact E'|]. apply filter_perm; auto.
  intros t. rewrite I, I'. split.
  - intros (c & C & ->).
    assert (C' : contracts (g_m lhs) (g_n lhs) (h_allowed H') (z_allowed cc' ground') (z_allowed cc' ground') k c).
    { destruct C as (A1 & A2 & (A3 & A3') & A4 & A5 & A6). unfold contracts, h_allowed, z_allowed in *.
      repeat split; try assumption; try lia; try apply A4; auto; intros;
        repeat match goal with X : ?b = true -> _, Y : ?b = true |- _ => specialize (X Y) end;
        intuition lia. }
    split; [now exists c|]. now apply (zt_within_iff _ _ _ _ _ _ _ _ _ _ C').
  - intros ((c & C & ->) & W). exists c. split; [|reflexivity]. now apply (zt_within_iff _ _ _ _ _ _ _ _ _ _ C).
Qed.

(** ** e^T *)
Definition ground_zs (cc : nat) (g : bool) : list gop := filter (fun z => Nat.eqb (g_n z) 0) (generate_z_operator cc g).

Lemma ground_zs_in cc g k : (exists z, In z (ground_zs cc g) /\ g_m z = k) <-> k <= cc.
Proof. exact (proj2 (z_ground cc g) k). Qed.

Lemma ground_zs_rank cc g z : In z (ground_zs cc g) -> g_m z <= cc.
Proof. intros I. apply (ground_zs_in cc g). eauto. Qed.

Lemma et_truncated s lhs e e' ser ser' q st st' H cc g H' cc' g' :
  g_m lhs = 0 -> generate_eT_taylor_expansion 1 e = Ok ser -> nth_error ser q = Some st ->
  generate_eT_taylor_expansion 1 e' = Ok ser' -> nth_error ser' q = Some st' ->
  H <= H' -> cc <= cc' ->
  exists l l',
    filter_out_valid_eTz_terms lhs st (generate_pruned_H_operator H) (ground_zs cc g) s = Ok l /\
    filter_out_valid_eTz_terms lhs st' (generate_pruned_H_operator H') (ground_zs cc' g') s = Ok l' /\
    Permutation l (filter (et_within H cc) l').
Proof.
  intros P Es Eq Es' Eq' LH LC.
  destruct (et_terms_exact s lhs e ser q st (generate_pruned_H_operator H) (ground_zs cc g) P (proj1 (z_ground cc g)) (pruned_distinct H) Es Eq) as (l & E & N & I).
  destruct (et_terms_exact s lhs e' ser' q st' (generate_pruned_H_operator H') (ground_zs cc' g') P (proj1 (z_ground cc' g')) (pruned_distinct H') Es' Eq') as (l' & E' & N' & I').
  exists l, l'. split; [exact E|]. split; [exact E'|]. apply filter_perm; auto.
  intros t. rewrite I, I'. unfold contraction_of_lists, et_within. split.
  - intros (h & z & c & Ih & Iz & Al & Cm & ->). apply ProofsEtGen.pruned_in in Ih as [Ih Ih'].
    pose proof (ground_zs_rank _ _ _ Iz) as Rz.
    destruct (ProofsEtGen.in_pruned H' (h_m h) (h_n h)) as (h' & Jh & Em & En); [lia|assumption|].
    destruct (proj2 (ground_zs_in cc' g' (g_m z))) as (z' & Jz & Ez); [lia|].
    split; [exists h', z', c; rewrite Em, En, Ez; auto|].
    cbn [written tt_h tt_z eh_rank ez_rank]. rewrite andb_true_iff, !Nat.leb_le. lia.
  - intros ((h & z & c & Ih & Iz & Al & Cm & ->) & W). apply ProofsEtGen.pruned_in in Ih as [Ih Ih'].
    cbn [written tt_h tt_z eh_rank ez_rank] in W. rewrite andb_true_iff, !Nat.leb_le in W.
    destruct (ProofsEtGen.in_pruned H (h_m h) (h_n h)) as (h' & Jh & Em & En); [lia|assumption|].
    destruct (proj2 (ground_zs_in cc g (g_m z))) as (z' & Jz & Ez); [lia|].
    exists h', z', c. rewrite Em, En, Ez. auto.
Qed.

(** ** Projections *)
Lemma projections_truncated cc P cc' P' : cc <= cc' -> P <= P' ->
  Permutation (generate_omega_operator cc P)
              (filter (fun o => Nat.leb (g_rank o) cc && Nat.leb (g_rank o) P) (generate_omega_operator cc' P')).
Proof.
  intros A B. destruct (projections_exact cc P) as (N & I & _), (projections_exact cc' P') as (N' & I' & _).
  apply filter_perm; auto. intros o. rewrite I, I', andb_true_iff, !Nat.leb_le. unfold projection. intuition lia.
Qed.
