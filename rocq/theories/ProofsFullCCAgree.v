(** The python code of the full coupled cluster equations computes the LaTeX
    equations. *)
From Coq Require Import List Arith NArith Lia Bool Ascii String Permutation.
From Verif Require Import PyBase PyBaseFacts PyStr ModelFullCC ModelPrefactor ModelFullCCPy SpecFullCC SpecPrefactor SpecFullCCPy SpecFullCCLatex SpecPython SpecEtText SpecFullCCText
  SpecFullCCPlaces SpecFullCCComplete SpecFullCCAgree ProofsStr ProofsFullCC ProofsFullCCPy ProofsFullCCText ProofsFullCCPlaces
  ProofsFullCCComplete ProofsFullCCDistinct ProofsFullCCBags ProofsFullCCEvery.
Import ListNotations.

Lemma nodup_splits {A} (l : list A) : (forall l1 x l2, l = (l1 ++ x :: l2)%list -> ~ In x (l1 ++ l2)) -> NoDup l.
Proof.
  induction l as [|a l IH]; intros E; constructor; [exact (E [] a l eq_refl)|]. apply IH. intros l1 x l2 ->. intros I.
  apply (E (a :: l1) x l2 eq_refl). now right.
Qed.
Definition has_amplitudes (t : term) : bool := match snd t with [x] => negb (tamp_eqb x (mkt 0 0 0 0)) | _ => true end.

Lemma no_trivial cc us : Forall (amplitude cc true) us -> us <> [mkt 0 0 0 0].
Proof. intros F ->. apply Forall_inv in F as [[X _] _]. unfold up, down in X. cbn in X. lia. Qed.
Lemma factors_cons us : us <> [] -> factors us = us.
Proof. destruct us; [congruence|reflexivity]. Qed.
Lemma has_iff t : has_amplitudes t = true <-> snd t <> [mkt 0 0 0 0].
Proof.
  unfold has_amplitudes. destruct (snd t) as [|x [|y r]]; try (split; [discriminate|reflexivity]).
  rewrite negb_true_iff. split.
  - intros E X. injection X as ->. discriminate E.
  - intros N. apply not_true_iff_false. intros E. apply tamp_eqb_eq in E. congruence.
Qed.
Lemma has_describes m n hm hn us f fbar t : describes m n hm hn us f fbar t -> has_amplitudes t = true <-> us <> [] /\ us <> [mkt 0 0 0 0].
Proof.
  intros ->. rewrite has_iff. cbn [snd]. destruct us as [|x us]; cbn [factors]; [split; [congruence|intros [X _]; congruence]|].
  split; [intros X; split; [discriminate|exact X]|intros [_ X]; exact X].
Qed.
Lemma requested_perm m n H cc S g rf hm hn us us' f fbar : Permutation us us' -> requested m n H cc S g rf hm hn us f fbar -> requested m n H cc S g rf hm hn us' f fbar.
Proof.
  intros P (R1 & R2 & R3 & R4 & R5). split; [exact R1|]. split; [now rewrite <- (Permutation_length P)|].
  split; [eapply Permutation_Forall; eassumption|]. split; [|exact R5]. unfold contraction in *. now rewrite <- !(total_perm _ _ _ P).
Qed.
Lemma realises_perm m n hm hn f fbar us us' e : Permutation us us' -> realises m n hm hn f fbar us e -> realises m n hm hn f fbar us' e.
Proof.
  intros P (mid & su & sl & eu & el & out & fs & Q & F & E1 & E2 & L & R). exists mid, su, sl, eu, el, out, fs.
  split; [now rewrite Q|]. split; [exact F|]. split; [exact E1|]. split; [exact E2|]. split; [rewrite L; now apply Permutation_length|exact R].
Qed.
Lemma different_unique us x y : different_connected us x -> different_connected us y -> x = y.
Proof. intros A B. apply connected_is in A, B. congruence. Qed.

Section Group.
  Variables H cc S m n : nat.
  Variable kind : list tamp -> Prop.
  Hypothesis Kp : forall us us', Permutation us us' -> kind us -> kind us'.
  Variable l : list term.
  Hypothesis Nl : NoDup l.
  Hypothesis Il : forall t, In t l <-> exists hm hn us f fbar, requested m n H cc S true true hm hn us f fbar /\ SpecFullCC.in_order us /\ kind us /\ describes m n hm hn us f fbar t.

  Definition linked_to (cs : list chosen) (t : term) (c : chosen) : Prop :=
    exists hm hn us f fbar, requested m n H cc S true true hm hn us f fbar /\ SpecFullCC.in_order us /\ kind us /\ describes m n hm hn us f fbar t /\ us <> [] /\
      In c cs /\ same_contraction c hm hn us.

  Lemma linked_inj cs t t' c : linked_to cs t c -> linked_to cs t' c -> t = t'.
  Proof.
    intros (hm & hn & us & f & fb & R & O & _ & D & _ & _ & S1 & S2 & S3) (hm' & hn' & us' & f' & fb' & R' & O' & _ & D' & _ & _ & S1' & S2' & S3').
    assert (us = us').
    { rewrite <- (isort_in_order us O), <- (isort_in_order us' O'). apply isort_tamp_ext. now rewrite S3'. }
    apply requested_ground in R as (_ & Z1 & _ & Z2 & _). apply requested_ground in R' as (_ & Z1' & _ & Z2' & _).
    unfold describes in *. subst. congruence.
  Qed.

  Lemma group_implements prog g : adds_every prog H cc S m n g kind -> implements prog m n g l.
  Proof.
    intros (bares & what & cs & Df & Nb & Ib & Fc & Cov & W). rewrite Forall_forall in Fc.
    set (ts := filter has_amplitudes l).
    assert (It : forall t, In t ts <-> In t l /\ with_amplitudes m n t).
    { intros t. unfold ts. rewrite filter_In. split; intros [I A]; (split; [exact I|]).
      - apply Il in I as (hm & hn & us & f & fb & R & O & K & D). apply (has_describes _ _ _ _ _ _ _ _ D) in A. exists hm, hn, us, f, fb. auto.
      - destruct A as (hm & hn & us & f & fb & D & A). now apply (has_describes _ _ _ _ _ _ _ _ D). }
    assert (Ex : forall t, In t ts -> exists c, linked_to cs t c).
    { intros t I. apply It in I as [I (hm1 & hn1 & us1 & f1 & fb1 & D1 & A1)]. apply Il in I as (hm & hn & us & f & fb & R & O & K & D).
      assert (N : us <> []).
      { apply (has_describes _ _ _ _ _ _ _ _ D1) in A1. now apply (has_describes _ _ _ _ _ _ _ _ D) in A1. }
      destruct (Cov hm hn us f fb R K N) as (before & c & after & E & Sm & _). exists c, hm, hn, us, f, fb.
      split; [exact R|]. split; [exact O|]. split; [exact K|]. split; [exact D|]. split; [exact N|]. split; [|exact Sm]. rewrite E. apply in_or_app. right. now left. }
    assert (Cs : exists cs', Forall2 (linked_to cs) ts cs').
    { clear It. induction ts as [|t r IH]; [exists []; constructor|]. destruct IH as [cs' F]; [intros x I; apply Ex; now right|].
      destruct (Ex t (or_introl eq_refl)) as [c C]. exists (c :: cs'). now constructor. }
    destruct Cs as [cs' F].
    assert (Nt : NoDup ts) by now apply NoDup_filter.
    assert (Un : forall c c' hm hn us f fbar, requested m n H cc S true true hm hn us f fbar -> kind us -> us <> [] -> In c cs -> In c' cs ->
      same_contraction c hm hn us -> same_contraction c' hm hn us -> c = c').
    { intros c c' hm hn us f fb R K N Ic Ic' Sc Sc'. destruct (Cov hm hn us f fb R K N) as (before & c0 & after & E & _ & U).
      assert (X : forall x, In x cs -> same_contraction x hm hn us -> x = c0).
      { intros x Ix Sx. rewrite E in Ix. apply in_app_or in Ix as [Ix|[Ix|Ix]]; [|now symmetry|]; destruct (U x); auto; apply in_or_app; auto. }
      rewrite (X c Ic Sc), (X c' Ic' Sc'). reflexivity. }
    assert (Nc : NoDup cs).
    { apply nodup_splits. intros l1 c l2 E I. assert (Ic : In c cs) by (rewrite E; apply in_or_app; right; now left).
      destruct (Fc c Ic) as (N & R & K & _). destruct (Cov _ _ _ _ _ R K N) as (before & c0 & after & E' & Sm & U).
      assert (Sc : same_contraction c (c_m c) (c_n c) (c_us c)) by (split; [reflexivity|split; reflexivity]).
      assert (c0 = c) as -> by (apply (Un c0 c _ _ _ _ _ R K N); [rewrite E'; apply in_or_app; right; now left|exact Ic|exact Sm|exact Sc]).
      apply (U c); [|exact Sc]. rewrite E in E'. eapply Permutation_in; [|exact I]. apply (Permutation_cons_inv (a := c)).
      rewrite !Permutation_middle. now rewrite E'. }
    assert (Nc' : NoDup cs').
    { clear It Ex. induction F as [|t c ts0 cs0 L F IH]; [constructor|]. apply NoDup_cons_iff in Nt as [Nt1 Nt2]. constructor; [|now apply IH].
      intros I. apply Nt1. clear - F I L. induction F as [|t' c' ts0 cs0 L' F IH]; [destruct I|]. destruct I as [->|I]; [left; symmetry; now apply (linked_inj cs t t' c)|right; now apply IH]. }
    assert (Pc : Permutation cs cs').
    { apply NoDup_Permutation; [exact Nc|exact Nc'|]. intros c. split; intros I.
      - destruct (Fc c I) as (N & R & K & _). set (us := isort tamp_leb (c_us c)).
        assert (P : Permutation (c_us c) us) by apply isort_perm.
        assert (N' : us <> []) by (intros E; apply N; rewrite E in P; now apply Permutation_nil, Permutation_sym).
        pose proof (requested_perm _ _ _ _ _ _ _ _ _ _ _ _ _ P R) as R'. assert (K' : kind us) by now apply (Kp (c_us c)).
        set (t := (mkco (m + n) m n (c_f c) (c_fbar c) (map n_o (factors us)) (map m_o (factors us)),
                   mkch (c_m c + c_n c) (c_m c) (c_n c) (c_fbar c) (c_f c) (map n_h (factors us)) (map m_h (factors us)), factors us)).
        assert (D : describes m n (c_m c) (c_n c) us (c_f c) (c_fbar c) t) by reflexivity.
        assert (J : In t ts).
        { apply It. split.
          - apply Il. exists (c_m c), (c_n c), us, (c_f c), (c_fbar c). split; [exact R'|]. split; [apply in_order_isort|]. now split.
          - exists (c_m c), (c_n c), us, (c_f c), (c_fbar c). split; [exact D|]. split; [exact N'|]. destruct R' as (_ & _ & F' & _). now apply (no_trivial cc). }
        assert (Y : exists c', In c' cs' /\ linked_to cs t c').
        { clear - F J. induction F as [|t' c' ts0 cs0 L F IH]; [destruct J|]. destruct J as [->|J]; [exists c'; split; [now left|exact L]|].
          destruct (IH J) as (c1 & A & B). exists c1. split; [now right|exact B]. }
        destruct Y as (c' & Ic' & L'). pose proof L' as (hm & hn & us1 & f & fb & R1 & O1 & K1 & D1 & N1 & I1 & S1).
        replace c with c'; [exact Ic'|]. assert (E : us1 = us).
        { pose proof (f_equal snd (eq_trans (eq_sym D) D1)) as E. cbn [snd] in E. rewrite (factors_cons us N'), (factors_cons us1 N1) in E. now symmetry. }
        assert (E1 : c_m c = hm /\ c_n c = hn) by (pose proof (f_equal (fun t => (ch_m (snd (fst t)), ch_n (snd (fst t)))) (eq_trans (eq_sym D) D1)) as E1; cbn in E1; now injection E1). destruct E1 as [E1 E2].
        apply (Un c' c hm hn us1 f fb R1 K1 N1 I1 I S1). split; [exact E1|]. split; [exact E2|]. rewrite E. now symmetry.
      - clear - F I. induction F as [|t' c' ts0 cs0 L F IH]; [destruct I|]. destruct I as [->|I]; [|now apply IH].
        destruct L as (? & ? & ? & ? & ? & _ & _ & _ & _ & _ & X & _). exact X. }
    exists bares, what, ts, cs'. split; [exact Df|]. split; [exact Nb|]. split; [|split; [exact Nt|split; [exact It|split]]].
    - intros hm hn. rewrite Ib. split.
      + intros (f & fb & R & K). eexists. exists f, fb. split; [|reflexivity]. apply Il. exists hm, hn, [], f, fb. split; [exact R|]. split; [constructor|]. now split.
      + intros (t & f & fb & I & D). apply Il in I as (hm' & hn' & us & f' & fb' & R & O & K & D'). assert (us = []).
        { destruct us as [|x us]; [reflexivity|]. pose proof (f_equal snd (eq_trans (eq_sym D) D')) as E. cbn [snd factors] in E. destruct R as (_ & _ & F' & _).
          exfalso. apply (no_trivial _ _ F'). now symmetry. }
        subst us. pose proof (f_equal (fun t => (ch_m (snd (fst t)), ch_n (snd (fst t)))) (eq_trans (eq_sym D) D')) as E1. cbn in E1. injection E1 as <- <-. eauto.
    - clear - F Fc. induction F as [|t c ts0 cs0 L F IH]; constructor; [|exact IH].
      destruct L as (hm & hn & us & f & fb & R & O & K & D & N & Ic & S1 & S2 & S3). destruct (Fc c Ic) as (N' & R' & K' & Rp & Fr & X1 & X2).
      pose proof (requested_ground _ _ _ _ _ _ _ _ _ _ R) as (_ & Z1 & _ & Z2 & _). pose proof (requested_ground _ _ _ _ _ _ _ _ _ _ R') as (_ & Z1' & _ & Z2' & _).
      exists hm, hn, us, f, fb. split; [exact D|]. split; [exact N|]. split; [|split; [|split; [|split]]].
      + eapply Forall_impl; [|exact Fr]. intros e Re. apply (realises_perm _ _ _ _ _ _ (c_us c)); [now symmetry|]. replace (c_f c) with f in Re by congruence. replace (c_fbar c) with fb in Re by congruence. now rewrite S1, S2 in Re.
      + unfold place_of. rewrite S1, S2. symmetry. now apply place_perm.
      + intros num den Pf. destruct Rp as (x & num' & den' & E & _ & Dx & V). exists num', den'. split; [exact E|].
        unfold prefactor_of in Pf. destruct us as [|u us]; [congruence|]. destruct Pf as (y & Dy & V' & _).
        assert (x = y).
        { apply (different_unique (u :: us)); [|exact Dy]. destruct Dx as (d & Nd & Id & Ed). exists d. split; [exact Nd|]. split; [|exact Ed].
          intros t0. rewrite Id. split; intros [A B]; (split; [|exact B]); [now apply (Permutation_in _ (Permutation_sym S3))|now apply (Permutation_in _ S3)]. }
        subst y. rewrite S1, S2, <- (Permutation_length S3) in V. set (A := fact hm * fact hn * fact (List.length (u :: us))) in *.
        assert (HA : A <> 0) by (unfold A; pose proof (fact_neq_0 hm); pose proof (fact_neq_0 hn); pose proof (fact_neq_0 (List.length (u :: us))); lia).
        apply (proj1 (Nat.mul_cancel_l _ _ A HA)). 
        transitivity ((fact_product num * A) * fact_product den'); [lia|]. rewrite V'. transitivity ((fact_product num' * A) * fact_product den); [|lia]. rewrite V. lia.
      + rewrite (Permutation_length S3). exact X1.
      + rewrite (Permutation_length S3). exact X2.
    - intros fh ft. rewrite (W fh ft). now apply Permutation_flat_map.
  Qed.
End Group.

(** ** The three groups of an equation *)
Lemma nodup_parts {A} (a b c : list A) : NoDup (a ++ b ++ c) -> NoDup a /\ NoDup b /\ NoDup c.
Proof.
  assert (L : forall (x y : list A), NoDup (x ++ y) -> NoDup x).
  { intros x y. induction x as [|u x IH]; [constructor|]. cbn. intros N. apply NoDup_cons_iff in N as [N1 N2]. constructor; [|now apply IH].
    intros I. apply N1, in_or_app. now left. }
  intros N. split; [now apply L in N|]. apply nodup_right in N. split; [now apply L in N|now apply nodup_right in N].
Qed.
Lemma equation_groups m n H cc S fully linked_ unlinked_ : equation_terms m n H cc S true true fully linked_ unlinked_ ->
  Forall2 (fun kind l => NoDup l /\ forall t, In t l <-> exists hm hn us f fbar,
    requested m n H cc S true true hm hn us f fbar /\ SpecFullCC.in_order us /\ kind us /\ describes m n hm hn us f fbar t) (kinds m n) [fully; linked_; unlinked_].
Proof.
  intros (N & I & K). apply nodup_parts in N as (N1 & N2 & N3).
  assert (X1 : forall us, fully_connected us -> ~ linked m n us).
  { intros us F [(t & J & D) _]. unfold fully_connected in F. rewrite Forall_forall in F. now apply (F t J). }
  assert (X2 : forall us, fully_connected us -> ~ unlinked m n us).
  { intros us F (t & J & D & _). unfold fully_connected in F. rewrite Forall_forall in F. now apply (F t J). }
  assert (X3 : forall us, linked m n us -> ~ unlinked m n us).
  { intros us [_ F] (t & J & D & E). now apply (F t J D). }
  assert (A : forall t, In t fully \/ In t linked_ \/ In t unlinked_ <-> In t (fully ++ linked_ ++ unlinked_)%list).
  { intros t. rewrite !in_app_iff. reflexivity. }
  repeat constructor; try assumption.
  - intros J. pose proof (proj1 (I t) (proj1 (A t) (or_introl J))) as (hm & hn & us & f & fb & R & O & D).
    exists hm, hn, us, f, fb. destruct (K t hm hn us f fb R D) as (K1 & K2 & K3). auto.
  - intros (hm & hn & us & f & fb & R & O & Ku & D). destruct (K t hm hn us f fb R D) as (K1 & K2 & K3).
    destruct (proj2 (A t)) as [J|[J|J]]; [apply I; exists hm, hn, us, f, fb; auto|exact J| |].
    + destruct (X1 us Ku (K2 J)).
    + destruct (X2 us Ku (K3 J)).
  - intros J. pose proof (proj1 (I t) (proj1 (A t) (or_intror (or_introl J)))) as (hm & hn & us & f & fb & R & O & D).
    exists hm, hn, us, f, fb. destruct (K t hm hn us f fb R D) as (K1 & K2 & K3). auto.
  - intros (hm & hn & us & f & fb & R & O & Ku & D). destruct (K t hm hn us f fb R D) as (K1 & K2 & K3).
    destruct (proj2 (A t)) as [J|[J|J]]; [apply I; exists hm, hn, us, f, fb; auto| |exact J|].
    + destruct (X1 us (K1 J) Ku).
    + destruct (X3 us Ku (K3 J)).
  - intros J. pose proof (proj1 (I t) (proj1 (A t) (or_intror (or_intror J)))) as (hm & hn & us & f & fb & R & O & D).
    exists hm, hn, us, f, fb. destruct (K t hm hn us f fb R D) as (K1 & K2 & K3). auto.
  - intros (hm & hn & us & f & fb & R & O & Ku & D). destruct (K t hm hn us f fb R D) as (K1 & K2 & K3).
    destruct (proj2 (A t)) as [J|[J|J]]; [apply I; exists hm, hn, us, f, fb; auto| | |exact J].
    + destruct (X2 us (K1 J) Ku).
    + destruct (X3 us (K2 J) Ku).
Qed.

Lemma cc_agree sot so son soc H cc S P text prog :
  set_order sot -> set_order so -> set_order son -> set_order soc -> 1 <= cc <= 6 -> S <= 6 -> H <= 5 -> ~ loses H cc S P ->
  generate_full_cc_python sot so son soc H cc S P = Ok text -> python text prog ->
  forall m n, m + n <= cc -> m + n <= P ->
  forall fully linked_ unlinked_, equation_terms m n H cc S true true fully linked_ unlinked_ ->
    Forall2 (implements prog m n) groups [fully; linked_; unlinked_].
Proof.
  intros Hsot Hso Hson Hsoc C1 C2 C3 L E R m n A B fully linked_ unlinked_ Et.
  pose proof (cc_file_every sot so son soc H cc S P text prog Hsot Hso Hson Hsoc C1 C2 C3 L E R m n A B) as F.
  apply equation_groups in Et. pose proof (kind_perm m n) as Kp.
  revert F Et Kp. generalize (kinds m n) groups [fully; linked_; unlinked_]. intros ks gs ls F. revert ls.
  induction F as [|g k gs ks G F IH]; intros ls Et Kp; inversion Et as [|k' l ks' ls' [Nl Il] Et']; subst; constructor.
  - apply (group_implements H cc S m n k (fun us us' => Kp k (or_introl eq_refl) us us') l Nl Il prog g G).
  - apply IH; [exact Et'|]. intros k0 I0. apply Kp. now right.
Qed.

(** ** How often a term is added *)
Lemma fact_one k : fact k = 1 -> k <= 1.
Proof. destruct k as [|[|k]]; intros E; [lia|lia|]. cbn [fact] in E. pose proof (fact_neq_0 k). nia. Qed.
Lemma how_often m n t c : computes m n t c -> (List.length (c_calls c) = 1 <-> List.length (snd t) = 1 /\ m + n <= 1).
Proof.
  intros (hm & hn & us & f & fb & D & N & _ & _ & _ & X1 & X2). assert (snd t = us) as -> by (rewrite D; cbn [snd]; now apply factors_cons).
  destruct us as [|a [|b us]]; [congruence| |].
  - destruct (X1 eq_refl) as [e ->]. rewrite repeat_length. split.
    + intros E. apply fact_one in E. now split.
    + intros [_ E]. destruct (m + n) as [|[|k]]; [reflexivity|reflexivity|lia].
  - destruct X2 as [_ ->]; [cbn; lia|]. split; [|intros [E _]; discriminate E]. intros E. apply fact_one in E. cbn in E. lia.
Qed.

Lemma cc_twice sot so son soc H cc S P text prog :
  set_order sot -> set_order so -> set_order son -> set_order soc -> 2 <= cc <= 6 -> 1 <= S <= 6 -> H <= 5 -> 2 <= P -> ~ loses H cc S P ->
  generate_full_cc_python sot so son soc H cc S P = Ok text -> python text prog ->
  exists bares what p e rest,
    defines_cc_terms prog 0 2 false ("unlinked_disconnected", "unlinked")%string (branch_does (sum_adds einsum_text) bares what) /\
    realises 0 2 0 0 0 0 [mkt 0 0 2 0] e /\
    Permutation (what (fun _ => true) (fun _ => true)) ((p, e) :: (p, e) :: rest).
Proof.
  intros Hsot Hso Hson Hsoc C1 C2 C3 C4 L E R.
  pose proof (cc_file_every sot so son soc H cc S P text prog Hsot Hso Hson Hsoc ltac:(lia) ltac:(lia) C3 L E R 0 2 ltac:(lia) ltac:(lia)) as F.
  unfold groups, kinds in F. inversion F as [|? ? ? ? _ F1]; subst. inversion F1 as [|? ? ? ? _ F2]; subst. inversion F2 as [|? ? ? ? G _]; subst. clear F F1 F2.
  destruct G as (bares & what & cs & Df & _ & _ & Fc & Cov & W).
  destruct (Cov 0 0 [mkt 0 0 2 0] 0 0) as (before & c & after & -> & (S1 & S2 & S3) & _).
  - unfold requested, contraction, amplitude, total, up, down. cbn. repeat split; try lia. constructor; [cbn; lia|constructor].
  - exists (mkt 0 0 2 0). split; [now left|]. split; split; reflexivity.
  - discriminate.
  - apply Forall_app in Fc as [_ Fc]. apply Forall_inv in Fc as (N & Rq & K & Rp & Fr & X & _). apply Permutation_length_1_inv in S3. rewrite S3 in *.
    destruct (X eq_refl) as [e Ee]. pose proof (requested_ground _ _ _ _ _ _ _ _ _ _ Rq) as (_ & Z1 & _ & Z2 & _).
    specialize (W (fun _ => true) (fun _ => true)). rewrite flat_map_app in W. cbn [flat_map] in W.
    assert (Ac : active (fun _ => true) (fun _ => true) (place_of c) = true) by (unfold active, place_of, place; rewrite !orb_true_r; reflexivity).
    rewrite Ac, Ee in W. cbn [fact Nat.add Nat.mul repeat map] in W.
    exists bares, what, (c_prefactor c), e. eexists. split; [exact Df|]. split.
    + rewrite Ee in Fr. apply Forall_inv in Fr. rewrite S1, S2, Z1 in Fr. rewrite <- Z2, S1 in Fr. exact Fr.
    + rewrite W. cbn [app]. rewrite <- !Permutation_middle. reflexivity.
Qed.

From Verif Require Import ModelFullCCLatex ProofsFullCCLatexFile.
Lemma cc_python_latex sot so son soc H cc S P text prog :
  set_order sot -> set_order so -> set_order son -> set_order soc -> 1 <= cc <= 6 -> S <= 6 -> H <= 5 -> ~ loses H cc S P ->
  generate_full_cc_python sot so son soc H cc S P = Ok text -> python text prog ->
  forall so' son' omega e, set_order so' -> set_order son' -> g_rank omega = g_m omega + g_n omega -> g_rank omega <= cc -> g_rank omega <= P ->
    generate_cc_latex_equations so' son' omega H cc S true true = Ok e ->
    exists fully linked_ unlinked_,
      equation_terms (g_m omega) (g_n omega) H cc S true true fully linked_ unlinked_ /\
      equation_text (g_m omega) (g_n omega) fully linked_ unlinked_ (render_equation (g_rank omega) e) /\
      Forall2 (implements prog (g_m omega) (g_n omega)) groups [fully; linked_; unlinked_].
Proof.
  intros Hsot Hso Hson Hsoc C1 C2 C3 L E R so' son' omega e Hso' Hson' Rk A B Ee.
  destruct (latex_equation so' son' omega H cc S true true Hso' Hson' ltac:(lia) ltac:(lia) Rk ltac:(lia)) as (fully & linked_ & unlinked_ & Et & [(_ & _ & X)|(_ & e' & X & T)]).
  - rewrite Ee in X. discriminate X.
  - rewrite Ee in X. injection X as <-. exists fully, linked_, unlinked_. split; [exact Et|]. split; [exact T|].
    apply (cc_agree sot so son soc H cc S P text prog); auto; lia.
Qed.
