(** The requested contractions of truncations at which nothing is lost, listed. *)
From Coq Require Import List Arith NArith Lia Bool Ascii String Permutation.
From Verif Require Import PyBase PyBaseFacts PyStr ModelFullCC ModelFullCCPy SpecFullCC SpecPrefactor SpecFullCCPy SpecFullCCText
  SpecFullCCPlaces SpecFullCCComplete ProofsStr ProofsFullCC ProofsFullCCPy ProofsFullCCPlaces ProofsFullCCDistinct.
Import ListNotations.

(** ** Multisets of amplitudes *)
Fixpoint bags (l : list tamp) (s h o : nat) : list (list tamp) :=
  match l with
  | [] => [[]]
  | u :: r =>
      flat_map (fun k => if Nat.leb (k * m_h u) h && Nat.leb (k * m_o u) o
                         then map (app (repeat u k)) (bags r (s - k) (h - k * m_h u) (o - k * m_o u)) else [])
        (seq 0 (1 + s))
  end.

Lemma total_app {A} (f : A -> nat) l l' : total f (l ++ l') = total f l + total f l'.
Proof. unfold total. induction l as [|a l IH]; cbn; [reflexivity|]. lia. Qed.
Lemma total_repeat {A} (f : A -> nat) u k : total f (repeat u k) = k * f u.
Proof. unfold total. induction k as [|k IH]; cbn; [reflexivity|]. lia. Qed.
Lemma total_perm {A} (f : A -> nat) l l' : Permutation l l' -> total f l = total f l'.
Proof. unfold total. induction 1; cbn; lia. Qed.
Lemma take_out (u : tamp) us : exists k r, Permutation us (repeat u k ++ r) /\ ~ In u r /\ incl r us.
Proof.
  induction us as [|x us (k & r & P & N & I)]; [now exists 0, []|].
  destruct (tamp_eqb x u) eqn:E.
  - apply tamp_eqb_eq in E as ->. exists (1 + k), r. split; [now constructor|]. split; [exact N|]. intros y Y. right. now apply I.
  - exists k, (x :: r). split; [|split].
    + rewrite P. apply Permutation_middle.
    + intros [->|J]; [|now apply N]. rewrite (proj2 (tamp_eqb_eq u u) eq_refl) in E. discriminate.
    + intros y [->|Y]; [now left|]. right. now apply I.
Qed.
Lemma bags_all l : forall us s h o, incl us l -> List.length us <= s -> total m_h us <= h -> total m_o us <= o ->
  exists b, In b (bags l s h o) /\ Permutation us b.
Proof.
  induction l as [|u l IH]; intros us s h o I L A B.
  - destruct us as [|x us]; [exists []; split; [now left|constructor]|]. destruct (I x (or_introl eq_refl)).
  - destruct (take_out u us) as (k & r & P & N & J).
    pose proof (Permutation_length P) as PL. rewrite app_length, repeat_length in PL.
    pose proof (total_perm m_h _ _ P) as PH. pose proof (total_perm m_o _ _ P) as PO. rewrite total_app, total_repeat in PH, PO.
    destruct (IH r (s - k) (h - k * m_h u) (o - k * m_o u)) as (b & Ib & Pb); try lia.
    { intros x X. destruct (I x (J x X)) as [->|Y]; [contradiction|exact Y]. }
    exists (repeat u k ++ b)%list. split.
    + cbn [bags]. apply in_flat_map. exists k. split; [apply in_seq; lia|].
      rewrite (proj2 (Nat.leb_le _ _)), (proj2 (Nat.leb_le _ _)) by lia. cbn [andb]. now apply in_map.
    + rewrite P. now apply Permutation_app_head.
Qed.

(** ** The check *)
Definition amplitudes (cc h o : nat) : list tamp :=
  flat_map (fun a => flat_map (fun b => if Nat.leb 1 (a + b) && Nat.leb (a + b) cc then [mkt a 0 b 0] else []) (seq 0 (1 + o))) (seq 0 (1 + h)).

Fixpoint factN (k : nat) : N := match k with 0 => 1%N | S r => (N.of_nat k * factN r)%N end.
Lemma factN_fact k : N.to_nat (factN k) = fact k.
Proof. induction k as [|k IH]; [reflexivity|]. cbn [factN]. rewrite N2Nat.inj_mul, Nnat.Nat2N.id, IH. reflexivity. Qed.

Definition is_disconnected (t : tamp) : bool := Nat.eqb (m_h t) 0 && Nat.eqb (n_h t) 0.
Definition kind_number (o : nat) (us : list tamp) : nat :=
  if existsb (fun t => is_disconnected t && (Nat.eqb (m_o t) o && Nat.eqb (n_o t) 0)) us then 2
  else if existsb is_disconnected us then 1 else 0.
Definition connected_count (us : list tamp) : nat := List.length (dedup tamp_eqb (filter (fun t => negb (is_disconnected t)) us)).
(** flags, kind and value of the prefactor *)
Definition signature (o : nat) (us : list tamp) : nat * nat * nat * (N * N) :=
  let hn := total m_h us in let hm := o - total m_o us in
  (kind_number o us, Nat.max hm hn, list_max (map (fun t => up t + down t) us),
   (factN (connected_count us), (factN hm * factN hn * factN (List.length us))%N)).
Definition same_signature (a b : nat * nat * nat * (N * N)) : bool :=
  let '(k, i, j, (x, y)) := a in let '(k', i', j', (x', y')) := b in
  Nat.eqb k k' && Nat.eqb i i' && Nat.eqb j j' && N.eqb (x * y') (x' * y).
Definition candidates (H cc S o : nat) : list (list tamp) :=
  filter (fun us => negb (Nat.eqb (List.length us) 0) && Nat.leb (o - total m_o us + total m_h us) H) (bags (amplitudes cc H o) S H o).
Fixpoint all_pairs {A} (p : A -> A -> bool) (l : list A) : bool :=
  match l with [] => true | a :: r => forallb (p a) r && all_pairs p r end.
Definition all_distinct (c : nat * nat * nat * nat) : bool :=
  let '(H, cc, s, o) := c in
  all_pairs (fun a b => negb (same_signature (snd a) (snd b))) (map (fun us => (us, signature o us)) (candidates H cc s o)).
Definition cases : list (nat * nat * nat * nat) :=
  (map (fun o => (5, 1, 6, o)) [0; 1] ++ map (fun o => (5, 6, 1, o)) (seq 0 7) ++ [(5, 6, 6, 0)] ++
   map (fun o => (2, 6, 6, o)) [0; 1; 2] ++ map (fun o => (1, 6, 2, o)) [0; 1; 2; 3] ++ map (fun o => (0, 6, 6, o)) (seq 0 7))%list.
Lemma cases_distinct : forallb all_distinct cases = true.
Proof. vm_compute. reflexivity. Qed.

(** ** What the check means *)
Lemma all_pairs_eq {A} (p : A -> A -> bool) l : (forall a b, p a b = p b a) -> all_pairs p l = true ->
  forall a b, In a l -> In b l -> p a b = false -> a = b.
Proof.
  intros Sy. induction l as [|x l IH]; cbn [all_pairs]; [intros _ a b []|]. intros E. apply andb_true_iff in E as [E1 E2].
  rewrite forallb_forall in E1. intros a b [<-|Ia] [<-|Ib] F; [reflexivity| | |now apply (IH E2)].
  - rewrite (E1 b Ib) in F. discriminate.
  - rewrite Sy, (E1 a Ia) in F. discriminate.
Qed.
Lemma same_signature_sym a b : same_signature a b = same_signature b a.
Proof.
  destruct a as [[[k i] j] [x y]], b as [[[k' i'] j'] [x' y']]. cbn. rewrite (Nat.eqb_sym k), (Nat.eqb_sym i), (Nat.eqb_sym j), (N.eqb_sym (x * y')). reflexivity.
Qed.

Lemma existsb_perm {A} (f : A -> bool) l l' : Permutation l l' -> existsb f l = existsb f l'.
Proof.
  induction 1; cbn; [reflexivity|now rewrite IHPermutation| |congruence]. destruct (f x), (f y); reflexivity.
Qed.
Lemma filter_perm' {A} (f : A -> bool) l l' : Permutation l l' -> Permutation (filter f l) (filter f l').
Proof.
  induction 1; cbn; [constructor| | |etransitivity; eassumption].
  - destruct (f x); [now constructor|assumption].
  - destruct (f x), (f y); try reflexivity. constructor.
Qed.
Lemma connected_perm us us' : Permutation us us' -> connected_count us = connected_count us'.
Proof.
  intros P. unfold connected_count. apply Permutation_length, NoDup_Permutation; try apply nodup_dedup, tamp_eqb_eq.
  intros x. rewrite !(in_dedup tamp_eqb tamp_eqb_eq). split; apply Permutation_in; apply filter_perm'; [exact P|now symmetry].
Qed.
Lemma signature_perm o us us' : Permutation us us' -> signature o us = signature o us'.
Proof.
  intros P. unfold signature, kind_number. rewrite !(existsb_perm _ _ _ P), (connected_perm _ _ P), (total_perm m_h _ _ P), (total_perm m_o _ _ P), (Permutation_length P).
  rewrite (list_max_perm _ _ (Permutation_map _ P)). reflexivity.
Qed.
Lemma disconnected_is t : is_disconnected t = true <-> disconnected t.
Proof. unfold is_disconnected, disconnected. rewrite andb_true_iff, !Nat.eqb_eq. reflexivity. Qed.
Lemma connected_is us x : different_connected us x -> x = connected_count us.
Proof.
  intros (d & N & I & <-). unfold connected_count. apply Permutation_length, NoDup_Permutation; [exact N|apply nodup_dedup, tamp_eqb_eq|].
  intros t. rewrite I, (in_dedup tamp_eqb tamp_eqb_eq), filter_In, negb_true_iff, <- not_true_iff_false, disconnected_is. reflexivity.
Qed.
Lemma kind_is n kind : In kind (kinds 0 n) -> exists k, forall us, kind us -> kind_number n us = k.
Proof.
  assert (D : forall us, existsb is_disconnected us = true <-> exists t, In t us /\ disconnected t).
  { intros us. rewrite existsb_exists. split; intros (t & I & X); exists t; (split; [exact I|now apply disconnected_is]). }
  assert (U : forall us, existsb (fun t => is_disconnected t && (Nat.eqb (m_o t) n && Nat.eqb (n_o t) 0)) us = true <-> unlinked 0 n us).
  { intros us. rewrite existsb_exists. unfold unlinked, takes_projection. split.
    - intros (t & I & X). apply andb_true_iff in X as [X Y]. apply andb_true_iff in Y as [Y Z]. apply Nat.eqb_eq in Y, Z. apply disconnected_is in X. now exists t.
    - intros (t & I & X & Y & Z). exists t. split; [exact I|]. rewrite Y, Z, !Nat.eqb_refl. rewrite (proj2 (disconnected_is t) X). reflexivity. }
  intros [<-|[<-|[<-|[]]]]; [exists 0|exists 1|exists 2]; intros us K; unfold kind_number.
  - unfold fully_connected in K. rewrite Forall_forall in K.
    destruct (existsb _ us) eqn:E; [apply U in E as (t & I & X & _); now destruct (K t I)|].
    destruct (existsb is_disconnected us) eqn:F; [apply D in F as (t & I & X); now destruct (K t I)|reflexivity].
  - destruct K as [K1 K2]. destruct (existsb _ us) eqn:E; [apply U in E as (t & I & X & Y); now destruct (K2 t I X)|].
    rewrite (proj2 (D us) K1). reflexivity.
  - rewrite (proj2 (U us) K). reflexivity.
Qed.

Lemma total_in {A} (f : A -> nat) l x : In x l -> f x <= total f l.
Proof. unfold total. induction l as [|a l IH]; [intros []|]. intros [->|I]; cbn; [lia|]. specialize (IH I). lia. Qed.
Lemma total_none {A} (f : A -> nat) l : (forall x, In x l -> f x = 0) -> total f l = 0.
Proof. unfold total. induction l as [|a l IH]; intros E; [reflexivity|]. cbn. rewrite (E a (or_introl eq_refl)), IH; [reflexivity|]. intros x I. apply E. now right. Qed.

Lemma ground_amplitude cc t : amplitude cc true t -> n_h t = 0 /\ n_o t = 0 /\ 1 <= m_h t + m_o t <= cc.
Proof. intros [A B]. specialize (B eq_refl). unfold up, down in *. lia. Qed.
(** the requested contractions are those of annihilation operators *)
Lemma requested_ground m n H cc S hm hn us f fbar : requested m n H cc S true true hm hn us f fbar ->
  m = 0 /\ f = 0 /\ hn = total m_h us /\ hm = fbar /\ total m_o us + fbar = n.
Proof.
  intros (_ & _ & A & (C1 & C2 & C3 & C4) & R). specialize (R eq_refl). rewrite Forall_forall in A.
  assert (Z1 : total n_o us = 0) by (apply total_none; intros x I; apply (ground_amplitude cc), A, I).
  assert (Z2 : total n_h us = 0) by (apply total_none; intros x I; apply (ground_amplitude cc), A, I). lia.
Qed.
Lemma requested_candidate n H cc S H' cc' S' hm hn us f fbar : H <= H' -> cc <= cc' -> S <= S' -> us <> [] ->
  requested 0 n H cc S true true hm hn us f fbar -> exists b, In b (candidates H' cc' S' n) /\ Permutation us b.
Proof.
  intros L1 L2 L3 N R. pose proof (requested_ground _ _ _ _ _ _ _ _ _ _ R) as (_ & -> & -> & -> & T). destruct R as (R1 & R2 & A & _).
  rewrite Forall_forall in A.
  destruct (bags_all (amplitudes cc' H' n) us S' H' n) as (b & I & P); try lia.
  { intros t It. pose proof (ground_amplitude _ _ (A t It)) as (Z1 & Z2 & Z3). pose proof (total_in m_h us t It). pose proof (total_in m_o us t It).
    unfold amplitudes. apply in_flat_map. exists (m_h t). split; [apply in_seq; lia|]. apply in_flat_map. exists (m_o t). split; [apply in_seq; lia|].
    rewrite (proj2 (Nat.leb_le _ _)), (proj2 (Nat.leb_le _ _)) by lia. left. destruct t; cbn in *. now subst. }
  exists b. split; [|exact P]. unfold candidates. apply filter_In. split; [exact I|].
  rewrite <- (Permutation_length P), <- (total_perm m_h _ _ P), <- (total_perm m_o _ _ P). apply andb_true_iff. split.
  - destruct us; [congruence|reflexivity].
  - apply Nat.leb_le. lia.
Qed.

Lemma case_of H cc S P n : ~ loses H cc S P -> H <= 5 -> cc <= 6 -> S <= 6 -> n <= cc -> n <= P ->
  exists H' cc' S', In (H', cc', S', n) cases /\ H <= H' /\ cc <= cc' /\ S <= S'.
Proof.
  intros L A B C D E. unfold loses in L.
  assert (X : (cc <= 1) \/ S <= 1 \/ n = 0 \/ (H <= 2 /\ n <= 2) \/ (H <= 1 /\ S <= 2 /\ n <= 3) \/ H = 0) by lia.
  destruct X as [X|[X|[X|[X|[X|X]]]]].
  - exists 5, 1, 6. split; [|lia]. assert (Y : n = 0 \/ n = 1) by lia. destruct Y as [->| ->]; cbn; tauto.
  - exists 5, 6, 1. split; [|lia]. assert (Y : n = 0 \/ n = 1 \/ n = 2 \/ n = 3 \/ n = 4 \/ n = 5 \/ n = 6) by lia.
    destruct Y as [->|[->|[->|[->|[->|[->| ->]]]]]]; cbn; tauto.
  - exists 5, 6, 6. split; [|lia]. subst n. cbn; tauto.
  - exists 2, 6, 6. split; [|lia]. assert (Y : n = 0 \/ n = 1 \/ n = 2) by lia. destruct Y as [->|[->| ->]]; cbn; tauto.
  - exists 1, 6, 2. split; [|lia]. assert (Y : n = 0 \/ n = 1 \/ n = 2 \/ n = 3) by lia. destruct Y as [->|[->|[->| ->]]]; cbn; tauto.
  - exists 0, 6, 6. split; [|lia]. assert (Y : n = 0 \/ n = 1 \/ n = 2 \/ n = 3 \/ n = 4 \/ n = 5 \/ n = 6) by lia.
    destruct Y as [->|[->|[->|[->|[->|[->| ->]]]]]]; cbn; tauto.
Qed.

Lemma signature_value o us us' i j i' j' k k' x y x' y' :
  signature o us = (k, i, j, (x, y)) -> signature o us' = (k', i', j', (x', y')) ->
  k = k' -> i = i' -> j = j' -> (x * y' = x' * y)%N -> same_signature (signature o us) (signature o us') = true.
Proof. intros -> -> -> -> -> E. cbn. rewrite !Nat.eqb_refl. cbn. now apply N.eqb_eq. Qed.

Lemma places_distinct H cc S P n kind hm hn us f fbar hm' hn' us' f' fbar' p :
  ~ loses H cc S P -> H <= 5 -> cc <= 6 -> S <= 6 -> n <= cc -> n <= P -> In kind (kinds 0 n) ->
  requested 0 n H cc S true true hm hn us f fbar -> kind us -> us <> [] ->
  requested 0 n H cc S true true hm' hn' us' f' fbar' -> kind us' -> us' <> [] ->
  right_prefactor hm hn us p -> right_prefactor hm' hn' us' p -> place hm hn us p = place hm' hn' us' p ->
  hm = hm' /\ hn = hn' /\ Permutation us us'.
Proof.
  intros L A B C D E K R Ku N R' Ku' N' Q Q' Pl.
  destruct (case_of _ _ _ _ _ L A B C D E) as (H1 & cc1 & S1 & I & LH & Lc & LS).
  pose proof cases_distinct as F. rewrite forallb_forall in F. specialize (F _ I). unfold all_distinct in F.
  destruct (requested_candidate n H cc S H1 cc1 S1 _ _ _ _ _ LH Lc LS N R) as (b & Ib & Pb).
  destruct (requested_candidate n H cc S H1 cc1 S1 _ _ _ _ _ LH Lc LS N' R') as (b' & Ib' & Pb').
  pose proof (requested_ground _ _ _ _ _ _ _ _ _ _ R) as (_ & _ & T1 & T2 & T3). pose proof (requested_ground _ _ _ _ _ _ _ _ _ _ R') as (_ & _ & T1' & T2' & T3').
  assert (Sg : same_signature (signature n us) (signature n us') = true).
  { destruct (right_prefactor_value _ _ _ _ _ _ _ Q Q') as (x & x' & X & X' & V). apply connected_is in X, X'.
    unfold place in Pl. injection Pl as Pl1 Pl2. destruct (kind_is n kind K) as (k & Kk).
    eapply signature_value; [reflexivity|reflexivity| | | |].
    - now rewrite (Kk us Ku), (Kk us' Ku').
    - rewrite <- T1, <- T1'. replace (n - total m_o us) with hm by lia. replace (n - total m_o us') with hm' by lia. exact Pl1.
    - exact Pl2.
    - rewrite <- T1, <- T1'. replace (n - total m_o us) with hm by lia. replace (n - total m_o us') with hm' by lia.
      rewrite <- X, <- X'. apply N2Nat.inj. rewrite !N2Nat.inj_mul, !factN_fact. exact V. }
  rewrite (signature_perm n _ _ Pb), (signature_perm n _ _ Pb') in Sg.
  assert (X : (b, signature n b) = (b', signature n b')).
  { apply (all_pairs_eq _ _ (fun a b => f_equal negb (same_signature_sym (snd a) (snd b))) F).
    - apply in_map_iff. now exists b.
    - apply in_map_iff. now exists b'.
    - cbn [snd]. now rewrite Sg. }
  injection X as X _. subst b'. assert (Pu : Permutation us us') by (rewrite Pb; now symmetry).
  pose proof (total_perm m_h _ _ Pu). pose proof (total_perm m_o _ _ Pu). split; [lia|]. split; [lia|exact Pu].
Qed.
