(** Proofs for C108. *)
From Coq Require Import List Arith ZArith Lia Bool Permutation String.
From Verif Require Import PyBase PyBaseFacts ModelHelper ModelPrefactor ModelFullCC ModelFullCCPy ModelFullCCLatex ModelTrunc ModelRun.
From Verif Require Import SpecFullCC SpecTrunc SpecRun SpecReproducible ProofsFullCC ProofsTrunc ProofsRun.
From Verif Require ProofsW.
Import ListNotations.

(** ** One prefactor *)
Lemma flat_map_none {A B} (f : A -> list B) l : (forall x, In x l -> f x = []) -> flat_map f l = [].
Proof. induction l as [|a l IH]; intros H; cbn; [reflexivity|]. rewrite (H a) by now left. apply IH. intros x Hx. apply H. now right. Qed.

Lemma flat_map_single {A B} (f : A -> list B) y l : NoDup l -> In y l -> (forall z, In z l -> z <> y -> f z = []) -> flat_map f l = f y.
Proof.
  intros N I H. induction l as [|a l IH]; [destruct I|]. inversion N as [|? ? Na Nl]; subst. cbn. destruct I as [<-|I].
  - rewrite flat_map_none, app_nil_r; [reflexivity|]. intros z Hz. apply H; [now right|]. intros ->. contradiction.
  - rewrite (H a) by (try (now left); intros ->; contradiction). cbn. apply IH; [assumption|assumption|]. intros z Hz. apply H. now right.
Qed.

Lemma flat_map_orders {B} (f : nat -> list B) so so' l : set_order so -> set_order so' -> NoDup l ->
  flat_map f (so l) = flat_map f (so' l) \/ exists y z, In y l /\ In z l /\ y <> z /\ f y <> [] /\ f z <> [].
Proof.
  intros Hs Hs' N. set (ne := fun x => match f x with [] => false | _ => true end).
  assert (Z : forall x, ne x = false -> f x = []) by (unfold ne; intros x; destruct (f x); congruence).
  assert (NZ : forall x, ne x = true -> f x <> []) by (unfold ne; intros x; destruct (f x); congruence).
  assert (M : forall x, In x (filter ne l) <-> In x l /\ ne x = true) by (intros; apply filter_In).
  pose proof (NoDup_filter ne N) as NF.
  destruct (filter ne l) as [|y [|z r]].
  - left. assert (E : forall x, In x l -> f x = []).
    { intros x Hx. apply Z. destruct (ne x) eqn:En; [|reflexivity]. destruct (proj2 (M x)); auto. }
    rewrite !flat_map_none; [reflexivity| |]; intros x Hx; apply E; eapply Permutation_in; try eassumption; symmetry; auto.
  - left. assert (Iy : In y l) by (apply (M y); now left).
    assert (E : forall x, In x l -> x <> y -> f x = []).
    { intros x Hx Hn. apply Z. destruct (ne x) eqn:En; [|reflexivity]. destruct (proj2 (M x)) as [->|[]]; auto. contradiction. }
    rewrite !(flat_map_single f y); [reflexivity|..];
      try (eapply Permutation_NoDup; [apply Hs'|assumption]); try (eapply Permutation_NoDup; [apply Hs|assumption]);
      try (eapply Permutation_in; [apply Hs'|assumption]); try (eapply Permutation_in; [apply Hs|assumption]);
      intros x Hx; apply E; eapply Permutation_in; try eassumption; symmetry; auto.
  - right. exists y, z. inversion NF as [|? ? Ny _]; subst.
    destruct (proj1 (M y)) as [Iy Ey]; [now left|]. destruct (proj1 (M z)) as [Iz Ez]; [right; now left|].
    repeat split; auto. intros ->. apply Ny. now left.
Qed.

Definition left_over (x : nat) (den : list nat) (y : nat) : list nat :=
  repeat y (if Nat.eqb y x then count_in Nat.eqb y den - 1 else count_in Nat.eqb y den).

Lemma simplify_one so x den : set_order so -> In x den ->
  simplify_prefactor Nat.eqb so [x] den = ([], flat_map (left_over x den) (so (dedup Nat.eqb den))).
Proof.
  intros Hs I. destruct den as [|d0 den0]; [destruct I|]. set (den := d0 :: den0) in *.
  assert (E : existsb (Nat.eqb x) den = true) by (apply existsb_exists; exists x; rewrite Nat.eqb_refl; auto).
  assert (C : 1 <= count_in Nat.eqb x den).
  { unfold count_in. assert (J : In x (filter (Nat.eqb x) den)) by (apply filter_In; rewrite Nat.eqb_refl; auto).
    destruct (filter (Nat.eqb x) den); [destruct J|cbn; lia]. }
  unfold simplify_prefactor. fold den. change (match den with [] => _ | _ => ?e end) with e.
  cbn [existsb]. rewrite E. cbn [orb negb]. unfold count_dict at 1.
  assert (D1 : so (dedup Nat.eqb [x]) = [x]).
  { change (dedup Nat.eqb [x]) with [x]. apply Permutation_length_1_inv. apply Hs. }
  rewrite D1. cbn [map fst existsb]. rewrite Nat.eqb_refl. cbn [orb andb]. rewrite E.
  unfold extend_counts at 1. cbn [flat_map fst snd].
  assert (C1 : count_in Nat.eqb x [x] = 1) by (unfold count_in; cbn; now rewrite Nat.eqb_refl).
  rewrite C1. replace (fst (cancel 1 (count_in Nat.eqb x den))) with 0.
  2:{ unfold cancel. destruct (Nat.ltb_spec (count_in Nat.eqb x den) 1); [lia|]. destruct (Nat.ltb 1 _); reflexivity. }
  cbn [repeat app]. f_equal. unfold extend_counts, count_dict. rewrite !flat_map_concat_map, !map_map. f_equal.
  apply map_ext_in. intros y Hy. cbn [fst snd]. unfold left_over.
  assert (Ey : existsb (Nat.eqb y) den = true).
  { apply existsb_exists. exists y. rewrite Nat.eqb_refl. split; [|reflexivity].
    apply (proj1 (in_dedup Nat.eqb Nat.eqb_eq y den)). eapply Permutation_in; [symmetry; apply Hs|exact Hy]. }
  rewrite Ey, orb_false_r, andb_true_r. destruct (Nat.eqb_spec y x) as [->|Hn]; cbn [fst snd]; [|reflexivity].
  f_equal. rewrite C1. unfold cancel. destruct (Nat.ltb_spec (count_in Nat.eqb x den) 1); [lia|].
  destruct (Nat.ltb_spec 1 (count_in Nat.eqb x den)); cbn [snd]; lia.
Qed.

Definition connected_of (ts : list tamp) : list tamp := filter (fun t => Nat.ltb 0 (m_h t) || Nat.ltb 0 (n_h t)) ts.
Definition kinds_of (ts : list tamp) : nat := List.length (dedup tamp_eqb (connected_of ts)).

Lemma prefactor_orders so so' h ts : set_order so -> set_order so' ->
  build_prefactor so h ts = build_prefactor so' h ts \/
  2 <= kinds_of ts /\ 2 <= ch_m h /\ 2 <= ch_n h /\ 2 <= List.length ts /\
  ((kinds_of ts = ch_m h /\ ch_n h <> List.length ts) \/ (kinds_of ts = ch_n h /\ ch_m h <> List.length ts) \/
   (kinds_of ts = List.length ts /\ ch_m h <> ch_n h)).
Proof.
  intros Hs Hs'. unfold build_prefactor. destruct (is_bare_h ts); [now left|].
  fold (connected_of ts). fold (kinds_of ts). set (x := kinds_of ts). set (m := ch_m h). set (n := ch_n h). set (k := List.length ts).
  destruct (Nat.ltb_spec 1 x) as [Hx|_]; [|left; reflexivity].
  set (den := ((if Nat.ltb 1 m then [m] else []) ++ (if Nat.ltb 1 n then [n] else []) ++ (if Nat.ltb 1 k then [k] else []))%list).
  destruct (in_dec Nat.eq_dec x den) as [I|NI].
  2:{ left. assert (E : forall s, simplify_prefactor Nat.eqb s [x] den = ([x], den)).
      { intros s. unfold simplify_prefactor. destruct den as [|d r] eqn:Ed; [reflexivity|]. rewrite <- Ed in *.
        cbn [existsb]. replace (existsb (Nat.eqb x) den) with false; [reflexivity|].
        symmetry. apply not_true_is_false. intros T. apply existsb_exists in T as (y & Iy & Ey). apply Nat.eqb_eq in Ey. subst y. contradiction. }
      now rewrite !E. }
  rewrite !simplify_one by assumption.
  destruct (flat_map_orders (left_over x den) so so' (dedup Nat.eqb den) Hs Hs' (nodup_dedup Nat.eqb Nat.eqb_eq den)) as [->|(y & z & Iy & Iz & Hn & Fy & Fz)]; [now left|right].
  rewrite (in_dedup Nat.eqb Nat.eqb_eq) in Iy, Iz.
  assert (Cy : y = x -> 2 <= count_in Nat.eqb y den).
  { intros ->. destruct (le_lt_dec 2 (count_in Nat.eqb x den)); [assumption|]. exfalso. apply Fy. unfold left_over. rewrite Nat.eqb_refl.
    replace (count_in Nat.eqb x den - 1) with 0 by lia. reflexivity. }
  assert (Cz : z = x -> 2 <= count_in Nat.eqb z den).
  { intros ->. destruct (le_lt_dec 2 (count_in Nat.eqb x den)); [assumption|]. exfalso. apply Fz. unfold left_over. rewrite Nat.eqb_refl.
    replace (count_in Nat.eqb x den - 1) with 0 by lia. reflexivity. }
  clear Fy Fz. clearbody x m n k. subst den. unfold count_in in *.
  destruct (Nat.eq_dec y x) as [Ey|Ey]; [specialize (Cy Ey)|clear Cy]; (destruct (Nat.eq_dec z x) as [Ez|Ez]; [specialize (Cz Ez)|clear Cz]);
    try (exfalso; congruence);
  destruct (Nat.ltb_spec 1 m), (Nat.ltb_spec 1 n), (Nat.ltb_spec 1 k); cbn [app In filter] in *;
    repeat match goal with |- context [Nat.eqb ?a ?b] => destruct (Nat.eqb_spec a b) | H : context [Nat.eqb ?a ?b] |- _ => destruct (Nat.eqb_spec a b) end;
    cbn [List.length] in *; lia.
Qed.

(** ** The terms of given truncations *)
Lemma dedup_length {A} (eqb : A -> A -> bool) l : List.length (dedup eqb l) <= List.length l.
Proof. induction l as [|a l IH]; cbn [dedup]; [lia|]. destruct (existsb (eqb a) l); cbn [List.length]; lia. Qed.

Lemma filter_length_le {A} (p : A -> bool) l : List.length (filter p l) <= List.length l.
Proof. induction l as [|a l IH]; cbn; [lia|]. destruct (p a); cbn; lia. Qed.

Lemma kinds_length ts : kinds_of ts <= List.length ts.
Proof. unfold kinds_of. pose proof (dedup_length tamp_eqb (connected_of ts)). pose proof (filter_length_le (fun t => Nat.ltb 0 (m_h t) || Nat.ltb 0 (n_h t)) ts). unfold connected_of in *. lia. Qed.

Lemma total_partition {A} (f : A -> nat) p l : total f l = total f (filter p l) + total f (filter (fun x => negb (p x)) l).
Proof. induction l as [|a l IH]; cbn; [reflexivity|]. destruct (p a); cbn; unfold total in *; lia. Qed.

Lemma length_partition {A} p (l : list A) : List.length l = List.length (filter p l) + List.length (filter (fun x => negb (p x)) l).
Proof. induction l as [|a l IH]; cbn; [reflexivity|]. destruct (p a); cbn; lia. Qed.

Lemma total_at_least {A} (f : A -> nat) l : (forall x, In x l -> 1 <= f x) -> List.length l <= total f l.
Proof. induction l as [|a l IH]; intros H; cbn; [lia|]. pose proof (H a (or_introl eq_refl)). assert (List.length l <= total f l) by (apply IH; intros; apply H; now right). unfold total in *. lia. Qed.

Lemma total_at_most {A} (f : A -> nat) c l : (forall x, In x l -> f x <= c) -> total f l <= List.length l * c.
Proof. induction l as [|a l IH]; intros H; cbn; [lia|]. pose proof (H a (or_introl eq_refl)). assert (total f l <= List.length l * c) by (apply IH; intros; apply H; now right). unfold total in *. lia. Qed.

Lemma total_plus {A} (f g : A -> nat) l : total (fun x => f x + g x) l = total f l + total g l.
Proof. induction l as [|a l IH]; cbn; [reflexivity|]. unfold total in *. lia. Qed.

Lemma connected_in t ts : In t (connected_of ts) <-> In t ts /\ 1 <= m_h t + n_h t.
Proof. unfold connected_of. rewrite filter_In, orb_true_iff, !Nat.ltb_lt. intuition lia. Qed.

Lemma ground_two us cc : Forall (amplitude cc true) us -> kinds_of us = 2 -> total m_h us <= 2 ->
  List.length us - 1 <= total m_o us.
Proof.
  intros A K T. assert (G : forall t, In t us -> n_h t = 0 /\ n_o t = 0 /\ 1 <= m_h t + m_o t).
  { intros t Ht. rewrite Forall_forall in A. destruct (A t Ht) as [B C]. specialize (C eq_refl). unfold up, down in *. lia. }
  set (p := fun t => Nat.ltb 0 (m_h t) || Nat.ltb 0 (n_h t)).
  rewrite (total_partition m_o p us), (length_partition p us). rewrite (total_partition m_h p us) in T.
  change (filter p us) with (connected_of us) in *.
  assert (D : List.length (filter (fun x => negb (p x)) us) <= total m_o (filter (fun x => negb (p x)) us)).
  { apply total_at_least. intros t Ht. apply filter_In in Ht as [It Nt]. destruct (G t It) as (g1 & g2 & g3).
    unfold p in Nt. rewrite g1 in Nt. destruct (m_h t); cbn in *; [lia|discriminate]. }
  assert (M : forall t, In t (connected_of us) -> 1 <= m_h t).
  { intros t Ht. apply connected_in in Ht as [It Ct]. destruct (G t It) as (g1 & _). lia. }
  pose proof (total_at_least m_h (connected_of us) M) as L.
  unfold kinds_of in K. pose proof (dedup_length tamp_eqb (connected_of us)) as L2.
  assert (C : 1 <= total m_o (connected_of us)); [|lia].
  assert (GC : forall t, In t (connected_of us) -> n_h t = 0 /\ n_o t = 0).
  { intros t Ht. apply connected_in in Ht as [It _]. destruct (G t It) as (g1 & g2 & _). auto. }
  destruct (connected_of us) as [|a [|b [|c r]]]; cbn [List.length] in *; try lia.
  assert (a <> b).
  { intros ->. revert K. cbn [dedup existsb]. assert (E : tamp_eqb b b = true) by now apply tamp_eqb_eq. rewrite E. cbn [orb List.length]. lia. }
  destruct (GC a) as [a1 a2]; [now left|]. destruct (GC b) as [b1 b2]; [right; now left|].
  pose proof (M a (or_introl eq_refl)). pose proof (M b (or_intror (or_introl eq_refl))). cbn in *.
  destruct a as [am an ao ap], b as [bm bn bo bp]. cbn in *. destruct (Nat.eq_dec ao 0), (Nat.eq_dec bo 0); try lia.
  exfalso. assert (am = 1 /\ bm = 1) as [-> ->] by lia. subst. contradiction.
Qed.

Definition varies (ground : bool) (H cc S P : nat) : Prop := if ground then ground_can_vary H cc S P else excited_can_vary H cc S.

Lemma term_orders so so' om on H cc S P ground rf hm hn us f fbar t : set_order so -> set_order so' ->
  requested om on H cc S ground rf hm hn us f fbar -> describes om on hm hn us f fbar t -> om + on <= cc -> om + on <= P ->
  ~ varies ground H cc S P ->
  build_prefactor so (snd (fst t)) (snd t) = build_prefactor so' (snd (fst t)) (snd t).
Proof.
  intros Hs Hs' (R1 & R2 & R3 & (C1 & C2 & C3 & C4) & _) -> Hc HP V. cbn [fst snd].
  destruct us as [|u0 us0]; [reflexivity|]. cbn [factors]. set (us := u0 :: us0) in *.
  destruct (prefactor_orders so so' (mkch (hm + hn) hm hn fbar f (map n_h us) (map m_h us)) us Hs Hs') as [E|(k2 & B1 & B2 & B3 & B4)]; [exact E|].
  cbn [ch_m ch_n] in *. exfalso. apply V. pose proof (kinds_length us) as KL.
  destruct ground; cbn [varies].
  - assert (G : forall t, In t us -> n_h t = 0).
    { intros t Ht. rewrite Forall_forall in R3. destruct (R3 t Ht) as [_ B]. specialize (B eq_refl). unfold down in B. lia. }
    assert (N0 : total n_h us = 0) by (apply Forall_total_0; rewrite Forall_forall; exact G).
    assert (KM : kinds_of us <= total m_h us).
    { unfold kinds_of. pose proof (dedup_length tamp_eqb (connected_of us)).
      assert (List.length (connected_of us) <= total m_h (connected_of us)).
      { apply total_at_least. intros t Ht. apply connected_in in Ht as [It Ct]. rewrite (G t It) in Ct. lia. }
      rewrite (total_partition m_h (fun t => Nat.ltb 0 (m_h t) || Nat.ltb 0 (n_h t)) us). fold (connected_of us). lia. }
    unfold ground_can_vary. split; [lia|]. split; [lia|]. destruct (le_lt_dec 5 H) as [H5|H4]; [left; lia|right].
    assert (hm = 2 /\ hn = 2) as [-> ->] by lia. assert (K2 : kinds_of us = 2) by lia.
    pose proof (ground_two us cc R3 K2 ltac:(lia)). lia.
  - unfold excited_can_vary. destruct (le_lt_dec 3 S) as [S3|S2]; [right; lia|left]. split; [lia|]. split; [lia|].
    assert (T : total (fun t => m_h t + n_h t) us <= List.length us * cc).
    { apply total_at_most. intros t Ht. rewrite Forall_forall in R3. destruct (R3 t Ht) as [B _]. unfold up, down in B. lia. }
    rewrite total_plus in T. assert (L2 : List.length us = 2) by lia. rewrite L2 in T. lia.
Qed.

(** ** The python text *)
Lemma permutations_orders {A} (eqb leb : A -> A -> bool) son son' l :
  (forall x y, eqb x y = true <-> x = y) -> (forall x y, leb x y = true \/ leb y x = true) ->
  (forall x y z, leb x y = true -> leb y z = true -> leb x z = true) ->
  (forall x y, leb x y = true -> leb y x = true -> x = y) -> set_order son -> set_order son' ->
  unique_permutations_gen eqb leb son l = unique_permutations_gen eqb leb son' l.
Proof.
  intros E T R Y Hs Hs'. unfold unique_permutations_gen. apply isort_ext.
  - intros a b. apply (lex_total eqb leb E T).
  - intros a b c. apply (lex_trans eqb leb E R Y).
  - intros a b. apply (lex_antisym eqb leb E Y).
  - rewrite <- (Hs _), <- (Hs' _). reflexivity.
Qed.

Lemma nat_permutations son son' l : set_order son -> set_order son' -> unique_permutations son l = unique_permutations son' l.
Proof.
  intros Hs Hs'. apply permutations_orders; try assumption.
  - exact Nat.eqb_eq.
  - intros x y. rewrite !Nat.leb_le. lia.
  - intros x y z. rewrite !Nat.leb_le. lia.
  - intros x y. rewrite !Nat.leb_le. lia.
Qed.

Lemma letter_orders soc soc' s : set_order soc -> set_order soc' -> letter_permutations soc s = letter_permutations soc' s.
Proof.
  intros Hs Hs'. apply permutations_orders; try assumption; unfold ascii_leb.
  - exact Ascii.eqb_eq.
  - intros x y. rewrite !Nat.leb_le. lia.
  - intros x y z. rewrite !Nat.leb_le. lia.
  - intros x y. rewrite !Nat.leb_le. intros A B.
    rewrite <- (Ascii.ascii_nat_embedding x), <- (Ascii.ascii_nat_embedding y). f_equal. lia.
Qed.

Section Calls.
  Variables (son son' : list (list nat) -> list (list nat)) (soc soc' : list (list Ascii.ascii) -> list (list Ascii.ascii)).
  Hypotheses (Hn : set_order son) (Hn' : set_order son') (Hc : set_order soc) (Hc' : set_order soc').

  Lemma logic_orders ts : multiple_perms_logic son ts = multiple_perms_logic son' ts.
  Proof.
    unfold multiple_perms_logic. destruct (List.length (dedup tamp_eqb ts)) as [|[|d]], (List.length ts) as [|[|k]];
      cbn beta iota; try reflexivity; now rewrite (nat_permutations son son') by assumption.
  Qed.
  Lemma einsum_orders t : einsum_calls son soc t = einsum_calls son' soc' t.
  Proof.
    destruct t as [[o h] ts]. unfold einsum_calls. rewrite logic_orders. destruct (multiple_perms_logic son' ts) as [pk|]; [|reflexivity].
    cbn [bind]. destruct (electronic_components _); [|reflexivity]. cbn [bind]. destruct (vibrational_components h ts) as [v r].
    now rewrite (letter_orders soc soc') by assumption.
  Qed.
  Lemma next_orders t : next_calls son soc t = next_calls son' soc' t.
  Proof.
    destruct t as [[o h] ts]. unfold next_calls. rewrite logic_orders. destruct (multiple_perms_logic son' ts) as [pk|]; [|reflexivity].
    cbn [bind]. destruct (electronic_components _); [|reflexivity]. cbn [bind]. destruct (vibrational_components h ts) as [v r].
    now rewrite (letter_orders soc soc') by assumption.
  Qed.
  Lemma path_orders t : path_calls son soc t = path_calls son' soc' t.
  Proof.
    destruct t as [[o h] ts]. unfold path_calls. rewrite logic_orders. destruct (multiple_perms_logic son' ts) as [pk|]; [|reflexivity].
    cbn [bind]. destruct (vibrational_components h ts) as [v r].
    now rewrite (letter_orders soc soc') by assumption.
  Qed.
End Calls.

Definition same_prefactor (so so' : list nat -> list nat) (t : term) : Prop :=
  build_prefactor so (snd (fst t)) (snd t) = build_prefactor so' (snd (fst t)) (snd t).

Section Bodies.
  Context {C : Type}.
  Variables (so so' : list nat -> list nat) (f f' : term -> res (list C)) (H cc : nat).
  Hypothesis F : forall t, f t = f' t.

  Lemma fill_orders l : (forall t, In t l -> same_prefactor so so' t) -> forall d,
    fill_buckets so f H cc l d = fill_buckets so' f' H cc l d.
  Proof.
    induction l as [|t l IH]; intros E d; [reflexivity|]. cbn [fill_buckets].
    assert (T : file_term so f H cc t d = file_term so' f' H cc t d).
    { pose proof (E t (or_introl eq_refl)) as Et. destruct t as [[o h] ts]. unfold same_prefactor in Et. cbn [fst snd] in Et.
      unfold file_term. now rewrite F, Et. }
    rewrite T. specialize (IH (fun t' Ht => E t' (or_intror Ht))).
    destruct (is_bare_h (snd t)); [apply IH|]. destruct (file_term so' f' H cc t d); cbn [bind]; [apply IH|reflexivity].
  Qed.

  Lemma write_orders l : (forall t, In t l -> same_prefactor so so' t) ->
    write_cc_einsum_python_from_list so H cc f l = write_cc_einsum_python_from_list so' H cc f' l.
  Proof. intros E. unfold write_cc_einsum_python_from_list. rewrite fill_orders by exact E. reflexivity. Qed.
End Bodies.

Lemma write_paths_orders so so' son son' soc soc' H cc l : set_order son -> set_order son' -> set_order soc -> set_order soc' ->
  (forall t, In t l -> same_prefactor so so' t) ->
  write_cc_optimized_paths_from_list so son soc H cc l = write_cc_optimized_paths_from_list so' son' soc' H cc l.
Proof.
  intros A B C D E. unfold write_cc_optimized_paths_from_list.
  rewrite (fill_orders so so' (path_calls son soc) (path_calls son' soc') H cc (path_orders son son' soc soc' A B C D) l E). reflexivity.
Qed.

(** The groups of a projection operator contain terms of the truncations. *)
Lemma sublist_in {A} (x : A) l l' : sublist l l' -> In x l -> In x l'.
Proof. induction 1; intros I; [destruct I|destruct I as [<-|I]; [now left|right; auto]|right; auto]. Qed.

Lemma group_terms_of sot omega H cc S ground rf l fully linked_ unlinked_ : set_order sot -> 1 <= cc ->
  full_cc_terms sot omega H cc S ground rf = Ok l -> seperate_s_terms_by_connection l = Ok (fully, linked_, unlinked_) ->
  forall g t, In g [fully; linked_; unlinked_] -> In t g ->
    exists hm hn us f fbar, requested (g_m omega) (g_n omega) H cc S ground rf hm hn us f fbar /\
      describes (g_m omega) (g_n omega) hm hn us f fbar t.
Proof.
  intros Hs Hcc El Es g t Ig It. destruct (full_cc_sound sot omega H cc S ground rf Hs Hcc) as (l0 & E0 & Sd).
  rewrite El in E0. injection E0 as <-. apply Sd.
  destruct (separation_exact sot omega H cc S ground rf Hs Hcc) as (l1 & a & b & c & E1 & E2 & _ & S1 & S2 & S3 & _).
  rewrite El in E1. injection E1 as <-. rewrite Es in E2. injection E2 as -> -> ->.
  destruct Ig as [<-|[<-|[<-|[]]]]; (eapply sublist_in; [|exact It]; assumption).
Qed.

Lemma wrap_ext ops r n s b b' : (forall o, In o ops -> b o = b' o) -> wrap_generation ops r n s b = wrap_generation ops r n s b'.
Proof.
  intros E. unfold wrap_generation. erewrite ProofsW.mapM_ext; [reflexivity|]. intros [i o] Io. cbn beta iota.
  rewrite E; [reflexivity|]. unfold number in Io. now apply in_combine_r in Io.
Qed.

Lemma bind_eq {A B} (m m' : res A) (k k' : A -> res B) : m = m' -> (forall x, k x = k' x) -> bind m k = bind m' k'.
Proof. intros <- E. destruct m; cbn; auto. Qed.

Section Python.
  Variables (sot : list (list tamp) -> list (list tamp)) (so so' : list nat -> list nat).
  Variables (son son' : list (list nat) -> list (list nat)) (soc soc' : list (list Ascii.ascii) -> list (list Ascii.ascii)).
  Hypotheses (Ht : set_order sot) (Hs : set_order so) (Hs' : set_order so') (Hn : set_order son) (Hn' : set_order son')
    (Hc : set_order soc) (Hc' : set_order soc').
  Variables (H cc S P : nat).
  Hypotheses (Hcc : 1 <= cc) (V : ~ ground_can_vary H cc S P).

  Lemma groups_orders omega g : projection cc P omega -> python_groups sot H cc S omega true = Ok g ->
    forall l t, In l [fst (fst g); snd (fst g); snd g] -> In t l -> same_prefactor so so' t.
  Proof.
    intros (_ & Er & E1 & E2) G l t Il It. unfold python_groups in G.
    destruct (full_cc_terms sot omega H cc S true true) as [l0|] eqn:El; [|discriminate]. cbn [bind] in G.
    destruct g as [[a b] c]. cbn [fst snd] in Il.
    destruct (group_terms_of sot omega H cc S true true l0 a b c Ht Hcc El G l t Il It) as (hm & hn & us & f & fb & R & D).
    unfold same_prefactor. eapply (term_orders so so' _ _ H cc S P true true); try eassumption; try lia.
  Qed.

  Lemma bodies_orders {C} (f f' : term -> res (list C)) omega : projection cc P omega -> (forall t, f t = f' t) ->
    generate_full_cc_bodies sot so H cc S f omega true = generate_full_cc_bodies sot so' H cc S f' omega true.
  Proof.
    intros Po F. unfold generate_full_cc_bodies. destruct (python_groups sot H cc S omega true) as [[[a b] c]|] eqn:G; [|reflexivity].
    cbn [bind]. apply ProofsW.mapM_ext. intros l Il. apply write_orders; [exact F|]. intros t It. now apply (groups_orders omega _ Po G l).
  Qed.

  Lemma paths_bodies_orders omega : projection cc P omega ->
    generate_full_cc_optimized_paths sot so son soc H cc S omega true = generate_full_cc_optimized_paths sot so' son' soc' H cc S omega true.
  Proof.
    intros Po. unfold generate_full_cc_optimized_paths. destruct (python_groups sot H cc S omega true) as [[[a b] c]|] eqn:G; [|reflexivity].
    cbn [bind]. apply ProofsW.mapM_ext. intros l Il. apply write_paths_orders; try assumption. intros t It. now apply (groups_orders omega _ Po G l).
  Qed.

  Lemma functions_orders omega opt : projection cc P omega ->
    generate_full_cc_compute_functions sot so son soc H cc S omega opt = generate_full_cc_compute_functions sot so' son' soc' H cc S omega opt.
  Proof.
    intros Po. unfold generate_full_cc_compute_functions, generate_full_cc_nexts, generate_full_cc_einsums.
    rewrite (bodies_orders (einsum_calls son soc) (einsum_calls son' soc') omega Po (einsum_orders son son' soc soc' Hn Hn' Hc Hc')).
    rewrite (bodies_orders (next_calls son soc) (next_calls son' soc') omega Po (next_orders son son' soc soc' Hn Hn' Hc Hc')).
    reflexivity.
  Qed.

  Lemma paths_functions_orders omega : projection cc P omega ->
    generate_optimized_paths_functions sot so son soc H cc S omega = generate_optimized_paths_functions sot so' son' soc' H cc S omega.
  Proof. intros Po. unfold generate_optimized_paths_functions. now rewrite paths_bodies_orders. Qed.

  Lemma python_orders : generate_full_cc_python sot so son soc H cc S P = generate_full_cc_python sot so' son' soc' H cc S P.
  Proof.
    assert (I : forall o, In o (generate_omega_operator cc P) -> projection cc P o) by (intros o; apply (projections_exact cc P)).
    unfold generate_full_cc_python, generate_full_cc_python_file_contents. apply bind_eq; [|reflexivity].
    apply bind_eq; [apply wrap_ext; intros o Io; apply functions_orders, I, Io|]. intros default.
    apply bind_eq; [apply wrap_ext; intros o Io; apply functions_orders, I, Io|]. intros optimised.
    apply bind_eq; [apply wrap_ext; intros o Io; apply paths_functions_orders, I, Io|]. reflexivity.
  Qed.
End Python.

(** ** The LaTeX text *)
Section Latex.
  Variables (sot : list (list tamp) -> list (list tamp)) (so so' : list nat -> list nat).
  Variable sop : list (list (nat * nat)) -> list (list (nat * nat)).
  Hypotheses (Ht : set_order sot) (Hs : set_order so) (Hs' : set_order so').
  Variables (H cc S P : nat) (ground rf : bool).
  Hypotheses (Hcc : 1 <= cc) (V : ~ varies ground H cc S P).

  Lemma latex_term_orders t : same_prefactor so so' t -> latex_term so t = latex_term so' t.
  Proof. destruct t as [[o h] ts]. unfold same_prefactor, latex_term, latex_prefactor. cbn [fst snd]. now intros ->. Qed.
  Lemma latex_linked_orders fs t : same_prefactor so so' t -> latex_linked_term so fs t = latex_linked_term so' fs t.
  Proof. destruct t as [[o h] ts]. unfold same_prefactor, latex_linked_term, latex_prefactor. cbn [fst snd]. now intros ->. Qed.

  Lemma equations_orders omega : projection cc P omega ->
    generate_cc_latex_equations sot so omega H cc S ground rf = generate_cc_latex_equations sot so' omega H cc S ground rf.
  Proof.
    intros (_ & Er & E1 & E2). unfold generate_cc_latex_equations.
    destruct (full_cc_terms sot omega H cc S ground rf) as [l|] eqn:El; [|reflexivity]. cbn [bind].
    destruct (seperate_s_terms_by_connection l) as [[[a b] c]|] eqn:Es; [|reflexivity]. cbn [bind].
    assert (Q : forall g t, In g [a; b; c] -> In t g -> same_prefactor so so' t).
    { intros g t Ig It. destruct (group_terms_of sot omega H cc S ground rf l a b c Ht Hcc El Es g t Ig It) as (hm & hn & us & f & fb & R & D).
      unfold same_prefactor. eapply (term_orders so so' _ _ H cc S P ground rf); try eassumption; try lia. }
    assert (M : forall g, In g [a; b; c] -> map (latex_term so) g = map (latex_term so') g).
    { intros g Ig. apply map_ext_in. intros t It. now apply latex_term_orders, (Q g). }
    assert (L : forall g fs, In g [a; b; c] -> mapM (latex_linked_term so fs) g = mapM (latex_linked_term so' fs) g).
    { intros g fs Ig. apply ProofsW.mapM_ext. intros t It. now apply latex_linked_orders, (Q g). }
    unfold write_cc_latex_from_lists, make_latex_plain, make_latex_linked, make_latex_unlinked.
    rewrite (M a), (M b), (M c) by (cbn; auto). destruct (Nat.eqb (g_rank omega) 0); [reflexivity|].
    destruct (linked_factors sot b) as [fs|]; [|reflexivity]. cbn [bind]. rewrite (L b fs) by (cbn; auto). reflexivity.
  Qed.

  Lemma latex_orders : generate_full_cc_latex sot so sop H cc S P ground rf = generate_full_cc_latex sot so' sop H cc S P ground rf.
  Proof.
    unfold generate_full_cc_latex, latex_equations. erewrite ProofsW.mapM_ext; [reflexivity|].
    intros o Io. cbn beta. rewrite equations_orders; [reflexivity|]. now apply (projections_exact cc P).
  Qed.
End Latex.

(** ** The data that is written *)
Theorem generate_orders lt ln ln' lp pt pn pn' pl pl' pc pc' c :
  set_order lt -> set_order pt -> set_order ln -> set_order ln' -> set_order pn -> set_order pn' ->
  set_order pl -> set_order pl' -> set_order pc -> set_order pc' -> is_dict (gc_trunc c) -> ~ can_vary c ->
  generate lt ln lp pt pn pl pc c = generate lt ln' lp pt pn' pl' pc' c.
Proof.
  intros Hlt Hpt Hln Hln' Hpn Hpn' Hpl Hpl' Hpc Hpc' Hd V. unfold generate.
  destruct (gc_ansatz c) eqn:Ea, (gc_kind c) eqn:Ek; try (match goal with X : _ = FullCC |- _ => fail 1 | _ => reflexivity end).
  all: destruct (verify_cases Fcc (gc_trunc c) Hd) as [[-> A]|[_ (e & ->)]]; cbn [bind]; [|reflexivity];
    destruct (fcc_get (gc_trunc c) Hd A) as (H & cc & S & P & Vs & -> & -> & -> & ->); cbn [bind];
    pose proof (fcc_bounds _ _ _ _ _ Hd A Vs) as (_ & B & _).
  - erewrite latex_orders; [reflexivity|exact Hlt|exact Hln|exact Hln'|lia|].
    intros W. apply V. unfold can_vary. split; [exact Ea|]. split; [exact A|]. exists H, cc, S, P. split; [exact Vs|]. rewrite Ek.
    destruct (gc_ground c); exact W.
  - eapply python_orders; try assumption; try lia.
    intros W. apply V. unfold can_vary. split; [exact Ea|]. split; [exact A|]. exists H, cc, S, P. split; [exact Vs|]. rewrite Ek. exact W.
Qed.
