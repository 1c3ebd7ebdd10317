(** The python code of the full coupled cluster equations adds every requested
    contraction, or misses one, by the truncations. *)
From Coq Require Import List Arith NArith Lia Bool Ascii String Permutation.
From Verif Require Import PyBase PyBaseFacts PyStr ModelFullCC ModelPrefactor ModelFullCCPy SpecFullCC SpecPrefactor SpecFullCCPy SpecPython SpecEtText SpecFullCCText
  SpecFullCCPlaces SpecFullCCComplete ProofsStr ProofsFullCC ProofsFullCCPy ProofsFullCCText ProofsFullCCPlaces
  ProofsFullCCComplete ProofsFullCCDistinct ProofsFullCCBags.
Import ListNotations.

(** ** A call determines its contraction *)
Definition in_list (l : list ascii) (c : ascii) : bool := existsb (Ascii.eqb c) l.
Lemma in_list_in l c : in_list l c = true <-> In c l.
Proof. unfold in_list. rewrite existsb_exists. split; [intros (x & I & E); apply Ascii.eqb_eq in E; now subst|intros I; exists c; now rewrite Ascii.eqb_refl]. Qed.
Definition recover (out v : list ascii) : tamp :=
  mkt (List.length (filter (fun c => negb (in_list out c)) v)) 0 (List.length (filter (in_list out) v)) 0.

Lemma filter_all {A} (f : A -> bool) l : (forall x, In x l -> f x = true) -> filter f l = l.
Proof. induction l as [|a l IH]; intros E; [reflexivity|]. cbn. rewrite (E a (or_introl eq_refl)), IH; [reflexivity|]. intros x I. apply E. now right. Qed.
Lemma filter_none {A} (f : A -> bool) l : (forall x, In x l -> f x = false) -> filter f l = [].
Proof. induction l as [|a l IH]; intros E; [reflexivity|]. cbn. rewrite (E a (or_introl eq_refl)). apply IH. intros x I. apply E. now right. Qed.

Lemma nodup_right {A} (l l' : list A) : NoDup (l ++ l') -> NoDup l'.
Proof. induction l as [|a l IH]; [auto|]. cbn. intros N. apply NoDup_cons_iff in N as [_ N]. auto. Qed.
Lemma realises_recover m n hm hn f fbar us c : (forall t, In t us -> n_h t = 0 /\ n_o t = 0) -> realises m n hm hn f fbar us c ->
  exists chain out first vs, e_h c = (hm, hn) /\ e_inputs c = chained chain (first :: vs) /\ List.length chain = 2 + List.length vs /\
    e_output c = of_chars ("a" :: "b" :: out)%char /\ Permutation (map (recover out) vs) us.
Proof.
  intros G (mid & su & sl & eu & el & out & fs & P & F & E1 & E2 & L & E3 & E4 & L1 & L2 & L3 & L4 & L5 & P1 & P2 & P3 & N).
  exists ("a" :: mid ++ ["b"])%char%list, out, (su ++ sl ++ eu ++ el)%list, (map (fun x => letters (snd x)) fs).
  split; [exact E1|]. split; [exact E3|]. split; [|split; [exact E4|]].
  { cbn. rewrite app_length, map_length, L. apply Permutation_length in P. rewrite map_length in P. cbn. lia. }
  etransitivity; [|exact P]. rewrite map_map.
  replace (map (fun x => recover out (letters (snd x))) fs) with (map fst fs); [reflexivity|].
  apply map_ext_in. intros [t x] I. cbn [fst snd]. rewrite Forall_forall in F. pose proof (F _ I) as (F1 & F2 & F3 & F4). cbn [fst snd] in *.
  assert (It : In t us) by (apply (Permutation_in _ P), in_map_iff; now exists (t, x)).
  destruct (G t It) as [G1 G2]. rewrite G1 in F1. rewrite G2 in F3. destruct (l_nh x) eqn:X1; [|discriminate]. destruct (l_no x) eqn:X2; [|discriminate].
  apply nodup_right in N. apply nodup_right in N.
  unfold recover, letters. rewrite X1, X2. cbn [app]. rewrite !filter_app.
  assert (O1 : forall c, In c (l_mo x) -> In c out).
  { intros d D. apply (Permutation_in _ (Permutation_sym P3)). apply in_or_app. right. apply in_or_app. right. apply in_flat_map.
    exists (t, x). split; [exact I|]. cbn [snd]. apply in_or_app. now right. }
  assert (O2 : forall c, In c (l_mh x) -> ~ In c out).
  { intros d D J. assert (Is : In d sl) by (apply (Permutation_in _ (Permutation_sym P2)), in_flat_map; exists (t, x); auto).
    clear - N Is J. induction sl as [|a sl IH]; [destruct Is|]. cbn in N. apply NoDup_cons_iff in N as [N1 N2]. destruct Is as [->|Is]; [apply N1, in_or_app; now right|now apply IH]. }
  rewrite (filter_none (fun c => negb (in_list out c)) (l_mo x)) by (intros d D; apply negb_false_iff, in_list_in; auto).
  rewrite (filter_all (fun c => negb (in_list out c)) (l_mh x)) by (intros d D; apply negb_true_iff, not_true_iff_false; rewrite in_list_in; auto).
  rewrite (filter_all (in_list out) (l_mo x)) by (intros d D; apply in_list_in; auto).
  rewrite (filter_none (in_list out) (l_mh x)) by (intros d D; apply not_true_iff_false; rewrite in_list_in; auto).
  rewrite app_nil_r. cbn [app]. rewrite F2, F4. destruct t; cbn in *. now subst.
Qed.
Lemma of_chars_inj l l' : of_chars l = of_chars l' -> l = l'.
Proof. intros E. rewrite <- (chars_of_chars l), <- (chars_of_chars l'). now rewrite E. Qed.
Lemma chained_inj vs : forall chain vs' chain', List.length chain = 1 + List.length vs -> List.length chain' = 1 + List.length vs' ->
  chained chain vs = chained chain' vs' -> vs = vs'.
Proof.
  induction vs as [|v vs IH]; intros [|c [|d chain]] [|v' vs'] [|c' [|d' chain']] L L' E; cbn in L, L'; try discriminate; try reflexivity.
  assert (X : forall c d r (v : list ascii) vs, chained (c :: d :: r) (v :: vs) = of_chars (c :: d :: v) :: chained (d :: r) vs) by reflexivity.
  rewrite !X in E. pose proof (f_equal (hd EmptyString) E) as E1. pose proof (f_equal (@tl _) E) as E2. cbn [hd tl] in E1, E2.
  apply of_chars_inj in E1. injection E1 as _ _ ->. apply IH in E2; [now subst|cbn in *; lia|cbn in *; lia].
Qed.
Lemma call_determines m n hm hn f fbar us hm' hn' f' fbar' us' c :
  (forall t, In t us -> n_h t = 0 /\ n_o t = 0) -> (forall t, In t us' -> n_h t = 0 /\ n_o t = 0) ->
  realises m n hm hn f fbar us c -> realises m n hm' hn' f' fbar' us' c -> hm = hm' /\ hn = hn' /\ Permutation us us'.
Proof.
  intros G G' R R'. destruct (realises_recover _ _ _ _ _ _ _ _ G R) as (ch & out & v & vs & A1 & A2 & A3 & A4 & A5).
  destruct (realises_recover _ _ _ _ _ _ _ _ G' R') as (ch' & out' & v' & vs' & B1 & B2 & B3 & B4 & B5).
  rewrite A1 in B1. injection B1 as <- <-. rewrite A2 in B2. apply chained_inj in B2; [|cbn; lia|cbn; lia]. injection B2 as <- <-.
  rewrite A4 in B4. apply of_chars_inj in B4. injection B4 as <-. split; [reflexivity|]. split; [reflexivity|]. now rewrite <- A5.
Qed.
Lemma requested_no_lower m n H cc S hm hn us f fbar : requested m n H cc S true true hm hn us f fbar -> forall t, In t us -> n_h t = 0 /\ n_o t = 0.
Proof. intros (_ & _ & A & _) t I. rewrite Forall_forall in A. destruct (ground_amplitude _ _ (A t I)) as (X & Y & _). auto. Qed.

Lemma same_dec c hm hn us : same_contraction c hm hn us \/ ~ same_contraction c hm hn us.
Proof.
  unfold same_contraction. destruct (Nat.eq_dec (c_m c) hm) as [A|A]; [|right; tauto]. destruct (Nat.eq_dec (c_n c) hn) as [B|B]; [|right; tauto].
  assert (X : forall l l' : list tamp, Permutation l l' \/ ~ Permutation l l').
  { clear. induction l as [|a l IH]; intros l'.
    - destruct l' as [|b l']; [left; constructor|right; intros P; apply Permutation_nil in P; discriminate].
    - assert (D : forall x y : tamp, {x = y} + {x <> y}) by (decide equality; apply Nat.eq_dec).
      destruct (in_dec D a l') as [I|I].
      + apply in_split in I as (l1 & l2 & ->). destruct (IH (l1 ++ l2)%list) as [P|P]; [left; now apply Permutation_cons_app|].
        right. intros Q. apply Permutation_cons_app_inv in Q. contradiction.
      + right. intros P. apply I. apply (Permutation_in _ P). now left. }
  destruct (X us (c_us c)); [left; auto|right; tauto].
Qed.

(** ** Nothing is lost *)
Lemma nodup_map_inj {A B} (f : A -> B) l x y : NoDup (map f l) -> In x l -> In y l -> f x = f y -> x = y.
Proof.
  induction l as [|a l IH]; [intros _ []|]. cbn. intros N. apply NoDup_cons_iff in N as [N1 N2]. intros [->|X] [->|Y] E; [reflexivity| | |now apply IH].
  - destruct N1. rewrite E. now apply in_map.
  - destruct N1. rewrite <- E. now apply in_map.
Qed.
Lemma printed_same so c hm hn us : same_contraction c hm hn us -> c_prefactor c = printed so (c_m c) (c_n c) (c_us c) ->
  place_of c = place hm hn us (printed so hm hn us).
Proof.
  intros (<- & <- & P) E. unfold place_of. rewrite E, (printed_perm so _ _ _ _ P). symmetry. now apply place_perm.
Qed.

(** [adds_every] with more known of the contractions. *)
Definition every_with (more : chosen -> Prop) (prog : list stmt) (H cc S m n : nat) (g : string * string) (kind : list tamp -> Prop) : Prop :=
  exists bares what cs,
    defines_cc_terms prog m n false g (branch_does (sum_adds einsum_text) bares what) /\
    NoDup bares /\
    (forall hm hn, In (hm, hn) bares <-> exists f fbar, requested m n H cc S true true hm hn [] f fbar /\ kind []) /\
    Forall (is_chosen H cc S m n kind) cs /\
    (forall hm hn us f fbar, requested m n H cc S true true hm hn us f fbar -> kind us -> us <> [] ->
       exists before c after, cs = (before ++ c :: after)%list /\ same_contraction c hm hn us /\
         forall c', In c' (before ++ after)%list -> ~ same_contraction c' hm hn us) /\
    (forall fh ft, Permutation (what fh ft)
      (flat_map (fun c => if active fh ft (place_of c) then map (pair (c_prefactor c)) (c_calls c) else []) cs)) /\
    Forall more cs.
Lemma every_forget more prog H cc S m n g kind : every_with more prog H cc S m n g kind -> adds_every prog H cc S m n g kind.
Proof. intros (bares & what & cs & A1 & A2 & A3 & A4 & A5 & A6 & _). exists bares, what, cs. auto 10. Qed.

Lemma group_every so son soc H cc S P n prog g kind : ~ loses H cc S P -> H <= 5 -> cc <= 6 -> S <= 6 -> n <= cc -> n <= P -> In kind (kinds 0 n) ->
  places_with so son soc H cc S 0 n prog g kind -> every_with (from_term son soc 0 n) prog H cc S 0 n g kind.
Proof.
  intros L A B C D E K (bares & what & cs & Df & Nb & Ib & Fc & Fp & Nd & Cov & W & Ft). exists bares, what, cs.
  split; [exact Df|]. split; [exact Nb|]. split; [exact Ib|]. split; [exact Fc|]. split; [|exact (conj W Ft)].
  intros hm hn us f fbar R Ku N. destruct (Cov hm hn us f fbar R Ku N) as [Rp Ip]. apply in_map_iff in Ip as (c & Ec & Ic).
  rewrite Forall_forall in Fc, Fp. pose proof (Fc c Ic) as (N' & R' & Ku' & Rp' & _). pose proof (Fp c Ic) as Ep.
  assert (Pe : c_prefactor c = printed so hm hn us) by (unfold place_of, place in Ec; now injection Ec).
  assert (Sm : same_contraction c hm hn us).
  { unfold place_of in Ec. rewrite Pe in Ec, Rp'. destruct (places_distinct H cc S P n kind _ _ _ _ _ _ _ _ _ _ _ L A B C D E K R Ku N R' Ku' N' Rp Rp' (eq_sym Ec)) as (X & Y & Z).
    split; [now symmetry|]. split; [now symmetry|exact Z]. }
  destruct (in_split _ _ Ic) as (before & after & ->). exists before, c, after. split; [reflexivity|]. split; [exact Sm|].
  intros c' Ic' Sm'. rewrite map_app in Nd. cbn [map] in Nd. apply NoDup_remove_2 in Nd. apply Nd. rewrite <- map_app.
  apply in_map_iff. exists c'. split; [|exact Ic']. rewrite Ec. apply printed_same; [exact Sm'|]. apply Fp.
  apply in_app_or in Ic' as [I|I]; apply in_or_app; [now left|right; now right].
Qed.

(** Without a Hamiltonian operator of the request: projections with upper indices. *)
Lemma group_nothing so son soc H cc S m n prog g kind : 1 <= m -> places_with so son soc H cc S m n prog g kind -> every_with (from_term son soc m n) prog H cc S m n g kind.
Proof.
  intros M (bares & what & cs & Df & Nb & Ib & Fc & Fp & Nd & Cov & W & Ft). exists bares, what, cs.
  split; [exact Df|]. split; [exact Nb|]. split; [exact Ib|]. split; [exact Fc|]. split; [|exact (conj W Ft)].
  intros hm hn us f fbar R. apply requested_ground in R. lia.
Qed.

Lemma cc_file_every_with sot so son soc H cc S P text prog :
  set_order sot -> set_order so -> set_order son -> set_order soc -> 1 <= cc <= 6 -> S <= 6 -> H <= 5 -> ~ loses H cc S P ->
  generate_full_cc_python sot so son soc H cc S P = Ok text -> python text prog ->
  forall m n, m + n <= cc -> m + n <= P -> Forall2 (every_with (from_term son soc m n) prog H cc S m n) groups (kinds m n).
Proof.
  intros Hsot Hso Hson Hsoc C1 C2 C3 L E R m n A B.
  pose proof (cc_file_places_with sot so son soc H cc S P text prog Hsot Hso Hson Hsoc C1 C2 C3 E R m n A B) as F.
  assert (X : forall g kind, In kind (kinds m n) -> places_with so son soc H cc S m n prog g kind -> every_with (from_term son soc m n) prog H cc S m n g kind).
  { intros g kind I. destruct m as [|m]; [|apply group_nothing; lia]. apply (group_every so son soc H cc S P); auto; lia. }
  revert F X. generalize (kinds m n) groups. intros ks gs F. induction F as [|g k gs ks G F IH]; intros X; constructor.
  - apply X; [now left|exact G].
  - apply IH. intros g' k' I. apply X. now right.
Qed.
Lemma cc_file_every sot so son soc H cc S P text prog :
  set_order sot -> set_order so -> set_order son -> set_order soc -> 1 <= cc <= 6 -> S <= 6 -> H <= 5 -> ~ loses H cc S P ->
  generate_full_cc_python sot so son soc H cc S P = Ok text -> python text prog ->
  forall m n, m + n <= cc -> m + n <= P -> Forall2 (adds_every prog H cc S m n) groups (kinds m n).
Proof.
  intros Hsot Hso Hson Hsoc C1 C2 C3 L E R m n A B.
  pose proof (cc_file_every_with sot so son soc H cc S P text prog Hsot Hso Hson Hsoc C1 C2 C3 L E R m n A B) as F.
  induction F as [|g k gs ks G F IH]; constructor; [now apply every_forget in G|exact IH].
Qed.

(** ** One is lost *)
Lemma group_misses so son soc H cc S n prog g kind hm1 hn1 us1 f1 fbar1 hm2 hn2 us2 f2 fbar2 :
  places_with so son soc H cc S 0 n prog g kind ->
  requested 0 n H cc S true true hm1 hn1 us1 f1 fbar1 -> kind us1 -> us1 <> [] ->
  requested 0 n H cc S true true hm2 hn2 us2 f2 fbar2 -> kind us2 -> us2 <> [] ->
  ~ (hm1 = hm2 /\ hn1 = hn2 /\ Permutation us1 us2) ->
  place hm1 hn1 us1 (printed so hm1 hn1 us1) = place hm2 hn2 us2 (printed so hm2 hn2 us2) ->
  misses_one prog H cc S 0 n g kind.
Proof.
  intros (bares & what & cs & Df & Nb & Ib & Fc & Fp & Nd & Cov & W & _) R1 K1 N1 R2 K2 N2 Df12 Pl.
  exists bares, what, hm1, hn1, us1, f1, fbar1, hm2, hn2, us2, f2, fbar2.
  do 8 (split; [assumption|]).
  destruct (Cov _ _ _ _ _ R1 K1 N1) as [_ Ip]. apply in_map_iff in Ip as (c & Ec & Ic). rewrite Forall_forall in Fc, Fp.
  assert (X : forall hm hn us f fbar, requested 0 n H cc S true true hm hn us f fbar -> place_of c = place hm hn us (printed so hm hn us) ->
    ~ same_contraction c hm hn us -> forall fh ft p e, In (p, e) (what fh ft) -> ~ realises 0 n hm hn f fbar us e).
  { intros hm hn us f fbar R Ep Ns fh ft p e I Re. apply (Permutation_in _ (W fh ft)) in I. apply in_flat_map in I as (c' & Ic' & I).
    destruct (active fh ft (place_of c')); [|destruct I]. apply in_map_iff in I as (e' & Ee & Ie). injection Ee as _ ->.
    pose proof (Fc c' Ic') as (_ & R' & _ & _ & Fr & _). rewrite Forall_forall in Fr. specialize (Fr e Ie).
    destruct (call_determines _ _ _ _ _ _ _ _ _ _ _ _ _ (requested_no_lower _ _ _ _ _ _ _ _ _ _ R) (requested_no_lower _ _ _ _ _ _ _ _ _ _ R') Re Fr) as (Y1 & Y2 & Y3).
    assert (Sm : same_contraction c' hm hn us) by (split; [now symmetry|split; [now symmetry|exact Y3]]).
    replace c' with c in Sm; [contradiction|]. apply (nodup_map_inj place_of cs); auto. rewrite Ep. symmetry. apply printed_same; [exact Sm|now apply Fp]. }
  destruct (same_dec c hm1 hn1 us1) as [Sm|Ns].
  - right. apply X; [exact R2|now rewrite Ec|]. intros (Y1 & Y2 & Y3). destruct Sm as (Z1 & Z2 & Z3). apply Df12.
    split; [congruence|]. split; [congruence|]. rewrite Z3. now symmetry.
  - left. now apply X.
Qed.

Ltac req := unfold requested, contraction, amplitude, total, up, down; cbn; repeat split; try lia; repeat constructor; cbn; lia.
Ltac lnk u := split; [exists u; split; [cbn; tauto|split; reflexivity]|
  intros t I [D1 D2]; unfold takes_projection; cbn in I; repeat destruct I as [<-|I]; try destruct I; cbn in *; lia].

Lemma cc_file_misses sot so son soc H cc S P text prog :
  set_order sot -> set_order so -> set_order son -> set_order soc -> 1 <= cc <= 6 -> S <= 6 -> H <= 5 -> loses H cc S P ->
  generate_full_cc_python sot so son soc H cc S P = Ok text -> python text prog ->
  exists n g kind, n <= cc /\ n <= P /\ In (g, kind) (combine groups (kinds 0 n)) /\ misses_one prog H cc S 0 n g kind.
Proof.
  intros Hsot Hso Hson Hsoc C1 C2 C3 L E R.
  pose proof (cc_file_places_with sot so son soc H cc S P text prog Hsot Hso Hson Hsoc C1 C2 C3 E R) as F.
  assert (So : so [2] = [2]) by (apply Permutation_length_1_inv, Hso).
  destruct L as [L|[L|[L|L]]].
  - exists 1, ("fully_connected", "connected")%string, fully_connected. split; [lia|]. split; [lia|]. split; [now left|].
    specialize (F 0 1 ltac:(lia) ltac:(lia)). unfold groups, kinds in F. inversion F as [|g k gs ks G _]; subst.
    apply (group_misses so son soc H cc S 1 prog _ _ 1 2 [mkt 2 0 0 0] 0 1 0 2 [mkt 1 0 0 0; mkt 1 0 1 0] 0 0 G); try discriminate.
    + req.
    + repeat constructor; intros [A B]; discriminate.
    + req.
    + repeat constructor; intros [A B]; discriminate.
    + intros (X & _). discriminate.
    + unfold place. f_equal. unfold printed, build_prefactor, simplify_prefactor. cbn. 
      unfold count_dict. cbn. rewrite ?So. reflexivity.
  - exists 3, ("linked_disconnected", "linked")%string, (linked 0 3). split; [lia|]. split; [lia|]. split; [right; now left|].
    specialize (F 0 3 ltac:(lia) ltac:(lia)). unfold groups, kinds in F. inversion F as [|g k gs ks _ F' ]; subst. inversion F' as [|g' k' gs' ks' G _]; subst.
    apply (group_misses so son soc H cc S 3 prog _ _ 1 1 [mkt 0 0 1 0; mkt 1 0 1 0] 0 1 1 1 [mkt 1 0 0 0; mkt 0 0 2 0] 0 1 G); try discriminate.
    + req.
    + lnk (mkt 0 0 1 0).
    + req.
    + lnk (mkt 0 0 2 0).
    + intros (_ & _ & X). apply (Permutation_in (mkt 0 0 1 0)) in X; [|now left]. cbn in X. intuition discriminate.
    + reflexivity.
  - exists 3, ("linked_disconnected", "linked")%string, (linked 0 3). split; [lia|]. split; [lia|]. split; [right; now left|].
    specialize (F 0 3 ltac:(lia) ltac:(lia)). unfold groups, kinds in F. inversion F as [|g k gs ks _ F' ]; subst. inversion F' as [|g' k' gs' ks' G _]; subst.
    apply (group_misses so son soc H cc S 3 prog _ _ 0 1 [mkt 0 0 1 0; mkt 0 0 1 0; mkt 1 0 1 0] 0 0 0 1 [mkt 0 0 1 0; mkt 1 0 0 0; mkt 0 0 2 0] 0 0 G); try discriminate.
    + req.
    + lnk (mkt 0 0 1 0).
    + req.
    + lnk (mkt 0 0 1 0).
    + intros (_ & _ & X). apply (Permutation_in (mkt 1 0 1 0)) in X; [|cbn; tauto]. cbn in X. intuition discriminate.
    + reflexivity.
  - exists 4, ("linked_disconnected", "linked")%string, (linked 0 4). split; [lia|]. split; [lia|]. split; [right; now left|].
    specialize (F 0 4 ltac:(lia) ltac:(lia)). unfold groups, kinds in F. inversion F as [|g k gs ks _ F' ]; subst. inversion F' as [|g' k' gs' ks' G _]; subst.
    apply (group_misses so son soc H cc S 4 prog _ _ 0 1 [mkt 0 0 2 0; mkt 1 0 2 0] 0 0 0 1 [mkt 1 0 1 0; mkt 0 0 3 0] 0 0 G); try discriminate.
    + req.
    + lnk (mkt 0 0 2 0).
    + req.
    + lnk (mkt 0 0 3 0).
    + intros (_ & _ & X). apply (Permutation_in (mkt 0 0 2 0)) in X; [|now left]. cbn in X. intuition discriminate.
    + reflexivity.
Qed.
