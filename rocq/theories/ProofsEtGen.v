(** Proofs about the functions generated for the e^T ansatz. *)
From Coq Require Import Lia.
From Verif Require Import PyBase PyStr PyBaseFacts ModelHelper ModelW ModelFullCC ModelFullCCPy ModelZhz ModelEt ModelEtPy ProofsZhz
  SpecFullCCPy SpecEt SpecEtPy ProofsW ProofsStr ProofsFullCC ProofsFullCCLabels ProofsResidual ProofsEt ProofsEtPy ProofsEtBody ProofsEtText.
Local Open Scope nat_scope.
Local Open Scope list_scope.

(** ** A call determines the contraction up to the order of the amplitudes *)
Lemma nodup_app_disjoint {A} (a b : list A) x : NoDup (a ++ b) -> In x a -> ~ In x b.
Proof. induction a as [|y a IH]; [easy|]. cbn. intros N [->|H]; inversion N as [|? ? N1 N2]; subst; [|auto]. intros H. apply N1, in_or_app. now right. Qed.

Lemma external_of_z s m n k c call : realises_eT s m n k c call ->
  List.length (filter (fun l => existsb (Ascii.eqb l) (chars (c_output call))) (tl (chars (last (c_inputs call) ""%string)))) = e_zp c.
Proof.
  intros (tz & th & hz & eh & ez & L1 & L2 & L3 & L4 & L5 & N & E1 & _ & E3). rewrite E1, E3.
  assert (Lst : forall (a b : list (string * operand)) x, last (map fst (a ++ b ++ [x])) ""%string = fst x).
  { intros a b x. rewrite app_assoc, map_app. apply last_last. }
  rewrite Lst. clear Lst. cbn [z_of_side fst]. rewrite !chars_of_chars. cbn [tl].
  assert (M : forall x l, existsb (Ascii.eqb x) l = true <-> In x l).
  { intros x l. rewrite existsb_exists. split; [intros (y & Hy & Ey); apply Ascii.eqb_eq in Ey; now subst|].
    intros H. exists x. split; [exact H|apply Ascii.eqb_refl]. }
  assert (D : forall x, In x (tz ++ hz) -> ~ In x (result_letter s :: eh ++ ez)).
  { intros x H [<-|H2].
    - apply (nodup_app_disjoint _ _ (result_letter s)) in N; [|destruct s; cbn; auto]. apply N. apply in_or_app.
      apply in_app_iff in H as [H|H]; [now left|]. right. apply in_or_app. right. apply in_or_app. now left.
    - apply NoDup_app_r in N. rewrite (app_assoc th), (app_assoc tz) in N.
      apply (nodup_app_disjoint _ _ x) in N; [now apply N|]. apply in_app_iff in H as [H|H]; apply in_or_app; [now left|right]. apply in_or_app. now right. }
  rewrite (app_assoc tz), filter_app, filter_none.
  2:{ intros x H. destruct (existsb (Ascii.eqb x) _) eqn:B; [|reflexivity]. apply M in B. now apply D in H. }
  cbn [app]. rewrite <- L5. f_equal.
  assert (G : forall l, (forall x, In x l -> In x ez) -> filter (fun l => existsb (Ascii.eqb l) (result_letter s :: eh ++ ez)) l = l).
  { induction l as [|x l IH]; intros H; [reflexivity|]. cbn [filter].
    replace (existsb (Ascii.eqb x) (result_letter s :: eh ++ ez)) with true.
    - f_equal. apply IH. intros; apply H; now right.
    - symmetry. apply M. right. apply in_or_app. right. apply H. now left. }
  apply G. auto.
Qed.

Lemma realised_class s m n k c m' n' k' c' call :
  realises_eT s m n k c call -> realises_eT s m' n' k' c' call ->
  m = m' /\ n = n' /\ k = k' /\ list_sum (e_zt c) + list_sum (e_ht c) = list_sum (e_zt c') + list_sum (e_ht c') /\ e_zp c = e_zp c'.
Proof.
  intros R R'. pose proof (external_of_z _ _ _ _ _ _ R) as X. rewrite (external_of_z _ _ _ _ _ _ R') in X. symmetry in X.
  destruct R as (tz & th & hz & eh & ez & L1 & L2 & _ & _ & _ & _ & _ & E & _).
  destruct R' as (tz' & th' & hz' & eh' & ez' & L1' & L2' & _ & _ & _ & _ & _ & E' & _).
  rewrite E in E'. clear E. revert E'. rewrite !app_assoc, !map_app, !map_map. cbn [map snd]. intros E'.
  apply app_inj_tail in E' as [E1 E2].
  assert (W : forall l : list ascii, map (fun _ => t_of_side s) l = repeat (t_of_side s) (List.length l)).
  { induction l as [|a l IH]; [reflexivity|]. cbn [map List.length repeat]. now rewrite IH. }
  assert (Q : List.length (tz ++ th) = List.length (tz' ++ th') -> list_sum (e_zt c) + list_sum (e_ht c) = list_sum (e_zt c') + list_sum (e_ht c')).
  { rewrite !app_length. lia. }
  assert (K : k = k').
  { unfold z_of_side in E2. destruct s; [destruct m; [destruct n|]; (destruct m'; [destruct n'|])|]; cbn in E2; congruence. }
  rewrite !W, <- !repeat_app, <- !app_length in E1.
  assert (T : forall a b (o o' : operand), repeat (t_of_side s) a ++ [o] = repeat (t_of_side s) b ++ [o'] -> a = b /\ o = o').
  { intros a b o o' H. apply app_inj_tail in H as [H ->]. split; [|reflexivity]. apply (f_equal (@List.length _)) in H. now rewrite !repeat_length in H. }
  assert (U : forall a b, repeat (t_of_side s) a ++ [] = repeat (t_of_side s) b ++ [] -> a = b).
  { intros a b H. apply (f_equal (@List.length _)) in H. rewrite !app_nil_r, !repeat_length in H. exact H. }
  destruct s.
  - destruct m as [|m]; [destruct n as [|n]|]; (destruct m' as [|m']; [destruct n' as [|n']|]); cbn in E2; try discriminate E2;
      cbn [h_of_side map snd] in E1; (apply T in E1 as [E1 E3] || (apply U in E1; assert (E3 := I)));
      repeat split; auto; try congruence.
  - cbn [h_of_side map snd] in E1. apply T in E1 as [E1 E3]. injection E3 as <- <-. repeat split; auto.
Qed.

(** ** The calls and entries depend on the class only *)
Lemma same_entry q m n k c c' s : same_up_to_order c c' -> the_entry q m n k c s = the_entry q m n k c' s.
Proof.
  intros (E1 & E2 & E3 & E4 & E5). unfold the_entry, the_call, groups, tz, th, hz, eh, ez, pair_permutations.
  now rewrite E1, E2, E3, E4, E5.
Qed.
Lemma class_of P q m n k c P' q' c' : complete P q m n k c -> complete P' q' m n k c' ->
  list_sum (e_zt c) + list_sum (e_ht c) = list_sum (e_zt c') + list_sum (e_ht c') -> e_zp c = e_zp c' ->
  q = q' /\ same_up_to_order c c'.
Proof.
  intros C C' E1 E2. pose proof (sums _ _ _ _ _ _ C). pose proof (sums _ _ _ _ _ _ C').
  pose proof (counts _ _ _ _ _ _ C). pose proof (counts _ _ _ _ _ _ C'). unfold same_up_to_order. lia.
Qed.

(** ** Writing a list of terms *)
Lemma concatM_in {A B} (f : A -> res (list B)) l :
  (forall x, In x l -> exists y, f x = Ok y) ->
  exists d, concatM f l = Ok d /\ forall e, In e d <-> exists x y, In x l /\ f x = Ok y /\ In e y.
Proof.
  unfold concatM. induction l as [|a l IH]; intros F.
  - exists []. split; [reflexivity|]. intros e. split; [easy|]. intros (x & y & [] & _).
  - destruct (F a (or_introl eq_refl)) as [y Ey]. destruct IH as (d & E & I); [intros; apply F; now right|].
    cbn [mapM]. rewrite Ey. cbn [bind]. destruct (mapM f l) as [ys|]; [|discriminate]. cbn [bind] in *. injection E as <-.
    exists (List.concat (y :: ys)). split; [reflexivity|]. intros e. cbn [List.concat]. rewrite in_app_iff, I. split.
    + intros [H|(x & y' & H1 & H2 & H3)]; [exists a, y; auto; split; [now left|auto]|exists x, y'; split; [now right|auto]].
    + intros (x & y' & [<-|H1] & H2 & H3); [left; congruence|right; eauto].
Qed.

Section Writing.
  Variables (s : side) (H CC P : nat) (good : nat -> nat -> nat -> nat -> contraction -> Prop) (l : list etterm).
  Hypothesis HCC : 1 <= CC <= 8.
  Hypothesis HP : P <= CC.
  Hypothesis G1 : forall q m n k c, good q m n k c -> of_ansatz s H CC P q m n k c.
  Hypothesis G2 : forall t, In t l <-> exists q m n k c, good q m n k c /\ t = written P q m n k c.

  Lemma letters_suffice q m n k c : of_ansatz s H CC P q m n k c -> q + n <= 10 /\ P <= 8 /\ Nat.max m n <= H.
  Proof.
    intros ((A1 & A2 & A3) & A4 & C). pose proof (sums _ _ _ _ _ _ C). pose proof (counts _ _ _ _ _ _ C). lia.
  Qed.

  Lemma entries_list : exists d, concatM (eT_entries s H) l = Ok d /\
    forall e, In e d <-> exists q m n k c, good q m n k c /\ e = the_entry q m n k c s.
  Proof.
    assert (W : forall q m n k c, good q m n k c -> exists r, 1 <= r /\ eT_entries s H (written P q m n k c) = Ok (repeat (the_entry q m n k c s) r)).
    { intros q m n k c Gd. apply G1 in Gd. destruct (letters_suffice _ _ _ _ _ Gd) as (B1 & B2 & B3). destruct Gd as ((A1 & A2 & A3) & A4 & C).
      destruct (entries_of_term P q m n k c C B1 B2 s H B3) as (r & R1 & _ & E). eauto. }
    destruct (concatM_in (eT_entries s H) l) as (d & E & I).
    { intros t Ht. apply G2 in Ht as (q & m & n & k & c & Gd & ->). destruct (W _ _ _ _ _ Gd) as (r & _ & E). eauto. }
    exists d. split; [exact E|]. intros e. rewrite I. split.
    - intros (t & y & Ht & Ey & He). apply G2 in Ht as (q & m & n & k & c & Gd & ->). destruct (W _ _ _ _ _ Gd) as (r & _ & E2).
      rewrite E2 in Ey. injection Ey as <-. apply repeat_spec in He as ->. exists q, m, n, k, c. auto.
    - intros (q & m & n & k & c & Gd & ->). destruct (W _ _ _ _ _ Gd) as (r & R & E2). exists (written P q m n k c). eexists.
      split; [apply G2; exists q, m, n, k, c; auto|]. split; [exact E2|]. destruct r; [lia|]. now left.
  Qed.

  Lemma one_prefactor a b : render_eT_prefactor (1, a) = render_eT_prefactor (1, b) -> a = b.
  Proof.
    unfold render_eT_prefactor. cbn [fst snd]. destruct (Nat.eqb_spec 1 a) as [<-|Ha], (Nat.eqb_spec 1 b) as [<-|Hb]; try discriminate; [reflexivity|].
    intros E. cbn [append] in E. injection E as E. apply append_inj_r in E. now apply str_nat_inj.
  Qed.

  Variables fh ft fz : nat -> bool.

  Lemma nodup_middle {A B} (f : A -> B) l1 x l2 y : NoDup (map f (l1 ++ x :: l2)) -> In y (l1 ++ l2) -> f y <> f x.
  Proof.
    rewrite map_app. cbn [map]. intros N I E. apply NoDup_remove_2 in N. apply N. rewrite <- map_app, <- E. now apply in_map.
  Qed.

  Lemma nodup_filter_map {A B} (f : A -> B) g (x : list A) : NoDup (map f x) -> NoDup (map f (filter g x)).
  Proof.
    induction x as [|a x IH]; intros N; [constructor|]. cbn [map] in N. inversion N as [|? ? N1 N2]; subst. cbn [filter].
    destruct (g a); [|auto]. cbn [map]. constructor; [|auto]. intros I. apply N1. apply in_map_iff in I as (b & E & I).
    apply filter_In in I as [I _]. rewrite <- E. now apply in_map.
  Qed.

  Lemma written_body b : write_third_eTz_einsum_python s H CC l = Ok b ->
    exactly_adds s (fun q m n k c => good q m n k c /\ is_on fh ft fz (Nat.max m n) (match q with 0 => 0 | S _ => 1 end) k = true)
      (run_ebody fh ft fz b).
  Proof.
    intros Eb. destruct entries_list as (d & Ed & Id).
    assert (E : run_ebody fh ft fz b = map (fun e => (en_pref e, en_call e)) (filter (fun e => is_on fh ft fz (en_h e) (en_t e) (en_z e)) (loc_body d H CC))).
    { unfold write_third_eTz_einsum_python in Eb. destruct l as [|t l'] eqn:El.
      - injection Eb as <-. cbn [run_ebody]. cbn in Ed. injection Ed as <-. symmetry.
        assert (Z : loc_body [] H CC = []).
        { destruct (body_spec [] H CC) as (_ & B & _). destruct (loc_body [] H CC) as [|e r]; [reflexivity|].
          destruct (B e (or_introl eq_refl)) as (_ & _ & (e' & [] & _) & _). }
        now rewrite Z.
      - rewrite Ed in Eb. cbn [bind] in Eb. apply body_ok in Eb as ->. apply run_body. }
    rewrite E. clear E Eb b.
    destruct (body_spec d H CC) as (N & S1 & S2). set (loc := loc_body d H CC) in *.
    set (on := fun e => is_on fh ft fz (en_h e) (en_t e) (en_z e)).
    assert (F : forall e, In e loc -> exists q m n k c, good q m n k c /\ en_call e = the_call q m n k c s /\ en_pref e = (1, pair_permutations c) /\
      place e = place (the_entry q m n k c s)).
    { intros e He. destruct (S1 e He) as (_ & _ & (e2 & H2 & Ep) & e1 & H1 & Pl & Ec).
      apply Id in H1 as (q & m & n & k & c & Gd & ->). apply Id in H2 as (q2 & m2 & n2 & k2 & c2 & _ & ->).
      exists q, m, n, k, c. split; [exact Gd|]. split; [now rewrite <- Ec|]. split; [|now symmetry].
      cbn [en_pref the_entry] in Ep. rewrite <- Ep. f_equal. apply one_prefactor. rewrite Ep.
      unfold place in Pl. cbn [en_pref the_entry] in Pl. congruence. }
    split.
    - intros p call I. apply in_map_iff in I as (e & [= <- <-] & He). apply filter_In in He as [He On].
      destruct (F e He) as (q & m & n & k & c & Gd & Ec & Ep & Pl). exists q, m, n, k, c. split; [|split; [|exact Ep]].
      + split; [exact Gd|]. unfold place in Pl. cbn [the_entry en_h en_t en_z] in Pl. unfold on in On.
        injection Pl as P1 P2 P3 _ _. now rewrite P1, P2, P3 in On.
      + rewrite Ec. pose proof (G1 _ _ _ _ _ Gd) as O. destruct (letters_suffice _ _ _ _ _ O) as (B1 & B2 & _).
        destruct O as (_ & _ & C). now apply (realised P q m n k c C).
    - intros q m n k c [Gd On]. destruct (S2 (the_entry q m n k c s)) as (e & He & Pl).
      + apply Id. exists q, m, n, k, c. auto.
      + cbn [the_entry en_h]. apply (letters_suffice q m n k c). now apply G1.
      + cbn [the_entry en_t]. destruct q; lia.
      + assert (Ie : In e (filter on loc)).
        { apply filter_In. split; [exact He|]. unfold on. unfold place in Pl. cbn [the_entry en_h en_t en_z] in Pl. injection Pl as P1 P2 P3 _ _. now rewrite P1, P2, P3. }
        apply in_split in Ie as (l1 & l2 & El). exists (map (fun e => (en_pref e, en_call e)) l1), (en_pref e), (en_call e), (map (fun e => (en_pref e, en_call e)) l2).
        pose proof (G1 _ _ _ _ _ Gd) as O. destruct (letters_suffice _ _ _ _ _ O) as (B1 & B2 & _). destruct O as (_ & _ & C).
        pose proof (realised P q m n k c C B1 B2 s) as R.
        destruct (F e He) as (q1 & m1 & n1 & k1 & c1 & Gd1 & Ec1 & Ep1 & Pl1).
        assert (Ecall : en_call e = the_call q m n k c s).
        { rewrite Ec1. apply call_inj; [apply the_call_plain|apply the_call_plain|]. rewrite Pl1 in Pl. unfold place in Pl. cbn [the_entry en_call] in Pl. congruence. }
        split; [rewrite El, map_app; reflexivity|]. split; [rewrite Ecall; exact R|]. split.
        * rewrite Ep1. f_equal. rewrite Pl1 in Pl. unfold place in Pl. cbn [the_entry en_pref] in Pl. injection Pl as _ _ _ Pl _. now apply one_prefactor.
        * intros p' call' I R'. rewrite <- map_app in I. apply in_map_iff in I as (e2 & [= <- <-] & I2).
          assert (He2 : In e2 loc).
          { assert (I3 : In e2 (filter on loc)) by (rewrite El; apply in_app_iff in I2 as [?|?]; apply in_or_app; [now left|right; now right]).
            now apply filter_In in I3. }
          destruct (F e2 He2) as (q2 & m2 & n2 & k2 & c2 & Gd2 & Ec2 & _ & Pl2). rewrite Ec2 in R'.
          pose proof (G1 _ _ _ _ _ Gd2) as O2. destruct (letters_suffice _ _ _ _ _ O2) as (B12 & B22 & _). destruct O2 as (_ & _ & C2).
          pose proof (realised P q2 m2 n2 k2 c2 C2 B12 B22 s) as R2.
          destruct (realised_class _ _ _ _ _ _ _ _ _ _ R' R2) as (<- & <- & <- & Es & Ez).
          destruct (class_of _ _ _ _ _ _ _ _ _ C C2 Es Ez) as [<- Sm].
          assert (Q : place e2 = place e) by (rewrite Pl2, Pl; f_equal; symmetry; now apply same_entry).
          revert Q. apply (nodup_middle place l1 e l2); [|exact I2]. rewrite <- El. now apply nodup_filter_map.
  Qed.
End Writing.

(** ** The terms of a function *)
Lemma pruned_in H h : In h (generate_pruned_H_operator H) ->
  h_m h + h_n h <= H /\ (h_m h + h_n h < 3 \/ h_m h = 0).
Proof.
  unfold generate_pruned_H_operator, generate_full_cc_hamiltonian_operator. intros I. apply filter_In in I as [I B].
  apply in_map_iff in I as ([m n] & <- & I). apply in_mn_pairs in I. cbn [h_m h_n h_rank fst snd] in *.
  apply orb_true_iff in B as [B|B]; [apply Nat.ltb_lt in B|apply Nat.eqb_eq in B]; lia.
Qed.
Lemma in_pruned H m n : m + n <= H -> (m + n < 3 \/ m = 0) -> exists h, In h (generate_pruned_H_operator H) /\ h_m h = m /\ h_n h = n.
Proof.
  intros H1 H2. unfold generate_pruned_H_operator, generate_full_cc_hamiltonian_operator.
  eexists. split; [apply filter_In; split; [apply (in_map _ _ (m, n)); now apply in_mn_pairs|]|split; reflexivity].
  cbn [h_m h_n h_rank fst snd]. apply orb_true_iff. destruct H2; [left; now apply Nat.ltb_lt|right; now apply Nat.eqb_eq].
Qed.

Lemma remove_first_in {A} (f : A -> bool) l : NoDup l -> (forall x y, In x l -> In y l -> f x = true -> f y = true -> x = y) ->
  forall x, In x (remove_first f l) <-> In x l /\ f x = false.
Proof.
  induction l as [|a l IH]; intros N U x; [cbn; tauto|]. inversion N as [|? ? N1 N2]; subst. cbn [remove_first].
  destruct (f a) eqn:Ea.
  - split.
    + intros Hx. split; [now right|]. destruct (f x) eqn:Ex; [|reflexivity].
      exfalso. apply N1. rewrite (U a x (or_introl eq_refl) (or_intror Hx) Ea Ex). exact Hx.
    + intros [[->|Hx] Ex]; [congruence|exact Hx].
  - cbn [In]. rewrite IH; [|exact N2|intros; apply U; auto; now right]. split; [intros [->|[? ?]]; auto|intros [[->|?] ?]; auto].
Qed.

Lemma written_parts P q m n k c : eh_rank (tt_h (written P q m n k c)) = m + n /\ ez_m (tt_z (written P q m n k c)) = k /\
  el_n (tt_lhs (written P q m n k c)) = P.
Proof. unfold written. cbn. auto. Qed.

Section Terms.
  Variables (s : side) (Proj : gop) (H CC e : nat) (g : bool).
  Hypothesis HP : g_m Proj = 0.
  Notation P := (g_n Proj).
  Notation HL := (fst (ground_state_operators s (generate_pruned_H_operator H) (generate_z_operator CC g))).
  Notation ZL := (snd (ground_state_operators s (generate_pruned_H_operator H) (generate_z_operator CC g))).

  Lemma lists_ok : distinct_h HL /\ ground_z ZL.
  Proof.
    split; [|apply z_ground]. pose proof (pruned_distinct H) as D. destruct s; [|exact D]. unfold distinct_h in *. cbn [ground_state_operators fst].
    now apply nodup_filter_map.
  Qed.
  Lemma ansatz_lists s' q t : (s' = s \/ s' = RHS) ->
    (contraction_of_lists s' P q HL ZL t <-> exists m n k c, of_ansatz s H CC P q m n k c /\ t = written P q m n k c).
  Proof.
    intros Hs'. unfold contraction_of_lists, of_ansatz, h_of_ansatz. split.
    - intros (h & z & c & Hh & Hz & A & C & E). exists (h_m h), (h_n h), (g_m z), c. split; [|exact E].
      assert (Hp : In h (generate_pruned_H_operator H) /\ (s = LHS -> h_n h = 0)).
      { cbn [ground_state_operators fst] in Hh. destruct s; [|split; [exact Hh|discriminate]]. apply filter_In in Hh as [Hh B]. apply Nat.eqb_eq in B. auto. }
      destruct Hp as [Hp B]. apply pruned_in in Hp as [H1 H2]. split; [repeat split; auto|]. split; [|exact C].
      apply (proj2 (z_ground CC g)). exists z. auto.
    - intros (m & n & k & c & ((H1 & H2 & H3) & H4 & C) & E). destruct (in_pruned H m n H1 H2) as (h & Hh & <- & <-).
      apply (proj2 (z_ground CC g)) in H4 as (z & Hz & <-). exists h, z, c. repeat split; auto; try apply C.
      + cbn [ground_state_operators fst]. destruct s; [|exact Hh]. apply filter_In. split; [exact Hh|]. apply Nat.eqb_eq. now apply H3.
      + intros El. apply H3. destruct Hs' as [->| ->]; [exact El|discriminate].
  Qed.

  Lemma terms_lists ser : generate_eT_taylor_expansion 1 e = Ok ser ->
    exists zl tl, eT_zhz_terms s Proj HL ZL ser = Ok (zl, tl) /\
      (forall t, In t zl <-> exists q m n k c, (q = 0 /\ of_ansatz s H CC P q m n k c /\ ~ bare_term P q m n k) /\ t = written P q m n k c) /\
      (forall t, In t tl <-> exists q m n k c, (1 <= q <= e /\ of_ansatz s H CC P q m n k c) /\ t = written P q m n k c).
  Proof.
    intros ET. assert (He : 1 <= e) by (destruct e; [discriminate|lia]).
    pose proof ET as ET'. rewrite taylor_1 in ET' by exact He. injection ET' as ET'.
    destruct lists_ok as [LH LZ].
    pose proof (fun s' q st => et_terms_exact s' Proj e ser q st HL ZL HP LZ LH ET) as X.
    assert (Enth : forall q, q <= e -> nth_error ser q = Some (series_of q)).
    { intros q Hq. rewrite <- ET'. unfold range. rewrite nth_error_map. rewrite (nth_error_nth' _ 0) by (rewrite seq_length; lia).
      rewrite seq_nth by lia. reflexivity. }
    destruct (X s 0 (series_of 0) (Enth 0 ltac:(lia))) as (zl & Ez & Nz & Iz).
    assert (Etl : concatM (fun st => filter_out_valid_eTz_terms Proj st HL ZL RHS) (map series_of (range 1 (e + 1)))
      = concatM (fun q => filter_out_valid_eTz_terms Proj (series_of q) HL ZL RHS) (range 1 (e + 1))).
    { unfold concatM. f_equal. induction (range 1 (e + 1)) as [|q l IH]; [reflexivity|]. cbn [map mapM]. now rewrite IH. }
    destruct (concatM_in (fun q => filter_out_valid_eTz_terms Proj (series_of q) HL ZL RHS) (range 1 (e + 1))) as (tl & Et & It).
    { intros q Hq. apply in_range in Hq. destruct (X RHS q (series_of q) (Enth q ltac:(lia))) as (l & E & _). eauto. }
    exists (remove_first is_solved_for zl), tl. split; [|split].
    - unfold eT_zhz_terms. rewrite <- ET'. assert (R : range 0 (e + 1) = 0 :: range 1 (e + 1)).
      { unfold range. replace (e + 1 - 0) with (S e) by lia. replace (e + 1 - 1) with e by lia. reflexivity. }
      rewrite R. cbn [map]. rewrite Ez. cbn [bind]. rewrite Etl, Et. reflexivity.
    - intros t. assert (Sv : forall t, In t zl -> (is_solved_for t = true <-> exists c, t = written P 0 0 0 P c /\ complete P 0 0 0 P c)).
      { intros t' Ht. apply Iz, ansatz_lists in Ht as (m & n & k & c & (_ & _ & C) & ->); [|now left].
        unfold is_solved_for. destruct (written_parts P 0 m n k c) as (-> & -> & ->). rewrite andb_true_iff, !Nat.eqb_eq. split.
        - intros [M K]. assert (m = 0) as -> by lia. assert (n = 0) as -> by lia. subst k. eauto.
        - intros (c' & E & _). assert (T : eh_rank (tt_h (written P 0 m n k c)) = 0) by (rewrite E; reflexivity).
          assert (T2 : ez_m (tt_z (written P 0 m n k c)) = P) by (rewrite E; reflexivity). cbn in T, T2. auto. }
      rewrite remove_first_in; [|exact Nz|].
      + split.
        * intros [Ht Hf]. pose proof Ht as Ht2. apply Iz, ansatz_lists in Ht2 as (m & n & k & c & O & ->); [|now left].
          exists 0, m, n, k, c. split; [|reflexivity]. split; [reflexivity|]. split; [exact O|]. intros (_ & -> & -> & ->).
          assert (T : is_solved_for (written P 0 0 0 P c) = true) by (apply Sv; [exact Ht|]; exists c; split; [reflexivity|apply O]). congruence.
        * intros (q & m & n & k & c & (-> & O & B) & ->). assert (Ht : In (written P 0 m n k c) zl).
          { apply Iz, ansatz_lists; [now left|]. exists m, n, k, c. auto. }
          split; [exact Ht|]. unfold is_solved_for. destruct (written_parts P 0 m n k c) as (-> & -> & ->).
          apply andb_false_iff. rewrite !Nat.eqb_neq. destruct (Nat.eq_dec (m + n) 0) as [M|M]; [|now left]. right. intros K. apply B. unfold bare_term. lia.
      + intros t1 t2 H1 H2 F1 F2. apply Sv in F1 as (c1 & -> & C1); [|exact H1]. apply Sv in F2 as (c2 & -> & C2); [|exact H2]. f_equal.
        destruct c1 as [a1 b1 x1 d1 y1], c2 as [a2 b2 x2 d2 y2]. destruct C1 as (A1 & A2 & A3 & A4 & _ & A6 & A7), C2 as (B1 & B2 & B3 & B4 & _ & B6 & B7).
        cbn in *. destruct x1; [|discriminate]. destruct y1; [|discriminate]. destruct x2; [|discriminate]. destruct y2; [|discriminate].
        f_equal; cbn in *; lia.
    - intros t. rewrite It. split.
      + intros (q & y & Hq & Ey & Ht). apply in_range in Hq. destruct (X RHS q (series_of q) (Enth q ltac:(lia))) as (l & E & _ & I).
        rewrite E in Ey. injection Ey as <-. apply I, ansatz_lists in Ht as (m & n & k & c & O & ->); [|now right].
        exists q, m, n, k, c. split; [split; [lia|exact O]|reflexivity].
      + intros (q & m & n & k & c & (Hq & O) & ->). destruct (X RHS q (series_of q) (Enth q ltac:(lia))) as (l & E & _ & I).
        exists q, l. split; [apply in_range; lia|]. split; [exact E|]. apply I, ansatz_lists; [now right|]. exists m, n, k, c. auto.
  Qed.
End Terms.

(** ** Amplitudes of excited states *)
Definition no_excited (st : series_term) : Prop :=
  match st with
  | SOne t => g_m t = 0
  | SLin l => l <> [] /\ Forall (fun t => g_m t = 0) l
  | SProd l => l <> [] /\ Forall (Forall (fun t => g_m t = 0)) l
  end.
Lemma no_excited_filter l : Forall (fun t => g_m t = 0) l -> filter excited l = [].
Proof. intros F. apply filter_none. intros t Ht. rewrite Forall_forall in F. unfold excited. now rewrite (F t Ht). Qed.
Lemma loop_id l : forall i, Forall no_excited l -> remove_excited_loop i 0 l = (l, 0).
Proof.
  induction l as [|st l IH]; intros i F; [reflexivity|]. apply Forall_cons_iff in F as [F1 F]. cbn [remove_excited_loop]. destruct st as [t|ts|ps]; cbn in F1.
  - rewrite IH by exact F. unfold excited. rewrite F1. reflexivity.
  - destruct F1 as [_ F1]. rewrite no_excited_filter by exact F1. cbn [List.length plus]. rewrite IH by exact F. reflexivity.
  - destruct F1 as [_ F1]. rewrite IH by exact F. cbn [skipn]. do 2 f_equal. f_equal.
    induction ps as [|p ps IHp]; [reflexivity|]. apply Forall_cons_iff in F1 as [Fp F1]. cbn [map]. rewrite no_excited_filter by exact Fp. cbn [List.length skipn]. f_equal. now apply IHp.
Qed.
Lemma remove_excited_id l : Forall no_excited l -> remove_all_excited_state_t_terms l = l.
Proof.
  intros F. unfold remove_all_excited_state_t_terms. rewrite loop_id by exact F. cbn [skipn].
  induction l as [|st l IH]; [reflexivity|]. apply Forall_cons_iff in F as [F1 F]. cbn [filter].
  destruct st as [t|[|a r]|[|a r]]; cbn in F1; [|destruct F1; congruence| |destruct F1; congruence|]; (f_equal; now apply IH).
Qed.
Lemma series_no_excited r e ser : 1 <= r -> generate_eT_taylor_expansion r e = Ok ser -> Forall no_excited ser.
Proof.
  intros Hr E. unfold generate_eT_taylor_expansion in E. destruct (Nat.eqb_spec e 0); [discriminate|]. injection E as <-.
  assert (T : forall t, In t (generate_eT_operator r) -> g_m t = 0) by (intros t Ht; apply eT_operators_exact in Ht; apply Ht).
  assert (Ne : generate_eT_operator r <> []).
  { intros E. assert (I : In (mkgop "s_1" 1 0 1) (generate_eT_operator r)); [|rewrite E in I; destruct I].
    apply eT_operators_exact. repeat split; cbn; lia. }
  constructor; [reflexivity|]. constructor; [split; [exact Ne|apply Forall_forall; exact T]|].
  apply Forall_forall. intros st Hst. apply in_map_iff in Hst as (k & <- & Hk). cbn [no_excited]. split.
  - assert (G : forall k, product (repeat (generate_eT_operator r) k) <> []).
    { clear - Ne. induction k as [|k IH]; [discriminate|]. cbn [repeat product]. destruct (generate_eT_operator r); [easy|].
      cbn [flat_map]. destruct (product _); [easy|discriminate]. }
    apply G.
  - apply Forall_forall. intros p Hp. apply in_product_repeat in Hp as [_ F]. rewrite Forall_forall in *. auto.
Qed.

(** ** A function of the ground state *)
Lemma ground_functions s Proj H CC e g ser b1 b2 fh ft fz :
  g_m Proj = 0 -> g_n Proj <= CC -> 1 <= CC <= 8 ->
  generate_eT_taylor_expansion 1 e = Ok ser ->
  generate_eT_zhz_einsums s Proj (mkops H CC (generate_pruned_H_operator H) (generate_z_operator CC g) ser) true = Ok (b1, b2) ->
  exactly_adds s (fun q m n k c => (q = 0 /\ of_ansatz s H CC (g_n Proj) q m n k c /\ ~ bare_term (g_n Proj) q m n k) /\
                    is_on fh ft fz (Nat.max m n) (match q with 0 => 0 | S _ => 1 end) k = true) (run_ebody fh ft fz b1) /\
  exactly_adds s (fun q m n k c => (1 <= q <= e /\ of_ansatz s H CC (g_n Proj) q m n k c) /\
                    is_on fh ft fz (Nat.max m n) (match q with 0 => 0 | S _ => 1 end) k = true) (run_ebody fh ft fz b2).
Proof.
  intros HP HPc HCC ET E. unfold generate_eT_zhz_einsums in E. cbn [op_H op_Z op_eT op_h_rank op_cc_rank] in E.
  rewrite (remove_excited_id _ (series_no_excited 1 e ser ltac:(lia) ET)) in E.
  destruct (terms_lists s Proj H CC e g HP ser ET) as (zl & tl & Et & Iz & It).
  destruct (ground_state_operators s (generate_pruned_H_operator H) (generate_z_operator CC g)) as [HL ZL] eqn:EL. cbn [fst snd] in Et.
  rewrite Et in E. cbn [bind] in E.
  assert (W : (exists w1 w2, write_third_eTz_einsum_python s H CC zl = Ok w1 /\ write_third_eTz_einsum_python s H CC tl = Ok w2 /\
    run_ebody fh ft fz b1 = run_ebody fh ft fz w1 /\ run_ebody fh ft fz b2 = run_ebody fh ft fz w2)).
  { destruct zl as [|z0 zl']; [destruct tl as [|t0 tl']|].
    - injection E as <- <-. exists ENoTerms, ENoTerms. auto.
    - destruct (write_third_eTz_einsum_python s H CC []) as [w1|] eqn:E1; [|discriminate].
      destruct (write_third_eTz_einsum_python s H CC (t0 :: tl')) as [w2|] eqn:E2; [|discriminate]. cbn [bind] in E. injection E as <- <-. exists w1, w2. auto.
    - destruct (write_third_eTz_einsum_python s H CC (z0 :: zl')) as [w1|] eqn:E1; [|discriminate].
      destruct (write_third_eTz_einsum_python s H CC tl) as [w2|] eqn:E2; [|discriminate]. cbn [bind] in E. injection E as <- <-. exists w1, w2. auto. }
  destruct W as (w1 & w2 & W1 & W2 & -> & ->). split.
  - apply (written_body s H CC (g_n Proj) _ zl HCC HPc); [|exact Iz|exact W1]. intros q m n k c (_ & O & _). exact O.
  - apply (written_body s H CC (g_n Proj) _ tl HCC HPc); [|exact It|exact W2]. intros q m n k c (_ & O). exact O.
Qed.
