(** Proofs about the subscripts of the full coupled cluster einsum calls. *)
From Verif Require Import PyBase PyBaseFacts ModelHelper ModelW ModelFullCC ModelPrefactor ModelFullCCPy
  SpecFullCC SpecFullCCPy ProofsHelper ProofsW ProofsStr ProofsFullCC.

(** ** Slices *)
Definition slice {A} (l : list A) (a n : nat) : list A := firstn n (skipn a l).

Lemma chars_substring a n s : chars (String.substring a n s) = slice (chars s) a n.
Proof.
  unfold slice. revert a n. induction s as [|c s IH]; intros a n; cbn.
  - destruct a, n; reflexivity.
  - destruct a as [|a].
    + destruct n as [|n]; [reflexivity|]. cbn. f_equal. rewrite IH. reflexivity.
    + rewrite IH. reflexivity.
Qed.
Lemma chars_sslice a n s : chars (sslice a (a + n) s) = slice (chars s) a n.
Proof. unfold sslice. rewrite chars_substring. f_equal. lia. Qed.

Lemma firstn_add {A} n m (l : list A) : firstn (n + m) l = (firstn n l ++ firstn m (skipn n l))%list.
Proof. revert l; induction n as [|n IH]; intros l; [reflexivity|]. destruct l as [|x l]; cbn; [now rewrite firstn_nil|]. f_equal. apply IH. Qed.
Lemma skipn_add {A} a n (l : list A) : skipn n (skipn a l) = skipn (a + n) l.
Proof. revert l; induction a as [|a IH]; intros l; [reflexivity|]. destruct l as [|x l]; cbn; [now rewrite skipn_nil|]. apply IH. Qed.

Lemma slice_app {A} (l : list A) a n m : (slice l a n ++ slice l (a + n) m)%list = slice l a (n + m).
Proof. unfold slice. now rewrite firstn_add, skipn_add. Qed.
Lemma slice_0 {A} (l : list A) a : slice l a 0 = [].
Proof. reflexivity. Qed.
Lemma slice_length {A} (l : list A) a n : a + n <= List.length l -> List.length (slice l a n) = n.
Proof. intros H. unfold slice. rewrite firstn_length, skipn_length. lia. Qed.

(** ** The letters of the amplitudes *)
Notation SL := (chars summation_indices).
Notation XL := (chars unlinked_indices).

Fixpoint parts (ts : list tamp) (l u x : nat) : list tlabel :=
  match ts with
  | [] => []
  | t :: r =>
      mktl (slice SL l (n_h t)) (slice SL u (m_h t)) (slice XL x (n_o t)) (slice XL (x + n_o t) (m_o t))
      :: parts r (l + n_h t) (u + m_h t) (x + n_o t + m_o t)
  end.

Lemma length_parts ts l u x : List.length (parts ts l u x) = List.length ts.
Proof. revert l u x; induction ts as [|t r IH]; intros; cbn; auto. Qed.

Lemma t_labels_parts t u l x :
  let '(s, v, o) := t_labels t (mkoff u l x) in
  chars s = (slice SL l (n_h t) ++ slice SL u (m_h t))%list /\
  chars v = (slice XL x (n_o t) ++ slice XL (x + n_o t) (m_o t))%list /\
  o = mkoff (u + m_h t) (l + n_h t) (x + n_o t + m_o t).
Proof.
  unfold t_labels.
  assert (L : t_lower_labels t (mkoff u l x) =
    (sslice l (l + n_h t) summation_indices, sslice x (x + n_o t) unlinked_indices, mkoff u (l + n_h t) (x + n_o t))).
  { unfold t_lower_labels. cbn [o_lower o_upper o_unlinked].
    destruct (Nat.ltb_spec 0 (n_h t)); [reflexivity|]. destruct (Nat.ltb_spec 0 (n_o t)); [reflexivity|]. cbn [orb].
    replace (n_h t) with 0 by lia. replace (n_o t) with 0 by lia. rewrite !Nat.add_0_r.
    assert (Z : forall a s, sslice a a s = ""%string).
    { intros a s. rewrite <- (of_chars_chars (sslice a a s)). rewrite <- (Nat.add_0_r a) at 2. now rewrite chars_sslice. }
    now rewrite !Z. }
  rewrite L.
  assert (U : t_upper_labels t (mkoff u (l + n_h t) (x + n_o t)) =
    (sslice u (u + m_h t) summation_indices, sslice (x + n_o t) (x + n_o t + m_o t) unlinked_indices,
     mkoff (u + m_h t) (l + n_h t) (x + n_o t + m_o t))).
  { unfold t_upper_labels. cbn [o_lower o_upper o_unlinked].
    destruct (Nat.ltb_spec 0 (m_h t)); [reflexivity|]. destruct (Nat.ltb_spec 0 (m_o t)); [reflexivity|]. cbn [orb].
    replace (m_h t) with 0 by lia. replace (m_o t) with 0 by lia. rewrite !Nat.add_0_r.
    assert (Z : forall a s, sslice a a s = ""%string).
    { intros a s. rewrite <- (of_chars_chars (sslice a a s)). rewrite <- (Nat.add_0_r a) at 2. now rewrite chars_sslice. }
    now rewrite !Z. }
  rewrite U. rewrite !chars_app, !chars_sslice. auto.
Qed.

Lemma t_group_parts ts u l x :
  map (fun su => (chars (fst su), chars (snd su))) (t_group_loop ts (mkoff u l x)) =
  map (fun p => ((l_nh p ++ l_mh p)%list, (l_no p ++ l_mo p)%list)) (parts ts l u x).
Proof.
  revert u l x; induction ts as [|t r IH]; intros; [reflexivity|].
  cbn [t_group_loop parts]. pose proof (t_labels_parts t u l x) as H.
  destruct (t_labels t (mkoff u l x)) as [[s v] o]. destruct H as (E1 & E2 & ->).
  cbn [map fst snd l_nh l_mh l_no l_mo]. now rewrite E1, E2, IH.
Qed.

Lemma parts_nh ts l u x : flat_map l_nh (parts ts l u x) = slice SL l (total n_h ts).
Proof.
  revert l u x; induction ts as [|t r IH]; intros; [reflexivity|].
  cbn [parts flat_map l_nh total fold_right]. rewrite IH. apply slice_app.
Qed.
Lemma parts_mh ts l u x : flat_map l_mh (parts ts l u x) = slice SL u (total m_h ts).
Proof.
  revert l u x; induction ts as [|t r IH]; intros; [reflexivity|].
  cbn [parts flat_map l_mh total fold_right]. rewrite IH. apply slice_app.
Qed.
Lemma parts_o ts l u x :
  flat_map (fun p => (l_no p ++ l_mo p)%list) (parts ts l u x) = slice XL x (total n_o ts + total m_o ts).
Proof.
  revert l u x; induction ts as [|t r IH]; intros; [reflexivity|].
  cbn [parts flat_map l_no l_mo total fold_right]. rewrite IH. rewrite slice_app.
  replace (x + n_o t + m_o t) with (x + (n_o t + m_o t)) by lia. rewrite slice_app. f_equal.
  unfold total. lia.
Qed.

Lemma parts_fit ts l u x :
  l + total n_h ts <= 10 -> u + total m_h ts <= 10 -> x + total n_o ts + total m_o ts <= 8 ->
  Forall2 fits ts (parts ts l u x).
Proof.
  revert l u x; induction ts as [|t r IH]; intros l u x H1 H2 H3; cbn [parts]; constructor.
  - unfold total in *; cbn [fold_right] in *.
    unfold fits; cbn [l_nh l_mh l_no l_mo].
    repeat split; apply slice_length; cbn [List.length summation_indices unlinked_indices chars]; lia.
  - unfold total in *; cbn [fold_right] in *. apply IH; lia.
Qed.

(** ** The vibrational components *)
Section Term.
  Variables om on hm hn f fbar : nat.
  Variable ts : list tamp.
  Hypothesis Hc : contraction om on hm hn ts f fbar.
  Variable h : chop.
  Hypothesis Hm : ch_m h = hm.
  Hypothesis Hn : ch_n h = hn.
  Hypothesis Hr : ch_rank h = hm + hn.
  Hypothesis Hmo : ch_m_o h = fbar.
  Hypothesis Hno : ch_n_o h = f.

  Definition su := slice SL 0 (hm - fbar).
  Definition sl := slice SL (hm - fbar) (hn - f).
  Definition eu := slice XL 0 fbar.
  Definition el := slice XL fbar f.
  Definition out := slice XL 0 (om + on).
  Definition labels := parts ts 0 (hm - fbar) (fbar + f).

  Lemma vibrational_parts :
    vibrational_components h ts =
    (of_chars (su ++ sl ++ eu ++ el)%list :: map (fun p => of_chars (letters p)) labels, of_chars out).
  Proof.
    destruct Hc as (C1 & C2 & C3 & C4).
    unfold vibrational_components.
    assert (E : h_labels h = (of_chars (su ++ sl)%list, of_chars (eu ++ el)%list)).
    { unfold h_labels. rewrite Hr, Hm, Hn, Hmo, Hno. destruct (Nat.eqb_spec (hm + hn) 0) as [Z|NZ].
      - unfold su, sl, eu, el. replace (hm - fbar) with 0 by lia. replace (hn - f) with 0 by lia.
        replace fbar with 0 by lia. replace f with 0 by lia. reflexivity.
      - f_equal.
        + rewrite <- (of_chars_chars (_ +++ _)), chars_app, chars_sslice.
          f_equal. f_equal. unfold su. change (hm - fbar) with (0 + (hm - fbar)) at 1. now rewrite chars_sslice.
        + rewrite <- (of_chars_chars (_ +++ _)), chars_app, chars_sslice.
          f_equal. f_equal. unfold eu. change fbar with (0 + fbar) at 1. now rewrite chars_sslice. }
    rewrite E. cbn [fst snd].
    pose proof (t_group_parts ts (hm - fbar) 0 (fbar + f)) as G. fold labels in G.
    unfold t_group. rewrite Hm, Hmo, Hno. set (g := t_group_loop ts _) in *.
    f_equal.
    - f_equal.
      + rewrite <- (of_chars_chars (_ +++ _)), chars_app, !chars_of_chars. now rewrite <- app_assoc.
      + clear -G. revert G. generalize labels. induction g as [|[s v] g IH]; intros [|p ps] G; try discriminate; [reflexivity|].
        cbn [map fst snd] in *. injection G as G1 G2 G3. f_equal; [|now apply IH].
        rewrite <- (of_chars_chars (_ +++ _)), chars_app, G1, G2. unfold letters. now rewrite <- app_assoc.
    - rewrite <- (of_chars_chars (concat_str _)). f_equal.
      assert (Q : forall g labels, map (fun su0 => (chars (fst su0), chars (snd su0))) g =
          map (fun p => ((l_nh p ++ l_mh p)%list, (l_no p ++ l_mo p)%list)) labels ->
          chars (concat_str (map snd g)) = flat_map (fun p => (l_no p ++ l_mo p)%list) labels).
      { clear. induction g as [|[s v] g IH]; intros [|p ps] G; try discriminate; [reflexivity|].
        cbn [map fst snd flat_map] in *. injection G as G1 G2 G3.
        change (concat_str (v :: map snd g)) with (v +++ concat_str (map snd g)).
        rewrite chars_app, G2, (IH ps G3). reflexivity. }
      change (concat_str (of_chars (eu ++ el)%list :: map snd g)) with (of_chars (eu ++ el)%list +++ concat_str (map snd g)).
      rewrite chars_app, chars_of_chars, (Q _ _ G). unfold labels. rewrite parts_o.
      unfold eu, el, out. change (fbar + f) with (0 + fbar + f) at 1.
      replace (slice XL fbar f) with (slice XL (0 + fbar) f) by reflexivity. rewrite slice_app.
      replace (0 + fbar + f) with (0 + (fbar + f)) by lia. rewrite slice_app. f_equal. lia.
  Qed.
End Term.

(** ** The electronic chain *)
Definition mids (k : nat) : list ascii := firstn k (chars "cdefgh").
Definition chain (k : nat) : list ascii := ("a" :: mids k ++ ["b"])%char%list.

Lemma electronic_chain k : 1 <= k <= 6 ->
  electronic_components k = Ok (chained (chain k) (repeat [] (k + 1))).
Proof.
  intros H. do 7 (destruct k as [|k]; [first [lia|reflexivity]|]). lia.
Qed.

Lemma py_nth_nth {A} (l : list A) i d : i < List.length l -> py_nth l i = Ok (nth i l d).
Proof. intros H. unfold py_nth. now rewrite (nth_error_nth' l d H). Qed.

Definition dl : tlabel := mktl [] [] [] [].

Lemma chained_length c vs : List.length c = S (List.length vs) -> List.length (chained c vs) = List.length vs.
Proof.
  revert c; induction vs as [|v vs IH]; intros c H.
  - destruct c as [|a [|b c]]; cbn in *; try lia.
  - destruct c as [|a [|b c]]; cbn [List.length] in H; try lia.
    change (chained (a :: b :: c) (v :: vs)) with (of_chars (a :: b :: v) :: chained (b :: c) vs).
    cbn [List.length]. f_equal. apply IH. cbn [List.length]. lia.
Qed.

Lemma nth_chained c vs i : List.length c = S (List.length vs) -> i < List.length vs ->
  nth i (chained c vs) ""%string = of_chars (nth i c "a"%char :: nth (S i) c "a"%char :: nth i vs []).
Proof.
  revert c i; induction vs as [|v vs IH]; intros c i H Hi; [cbn in Hi; lia|].
  destruct c as [|a [|b c]]; cbn [List.length] in *; try lia.
  change (chained (a :: b :: c) (v :: vs)) with (of_chars (a :: b :: v) :: chained (b :: c) vs).
  destruct i as [|i]; [reflexivity|].
  cbn [nth]. rewrite IH; [reflexivity|cbn [List.length]; lia|lia].
Qed.

Lemma chained_ext c l vs : List.length c = S (List.length vs) -> List.length l = List.length vs ->
  (forall i, i < List.length vs -> nth i l ""%string = of_chars (nth i c "a"%char :: nth (S i) c "a"%char :: nth i vs [])) ->
  l = chained c vs.
Proof.
  intros H1 H2 H. apply (nth_ext _ _ ""%string ""%string).
  - now rewrite chained_length.
  - intros i Hi. rewrite nth_chained by lia. apply H. lia.
Qed.

Lemma chain_length k : k <= 6 -> List.length (chain k) = k + 2.
Proof. intros H. unfold chain, mids. cbn [List.length]. rewrite app_length, firstn_length. cbn. lia. Qed.

Lemma nth_elec k i : k <= 6 -> i < k + 1 ->
  nth i (chained (chain k) (repeat [] (k + 1))) ""%string
  = of_chars [nth i (chain k) "a"%char; nth (S i) (chain k) "a"%char].
Proof.
  intros H1 H2. rewrite nth_chained; rewrite ?chain_length, ?repeat_length; try lia.
  now rewrite nth_repeat.
Qed.

Lemma of_chars_app a b : (of_chars a +++ of_chars b) = of_chars (a ++ b)%list.
Proof. induction a as [|x a IH]; [reflexivity|]. cbn. now rewrite IH. Qed.

Lemma combine_range_nth (perm : list nat) i d : i < List.length perm ->
  nth i (combine (range 0 (List.length perm)) perm) (0, d) = (i, nth i perm d).
Proof.
  intros H. rewrite combine_nth by (rewrite length_range; lia). f_equal.
  unfold range. rewrite seq_nth by lia. lia.
Qed.

Lemma permuted_ok (labels : list tlabel) vh perm k :
  k <= 6 -> List.length labels = k -> List.length perm = k -> Forall (fun p => p < k) perm ->
  permuted_subscripts (chained (chain k) (repeat [] (k + 1)))
    (of_chars vh :: map (fun p => of_chars (letters p)) labels) perm
  = Ok (chained (chain k) (vh :: map (fun p => letters (nth p labels dl)) perm)).
Proof.
  intros Hk Hl Hp Hb. unfold permuted_subscripts.
  assert (EL : List.length (chained (chain k) (repeat [] (k + 1))) = k + 1).
  { rewrite chained_length; rewrite ?chain_length, repeat_length; lia. }
  rewrite (py_nth_nth _ 0 ""%string) by (rewrite EL; lia). cbn [bind].
  assert (V0 : py_nth (of_chars vh :: map (fun p => of_chars (letters p)) labels) 0 = Ok (of_chars vh)) by reflexivity.
  rewrite V0. cbn [bind]. rewrite nth_elec by lia.
  rewrite (mapM_ok _ (fun ip => of_chars (nth (fst ip + 1) (chain k) "a"%char :: nth (S (fst ip + 1)) (chain k) "a"%char
             :: letters (nth (snd ip) labels dl)))).
  - cbn [bind]. f_equal. apply chained_ext.
    + rewrite chain_length by lia. cbn [List.length]. rewrite map_length. lia.
    + cbn [List.length]. rewrite !map_length, combine_length, length_range. lia.
    + cbn [List.length]. rewrite map_length. intros [|i] Hi; cbn [nth]; [now rewrite of_chars_app|].
      rewrite nth_indep with (d' := (fun ip : nat * nat => of_chars (nth (fst ip + 1) (chain k) "a"%char :: nth (S (fst ip + 1)) (chain k) "a"%char
             :: letters (nth (snd ip) labels dl))) (0, 0))
        by (rewrite map_length, combine_length, length_range; lia).
      rewrite (map_nth (fun ip : nat * nat => of_chars (nth (fst ip + 1) (chain k) "a"%char :: nth (S (fst ip + 1)) (chain k) "a"%char
             :: letters (nth (snd ip) labels dl)))). rewrite combine_range_nth by lia. cbn [fst snd].
      rewrite Nat.add_1_r.
      rewrite nth_indep with (d' := (fun p => letters (nth p labels dl)) 0) by (rewrite map_length; lia).
      rewrite (map_nth (fun p => letters (nth p labels dl))). reflexivity.
  - intros [i p] Hin.
    pose proof (in_combine_l _ _ _ _ Hin) as Hi. pose proof (in_combine_r _ _ _ _ Hin) as Hp'.
    apply in_range in Hi. rewrite Forall_forall in Hb. specialize (Hb _ Hp'). cbn [fst snd].
    rewrite (py_nth_nth _ (i + 1) ""%string) by (rewrite EL; lia). cbn [bind].
    rewrite (py_nth_nth _ (p + 1) ""%string) by (cbn [List.length]; rewrite map_length; lia). cbn [bind].
    rewrite nth_elec by lia. rewrite (Nat.add_1_r p). cbn [nth].
    rewrite nth_indep with (d' := (fun q => of_chars (letters q)) dl) by (rewrite map_length; lia).
    rewrite (map_nth (fun q => of_chars (letters q))). now rewrite of_chars_app.
Qed.

(** ** The calls of a term *)
Lemma dedup_nil_iff ts : List.length (dedup tamp_eqb ts) = 0 <-> ts = [].
Proof.
  split; [|intros ->; reflexivity]. intros H. destruct ts as [|t r]; [reflexivity|].
  apply length_zero_iff_nil in H.
  assert (In t (dedup tamp_eqb (t :: r))) by (apply (in_dedup tamp_eqb tamp_eqb_eq); now left).
  rewrite H in *. contradiction.
Qed.
Lemma dedup_one_iff ts : List.length (dedup tamp_eqb ts) = 1 <-> ts <> [] /\ forall a b, In a ts -> In b ts -> a = b.
Proof.
  split.
  - intros H. split; [intros ->; discriminate|]. intros a b Ha Hb.
    apply (proj2 (in_dedup tamp_eqb tamp_eqb_eq _ _)) in Ha. apply (proj2 (in_dedup tamp_eqb tamp_eqb_eq _ _)) in Hb.
    destruct (dedup tamp_eqb ts) as [|x [|y l]]; cbn in *; try discriminate.
    destruct Ha as [<-|[]], Hb as [<-|[]]. reflexivity.
  - intros [Hn H]. pose proof (nodup_dedup tamp_eqb tamp_eqb_eq ts) as N.
    assert (H' : forall a b, In a (dedup tamp_eqb ts) -> In b (dedup tamp_eqb ts) -> a = b).
    { intros a b Ha Hb. apply H; [exact (proj1 (in_dedup tamp_eqb tamp_eqb_eq _ _) Ha)|exact (proj1 (in_dedup tamp_eqb tamp_eqb_eq _ _) Hb)]. }
    destruct (dedup tamp_eqb ts) as [|x [|y l]] eqn:E; [|reflexivity|].
    + exfalso. apply Hn. apply dedup_nil_iff. now rewrite E.
    + exfalso. inversion N as [|? ? N1 N2]; subst. apply N1. left. apply H'; cbn; auto.
Qed.

Definition single {X} (l : list tamp) (a b : X) : X := match l with [_] => a | _ => b end.
Lemma single_one {X} l (a b : X) : List.length l = 1 -> single l a b = a.
Proof. destruct l as [|? [|? ?]]; cbn; intros; try lia; auto. Qed.
Lemma single_more {X} l (a b : X) : List.length l <> 1 -> single l a b = b.
Proof. destruct l as [|? [|? ?]]; cbn; intros; try lia; auto. Qed.

Lemma multiple_perms_cases son ts : set_order son -> ts <> [] ->
  multiple_perms_logic son ts =
  single ts (Ok NoPerms)
        (if Nat.eqb (List.length (dedup tamp_eqb ts)) 1
         then Ok (OneKind (unique_permutations son (range 0 (List.length ts))))
         else Ok (SeveralKinds (unique_permutations son (range 0 (List.length ts))))).
Proof.
  intros _ H. unfold multiple_perms_logic.
  destruct ts as [|a [|b r]]; [congruence| |].
  - cbn [dedup existsb List.length]. reflexivity.
  - cbn [List.length]. destruct (List.length (dedup tamp_eqb (a :: b :: r))) as [|[|n]] eqn:E; try reflexivity.
    apply dedup_nil_iff in E. discriminate.
Qed.

Lemma XL_SL_nodup : NoDup (chars "ab" ++ chars "cdefgh" ++ SL ++ XL)%list.
Proof.
  assert (E : forallb (fun i => forallb (fun j => orb (Nat.eqb i j) (negb (Ascii.eqb (nth i (chars "ab" ++ chars "cdefgh" ++ SL ++ XL)%list "a"%char) (nth j (chars "ab" ++ chars "cdefgh" ++ SL ++ XL)%list "a"%char)))) (seq 0 26)) (seq 0 26) = true) by (vm_compute; reflexivity).
  apply (proj2 (NoDup_nth _ "a"%char)). intros i j Hi Hj E'.
  change (List.length (chars "ab" ++ chars "cdefgh" ++ SL ++ XL)%list) with 26 in *.
  rewrite forallb_forall in E. specialize (E i (proj2 (in_seq 26 0 i) ltac:(lia))).
  rewrite forallb_forall in E. specialize (E j (proj2 (in_seq 26 0 j) ltac:(lia))).
  destruct (Nat.eqb_spec i j); [assumption|]. cbn [orb] in E. rewrite E' in E.
  rewrite Ascii.eqb_refl in E. discriminate.
Qed.

Lemma NoDup_app_l {A} (a b : list A) : NoDup (a ++ b)%list -> NoDup a.
Proof.
  induction a as [|x a IH]; intros H; [constructor|]. inversion H as [|? ? H1 H2]; subst.
  constructor; [|now apply IH]. intros Hin. apply H1. apply in_or_app. now left.
Qed.
Lemma NoDup_firstn {A} n (l : list A) : NoDup l -> NoDup (firstn n l).
Proof. intros H. rewrite <- (firstn_skipn n l) in H. now apply NoDup_app_l in H. Qed.

Lemma NoDup_app_r {A} (a b : list A) : NoDup (a ++ b)%list -> NoDup b.
Proof. induction a as [|x a IH]; intros H; [exact H|]. inversion H; auto. Qed.
Lemma NoDup_drop {A} (a b c : list A) : NoDup (a ++ b ++ c)%list -> NoDup (a ++ c)%list.
Proof.
  intros H. eapply Permutation_NoDup in H; [|apply Permutation_app_swap_app]. now apply NoDup_app_r in H.
Qed.

Lemma prefixes_nodup {A} (a b c d : list A) n m k :
  NoDup (a ++ b ++ c ++ d)%list -> NoDup (a ++ firstn n b ++ firstn m c ++ firstn k d)%list.
Proof.
  intros H.
  rewrite <- (firstn_skipn n b), <- (firstn_skipn m c), <- (firstn_skipn k d) in H.
  rewrite <- !app_assoc in H.
  rewrite app_assoc in H. apply NoDup_drop in H.
  rewrite app_assoc in H. apply NoDup_drop in H.
  rewrite app_assoc in H. apply NoDup_app_l in H.
  now rewrite <- !app_assoc in H.
Qed.

Section Calls.
  Variable son : list (list nat) -> list (list nat).
  Variable soc : list (list ascii) -> list (list ascii).
  Hypothesis Hson : set_order son.
  Hypothesis Hsoc : set_order soc.
  Variables om on hm hn f fbar : nat.
  Variable ts : list tamp.
  Hypothesis Hc : contraction om on hm hn ts f fbar.
  Hypothesis Hne : ts <> [].
  Hypothesis Hk : List.length ts <= 6.
  Hypothesis Hh : hm + hn <= 10.
  Hypothesis Ho : om + on <= 8.

  Let k := List.length ts.
  Let lab := labels hm f fbar ts.
  Let base := combine ts lab.
  Let vh := (su hm fbar ++ sl hm hn f fbar ++ eu fbar ++ el f fbar)%list.

  Definition call_of (fs : list (tamp * tlabel)) : einsum :=
    mkeinsum (chained (chain k) (vh :: map (fun x => letters (snd x)) fs))
             ("ab" +++ of_chars (out om on)) (hm, hn) (map (fun x => t_operand (fst x)) fs).

  Lemma length_lab : List.length lab = k.
  Proof. unfold lab, labels. apply length_parts. Qed.

  Lemma base_fst : map fst base = ts.
  Proof.
    unfold base. pose proof length_lab as L. unfold k in L. revert L. generalize lab. clear.
    induction ts as [|t r IH]; intros [|p ps] L; cbn in *; try discriminate; [reflexivity|].
    f_equal. apply IH. congruence.
  Qed.
  Lemma base_snd : map snd base = lab.
  Proof.
    unfold base. pose proof length_lab as L. unfold k in L. revert L. generalize lab. clear.
    induction ts as [|t r IH]; intros [|p ps] L; cbn in *; try discriminate; [reflexivity|].
    f_equal. apply IH. congruence.
  Qed.
  Lemma base_length : List.length base = k.
  Proof. rewrite <- (map_length fst), base_fst. reflexivity. Qed.

  Lemma base_fits : Forall (fun x => fits (fst x) (snd x)) base.
  Proof.
    destruct Hc as (C1 & C2 & C3 & C4).
    assert (F : Forall2 fits ts lab) by (apply parts_fit; lia).
    assert (G : forall l l', Forall2 fits l l' -> Forall (fun x => fits (fst x) (snd x)) (combine l l')).
    { clear. intros l l' F. induction F; cbn; constructor; auto. }
    now apply G.
  Qed.

  Lemma flat_map_snd {B} (g : tlabel -> list B) l : flat_map (fun x : tamp * tlabel => g (snd x)) l = flat_map g (map snd l).
  Proof. induction l as [|x l IH]; cbn; [reflexivity|]. now rewrite IH. Qed.

  Lemma perm_flat_map {X Y} (g : X -> list Y) l l' : Permutation l l' -> Permutation (flat_map g l) (flat_map g l').
  Proof. intros H. now apply Permutation_flat_map. Qed.

  Lemma all_letters_nodup : NoDup (chain k ++ su hm fbar ++ sl hm hn f fbar ++ out om on)%list.
  Proof.
    pose proof XL_SL_nodup as N.
    apply (prefixes_nodup _ _ _ _ k (hm - fbar + (hn - f)) (om + on)) in N.
    eapply Permutation_NoDup; [|exact N].
    unfold chain, mids, su, sl, out.
    assert (E : (slice SL 0 (hm - fbar) ++ slice SL (hm - fbar) (hn - f))%list = firstn (hm - fbar + (hn - f)) SL).
    { change (slice SL (hm - fbar) (hn - f)) with (slice SL (0 + (hm - fbar)) (hn - f)). rewrite slice_app. reflexivity. }
    rewrite app_assoc with (l := slice SL 0 (hm - fbar)). rewrite E.
    change (slice XL 0 (om + on)) with (firstn (om + on) XL).
    change (chars "ab") with ["a"; "b"]%char. cbn [app]. constructor.
    rewrite <- app_assoc. cbn [app]. rewrite <- Permutation_middle. reflexivity.
  Qed.

  Lemma call_realises fs : Permutation fs base -> realises om on hm hn f fbar ts (call_of fs).
  Proof.
    intros P. destruct Hc as (C1 & C2 & C3 & C4).
    exists (mids k), (su hm fbar), (sl hm hn f fbar), (eu fbar), (el f fbar), (out om on), fs.
    cbn zeta. fold (chain k).
    split; [rewrite P; now rewrite base_fst|].
    split; [rewrite Forall_forall; intros x Hx; apply (Permutation_in _ P) in Hx;
            pose proof base_fits as F; rewrite Forall_forall in F; now apply F|].
    split; [reflexivity|]. split; [reflexivity|].
    split; [unfold mids; rewrite firstn_length; cbn [List.length chars]; fold k; unfold k; lia|].
    split; [reflexivity|]. split; [reflexivity|].
    split; [unfold su; rewrite slice_length; cbn [List.length chars summation_indices]; lia|].
    split; [unfold sl; rewrite slice_length; cbn [List.length chars summation_indices]; lia|].
    split; [unfold eu; rewrite slice_length; cbn [List.length chars unlinked_indices]; lia|].
    split; [unfold el; rewrite slice_length; cbn [List.length chars unlinked_indices]; lia|].
    split; [unfold out; rewrite slice_length; cbn [List.length chars unlinked_indices]; lia|].
    split. { rewrite (perm_flat_map _ _ _ P), flat_map_snd, base_snd. unfold lab, labels. rewrite parts_nh.
             unfold su. replace (hm - fbar) with (total n_h ts) by lia. reflexivity. }
    split. { rewrite (perm_flat_map _ _ _ P), flat_map_snd, base_snd. unfold lab, labels. rewrite parts_mh.
             unfold sl. replace (hn - f) with (total m_h ts) by lia. reflexivity. }
    split. { rewrite (perm_flat_map _ _ _ P), (flat_map_snd (fun x => (l_no x ++ l_mo x)%list)), base_snd. unfold lab, labels. rewrite parts_o.
             unfold eu, el, out. rewrite app_assoc.
             change (slice XL fbar f) with (slice XL (0 + fbar) f). rewrite slice_app.
             change (fbar + f) with (0 + (fbar + f)) at 2. rewrite slice_app.
             replace (fbar + f + (total n_o ts + total m_o ts)) with (om + on) by lia. reflexivity. }
    apply all_letters_nodup.
  Qed.

  Definition tl0 : tamp * tlabel := (mkt 0 0 0 0, dl).
  Definition fs_of (perm : list nat) := map (fun p => nth p base tl0) perm.

  Lemma map_nth_range {X} (l : list X) d : map (fun p => nth p l d) (range 0 (List.length l)) = l.
  Proof.
    unfold range. rewrite Nat.sub_0_r. induction l as [|x l IH]; [reflexivity|].
    cbn [List.length seq map]. f_equal. rewrite <- seq_shift, map_map. exact IH.
  Qed.

  Lemma fs_perm perm : Permutation perm (range 0 k) -> Permutation (fs_of perm) base.
  Proof.
    intros P. unfold fs_of. rewrite P. rewrite <- base_length. rewrite map_nth_range. reflexivity.
  Qed.

  Lemma nth_base_fst p : fst (nth p base tl0) = nth p ts (mkt 0 0 0 0).
  Proof. rewrite <- base_fst. change (mkt 0 0 0 0) with (fst tl0). now rewrite map_nth. Qed.
  Lemma nth_base_snd p : snd (nth p base tl0) = nth p lab dl.
  Proof. rewrite <- base_snd. change dl with (snd tl0). now rewrite map_nth. Qed.

  Lemma perm_facts perm : Permutation perm (range 0 k) -> List.length perm = k /\ Forall (fun p => p < k) perm.
  Proof.
    intros P. split; [rewrite (Permutation_length P), length_range; lia|].
    rewrite Forall_forall. intros p Hp. apply (Permutation_in _ P) in Hp. apply in_range in Hp. lia.
  Qed.

  (** The calls: one repeated call for a single amplitude, one call per order
      of the amplitudes otherwise. *)
  Theorem calls_exact t : describes om on hm hn ts f fbar t ->
    einsum_calls son soc t =
    Ok (single ts
          (repeat (call_of base) (match om + on with 0 => 1 | _ => List.length (letter_permutations soc (of_chars (out om on))) end))
          (map (fun perm => call_of (fs_of perm)) (unique_permutations son (range 0 k)))).
  Proof.
    intros ->.
    assert (Ef : factors ts = ts) by (destruct ts; [congruence|reflexivity]). rewrite Ef.
    unfold einsum_calls. rewrite multiple_perms_cases by auto.
    assert (K1 : 1 <= k) by (unfold k; destruct ts; [congruence|cbn; lia]).
    assert (Ec : electronic_components (List.length ts) = Ok (chained (chain k) (repeat [] (k + 1)))).
    { apply electronic_chain. unfold k in *. lia. }
    rewrite Ec.
    rewrite (vibrational_parts om on hm hn f fbar ts Hc) by reflexivity.
    fold lab vh. cbn [ch_m ch_n].
    assert (OUT : forall l, of_chars l = ""%string <-> l = []) by (intros [|? ?]; split; intros; try discriminate; auto).
    assert (Lout : List.length (out om on) = om + on).
    { unfold out. apply slice_length. cbn [List.length chars unlinked_indices]. lia. }
    assert (OK : forall perm, In perm (unique_permutations son (range 0 k)) ->
      permuted_subscripts (chained (chain k) (repeat [] (k + 1))) (of_chars vh :: map (fun p => of_chars (letters p)) lab) perm
      = Ok (chained (chain k) (vh :: map (fun x => letters (snd x)) (fs_of perm)))).
    { intros perm Hp. apply (in_unique_permutations son Hson) in Hp. destruct (perm_facts perm Hp) as [P1 P2].
      rewrite (permuted_ok lab vh perm k) by (auto; apply length_lab).
      f_equal. f_equal. f_equal. unfold fs_of. rewrite map_map. apply map_ext. intros p. now rewrite nth_base_snd. }
    destruct (Nat.eq_dec (List.length ts) 1) as [L1|L1].
    - rewrite !single_one by exact L1. cbn [bind]. fold k in L1. rewrite L1.
      assert (Eb : exists t1 p1, ts = [t1] /\ lab = [p1] /\ base = [(t1, p1)]).
      { pose proof length_lab as L. pose proof base_fst as B1. pose proof base_snd as B2. pose proof base_length as B3.
        rewrite L1 in B3. destruct base as [|[x p] [|y l]]; cbn in B3; try lia.
        exists x, p. cbn in B1, B2. auto. }
      destruct Eb as (t1 & p1 & Et & El & Eb).
      assert (M : mapM (fun i => do e <- py_nth (chained (chain 1) (repeat [] (1 + 1))) i;
                  do v <- py_nth (of_chars vh :: map (fun p => of_chars (letters p)) lab) i; Ok (e +++ v)) (range 0 (List.length (chained (chain 1) (repeat [] (1 + 1)))))
              = Ok (chained (chain 1) (vh :: map (fun x => letters (snd x)) base))).
      { rewrite El, Eb. cbn [map fst snd]. reflexivity. }
      rewrite M. cbn [bind].
      assert (CO : {| e_inputs := chained (chain 1) (vh :: map (fun x : tamp * tlabel => letters (snd x)) base);
             e_output := "ab" +++ of_chars (out om on); e_h := (hm, hn); e_ts := map t_operand ts |} = call_of base).
      { unfold call_of. rewrite L1. f_equal. rewrite Eb, Et. reflexivity. }
      rewrite CO.
      destruct (om + on) as [|n] eqn:En.
      + assert (out om on = []) as -> by (apply length_zero_iff_nil; lia). reflexivity.
      + destruct (String.eqb_spec (of_chars (out om on)) "") as [E|_].
        * apply OUT in E. rewrite E in Lout. cbn in Lout. lia.
        * f_equal. set (lp := letter_permutations soc (of_chars (out om on))).
          assert (G : forall (l : list (list ascii)) c, map (fun _ => c : einsum) l = repeat c (List.length l)).
          { clear. intros l c. induction l as [|x l IH]; [reflexivity|]. cbn [map repeat List.length]. now rewrite IH. }
          apply G.
    - rewrite !single_more by exact L1. fold k.
      destruct (Nat.eqb _ 1) eqn:Ed; cbn [bind].
      + apply mapM_ok. intros perm Hp.
        rewrite (OK perm Hp). cbn [bind]. f_equal. unfold call_of. f_equal.
        apply (in_unique_permutations son Hson) in Hp. destruct (perm_facts perm Hp) as [P1 P2].
        apply Nat.eqb_eq, dedup_one_iff in Ed as [_ Eq].
        assert (R : forall t1 l, (forall x, In x l -> x = t1) -> map t_operand l = repeat (t_operand t1) (List.length l)).
        { clear. induction l as [|x l IH]; intros H; [reflexivity|]. cbn. rewrite (H x) by now left. f_equal. apply IH. intros; apply H; now right. }
        assert (I1 : exists t1, In t1 ts) by (pose proof Hne as N0; revert N0; generalize ts; intros [|x l] N0; [congruence|exists x; now left]).
        destruct I1 as [t1 I1].
        rewrite (R t1 ts) by (intros x Hx; apply Eq; assumption).
        replace (map (fun x => t_operand (fst x)) (fs_of perm)) with (map t_operand (map fst (fs_of perm))) by (rewrite map_map; reflexivity).
        rewrite (R t1 (map fst (fs_of perm))).
        * f_equal. unfold fs_of. rewrite !map_length. rewrite P1. reflexivity.
        * intros x Hx. apply Eq; [|assumption]. apply in_map_iff in Hx as (y & <- & Hy).
          apply (Permutation_in _ (fs_perm perm Hp)) in Hy.
          apply (in_map fst) in Hy. rewrite base_fst in Hy. exact Hy.
      + apply mapM_ok. intros perm Hp.
        pose proof (proj1 (in_unique_permutations son Hson _ _) Hp) as Hp'. destruct (perm_facts perm Hp') as [P1 P2].
        rewrite (mapM_ok _ (fun p => nth p ts (mkt 0 0 0 0))).
        * cbn [bind]. rewrite (OK perm Hp). cbn [bind]. f_equal. unfold call_of. f_equal.
          unfold fs_of. rewrite !map_map. apply map_ext. intros p. now rewrite nth_base_fst.
        * intros p Hin. apply py_nth_nth. rewrite Forall_forall in P2. exact (P2 p Hin).
  Qed.

  (** Different orders give different calls. *)
  Hypothesis Hrank : Forall (fun t => 1 <= up t + down t) ts.

  Lemma letters_perm (l : list tlabel) :
    Permutation (flat_map letters l)
      (flat_map l_nh l ++ flat_map l_mh l ++ flat_map (fun p => (l_no p ++ l_mo p)%list) l)%list.
  Proof.
    induction l as [|p l IH]; [reflexivity|]. cbn [flat_map]. unfold letters at 1. rewrite IH.
    rewrite <- !app_assoc. apply Permutation_app_head.
    transitivity (l_mh p ++ (l_no p ++ l_mo p) ++ flat_map l_nh l ++ flat_map l_mh l ++ flat_map (fun q => (l_no q ++ l_mo q)%list) l)%list.
    { now rewrite <- !app_assoc. }
    rewrite (Permutation_app_swap_app (flat_map l_nh l) (l_mh p)). apply Permutation_app_head.
    rewrite (Permutation_app_swap_app (l_no p ++ l_mo p) (flat_map l_nh l)). apply Permutation_app_head.
    rewrite (Permutation_app_swap_app (l_no p ++ l_mo p) (flat_map l_mh l)). apply Permutation_app_head.
    now rewrite <- !app_assoc.
  Qed.

  Lemma lab_letters_nodup : NoDup (flat_map letters lab).
  Proof.
    destruct Hc as (C1 & C2 & C3 & C4).
    eapply Permutation_NoDup; [symmetry; apply letters_perm|].
    unfold lab, labels. rewrite parts_nh, parts_mh, parts_o.
    pose proof all_letters_nodup as N. apply NoDup_app_r in N. unfold su, sl, out in N.
    replace (total n_h ts) with (hm - fbar) by lia. replace (total m_h ts) with (hn - f) by lia.
    replace (om + on) with (fbar + f + (total n_o ts + total m_o ts)) in N by lia.
    rewrite <- (slice_app XL 0 (fbar + f)) in N. rewrite app_assoc in N. apply NoDup_drop in N.
    now rewrite <- app_assoc in N.
  Qed.

  Lemma disjoint_nodup (l : list tlabel) : NoDup (flat_map letters l) ->
    Forall (fun p => letters p <> []) l -> NoDup (map letters l).
  Proof.
    induction l as [|p l IH]; intros N F; cbn [map]; [constructor|].
    inversion F as [|? ? F1 F2]; subst. cbn [flat_map] in N. constructor.
    - intros Hin. apply in_map_iff in Hin as (q & E & Hq).
      destruct (letters p) as [|x r] eqn:Ep; [congruence|].
      cbn in N. inversion N as [|? ? N1 N2]; subst. apply N1. apply in_or_app. right.
      apply in_flat_map. exists q. split; [exact Hq|]. rewrite E. now left.
    - apply IH; [now apply NoDup_app_r in N|exact F2].
  Qed.

  Lemma lab_nodup : NoDup (map letters lab).
  Proof.
    apply disjoint_nodup; [apply lab_letters_nodup|].
    assert (G : forall (l : list tamp) l', Forall2 fits l l' -> Forall (fun t => 1 <= up t + down t) l -> Forall (fun p => letters p <> []) l').
    { clear. intros l l' F. induction F as [|t p l l' (A1 & A2 & A3 & A4) F IH]; intros R; constructor; inversion R; subst; auto.
      intros E. unfold letters in E. apply (f_equal (@List.length ascii)) in E. rewrite !app_length in E. cbn in E.
      unfold up, down in *. lia. }
    destruct Hc as (C1 & C2 & C3 & C4).
    apply (G ts); [apply parts_fit; lia|exact Hrank].
  Qed.

  Lemma chained_inj c vs vs' : List.length c = S (List.length vs) -> List.length vs' = List.length vs ->
    chained c vs = chained c vs' -> vs = vs'.
  Proof.
    revert c vs'; induction vs as [|v vs IH]; intros c [|v' vs'] H1 H2 E; cbn [List.length] in *; try lia; [reflexivity|].
    destruct c as [|a [|b c]]; cbn [List.length] in *; try lia.
    change (of_chars (a :: b :: v) :: chained (b :: c) vs = of_chars (a :: b :: v') :: chained (b :: c) vs') in E.
    assert (E1 : of_chars (a :: b :: v) = of_chars (a :: b :: v')) by congruence.
    assert (E2 : chained (b :: c) vs = chained (b :: c) vs') by congruence.
    f_equal; [|apply (IH (b :: c)); cbn [List.length]; [lia|lia|exact E2]].
    apply (f_equal chars) in E1. rewrite !chars_of_chars in E1. congruence.
  Qed.

  Lemma calls_differ : NoDup (map (fun perm => call_of (fs_of perm)) (unique_permutations son (range 0 k))).
  Proof.
    assert (G : forall l, NoDup l -> (forall p, In p l -> Permutation p (range 0 k)) -> NoDup (map (fun perm => call_of (fs_of perm)) l)).
    { induction 1 as [|p l Hp Hl IH]; intros HP; cbn [map]; constructor.
      - intros Hin. apply in_map_iff in Hin as (q & E & Hq). apply Hp.
        assert (p = q); [|subst; assumption].
        assert (Pp : Permutation p (range 0 k)) by (apply HP; now left).
        assert (Pq : Permutation q (range 0 k)) by (apply HP; now right).
        destruct (perm_facts p Pp) as [Lp Fp]. destruct (perm_facts q Pq) as [Lq Fq].
        apply (f_equal e_inputs) in E. unfold call_of in E. cbn [e_inputs] in E.
        apply chained_inj in E.
        + injection E as E. unfold fs_of in E. rewrite !map_map in E.
          clear -E Fp Fq Lp Lq Hrank Hc Hk Hh Ho.
          assert (L : List.length p = List.length q) by lia. clear Lp Lq.
          revert q E Fq L; induction p as [|a p IH]; intros [|b q] E Fq L; cbn in *; try lia; [reflexivity|].
          injection E as E1 E2. inversion Fp; inversion Fq; subst. f_equal; [|apply IH; auto].
          rewrite !nth_base_snd in E1.
          pose proof lab_nodup as N. rewrite (NoDup_nth _ (letters dl)) in N. rewrite map_length, length_lab in N.
          apply N; auto. now rewrite !map_nth.
        + cbn [List.length]. rewrite map_length. unfold fs_of. rewrite map_length. rewrite chain_length by exact Hk. lia.
        + cbn [List.length]. unfold fs_of. rewrite !map_length. lia.
      - apply IH. intros q Hq. apply HP. now right. }
    apply G; [apply nodup_unique_permutations; exact Hson|].
    intros p Hp. now apply (in_unique_permutations son Hson) in Hp.
  Qed.
End Calls.

(** ** Number of permutations *)
Lemma unique_permutations_length {A} (eqb leb : A -> A -> bool) so (l : list A) :
  (forall a b, eqb a b = true <-> a = b) -> set_order so -> NoDup l ->
  List.length (unique_permutations_gen eqb leb so l) = fact (List.length l).
Proof.
  intros Eq Hso N. unfold unique_permutations_gen.
  rewrite <- (Permutation_length (isort_perm _ _)), <- (Permutation_length (Hso _)).
  assert (D : Permutation (dedup (list_eqb eqb) (perms l)) (perms l)).
  { apply NoDup_Permutation.
    - apply nodup_dedup, list_eqb_eq, Eq.
    - apply perms_fuel_nodup; auto.
    - intros x. apply in_dedup, list_eqb_eq, Eq. }
  rewrite (Permutation_length D). now apply perms_fuel_length.
Qed.
