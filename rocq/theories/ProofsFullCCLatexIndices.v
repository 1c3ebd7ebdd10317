(** Proofs about the indices read from the printed text of the full coupled
    cluster equations. *)
From Coq Require Import Sorted.
From Verif Require Import PyBase PyBaseFacts PyStr ModelHelper ModelW ModelFullCC ModelPrefactor ModelFullCCPy ModelFullCCLatex
  SpecFullCC SpecFullCCPy SpecPrefactor SpecFullCCLatex ProofsHelper ProofsW ProofsStr ProofsFullCC ProofsFullCCLabels
  ProofsFullCCPy ProofsFullCCBuckets ProofsFullCCLatexText ProofsFullCCLatex.
Open Scope string_scope.

Definition reads (p s : string) (out : list (ascii * ascii)) : Prop :=
  forall m rest, exists m', scan p m 0 (s ++ rest) = (out ++ scan p m' 0 rest)%list.

Lemma reads_nil p : reads p "" [].
Proof. intros m rest. now exists m. Qed.
Lemma reads_app p s o s' o' : reads p s o -> reads p s' o' -> reads p (s ++ s') (o ++ o')%list.
Proof.
  intros H H' m rest. rewrite append_assoc. destruct (H m (s' ++ rest)) as [m1 E1]. destruct (H' m1 rest) as [m2 E2].
  exists m2. now rewrite E1, E2, app_assoc.
Qed.
Lemma reads_indices p s o : reads p s o -> indices p s = o.
Proof. intros H. destruct (H " "%char "") as [m E]. rewrite append_nil_r in E. cbn [scan] in E. now rewrite app_nil_r in E. Qed.

Definition colour (p : string) : Prop := p = "\blue{" \/ p = "\red{".
Definition dull (c : ascii) : Prop := c <> "\"%char /\ c <> "}"%char /\ c <> "^"%char /\ c <> "_"%char.

Lemma next_dull p c : colour p -> dull c -> next_state p 0 c = 0.
Proof.
  intros [-> | ->] (H1 & _); unfold next_state; cbn [String.get]; destruct (Ascii.eqb_spec c "\"%char); congruence.
Qed.

Lemma scan_dull p m cs rest : colour p -> Forall dull cs -> scan p m 0 (of_chars cs ++ rest) = scan p m 0 rest.
Proof.
  intros Hp H. induction H as [|c cs Hc H IH]; [reflexivity|].
  change (of_chars (c :: cs) ++ rest) with (String c (of_chars cs ++ rest)). cbn [scan].
  destruct (Nat.eqb_spec 0 (String.length p)); [destruct Hp; subst; discriminate|].
  rewrite (next_dull p c Hp Hc). destruct Hc as (_ & _ & H3 & H4).
  destruct (Ascii.eqb_spec c "^"%char); [congruence|]. destruct (Ascii.eqb_spec c "_"%char); [congruence|]. exact IH.
Qed.
Lemma scan_inside p m cs rest : Forall dull cs ->
  scan p m (String.length p) (of_chars cs ++ "}" ++ rest) = (map (fun c => (m, c)) cs ++ scan p m 0 rest)%list.
Proof.
  intros H. induction H as [|c cs Hc H IH].
  - cbn [of_chars append scan map app]. change (of_chars []) with "". cbn [append scan]. rewrite Nat.eqb_refl. reflexivity.
  - change (of_chars (c :: cs) ++ "}" ++ rest) with (String c (of_chars cs ++ "}" ++ rest)). cbn [scan]. rewrite Nat.eqb_refl.
    destruct Hc as (_ & H2 & _). destruct (Ascii.eqb_spec c "}"%char); [congruence|]. rewrite IH. reflexivity.
Qed.

Lemma reads_dull p cs : colour p -> Forall dull cs -> reads p (of_chars cs) [].
Proof. intros Hp H m rest. exists m. now rewrite scan_dull. Qed.

Lemma letters_dull cs l k n : cs = letters_from l k n -> l = summed_letters \/ l = free_letters -> Forall dull cs.
Proof.
  intros -> Hl. apply Forall_forall. intros c Hc. unfold letters_from in Hc.
  assert (I : In c l). { rewrite <- (firstn_skipn k l). apply in_or_app. right. rewrite <- (firstn_skipn n (skipn k l)). apply in_or_app. now left. }
  destruct Hl as [-> | ->]; cbn in I; repeat (destruct I as [<-|I]; [repeat split; discriminate|]); easy.
Qed.

Lemma index_reads_blue mark su fr : mark = "^"%char \/ mark = "_"%char -> Forall dull su -> Forall dull fr ->
  reads "\blue{" (index_text (String mark "") su fr) (map (fun c => (mark, c)) su).
Proof.
  intros Hm Hs Hf. unfold index_text. destruct (su ++ fr)%list eqn:E.
  - apply app_eq_nil in E as [-> ->]. apply reads_nil.
  - clear E. intros m rest. change string_of_list_ascii with of_chars. exists mark. rewrite !append_assoc.
    assert (A : scan "\blue{" m 0 (String mark "" ++ "{\blue{" ++ of_chars su ++ "}\red{" ++ of_chars fr ++ "}}" ++ rest)
              = scan "\blue{" mark (String.length "\blue{") (of_chars su ++ "}" ++ "\red{" ++ of_chars fr ++ "}}" ++ rest))
      by (destruct Hm as [-> | ->]; reflexivity).
    rewrite A, scan_inside by assumption. f_equal.
    change (scan "\blue{" mark 0 ("\red{" ++ of_chars fr ++ "}}" ++ rest)) with (scan "\blue{" mark 0 (of_chars fr ++ "}}" ++ rest)).
    rewrite scan_dull; [reflexivity|now left|assumption].
Qed.
Lemma index_reads_red mark su fr : mark = "^"%char \/ mark = "_"%char -> Forall dull su -> Forall dull fr ->
  reads "\red{" (index_text (String mark "") su fr) (map (fun c => (mark, c)) fr).
Proof.
  intros Hm Hs Hf. unfold index_text. destruct (su ++ fr)%list eqn:E.
  - apply app_eq_nil in E as [-> ->]. apply reads_nil.
  - clear E. intros m rest. change string_of_list_ascii with of_chars. exists mark. rewrite !append_assoc.
    assert (A : scan "\red{" m 0 (String mark "" ++ "{\blue{" ++ of_chars su ++ "}\red{" ++ of_chars fr ++ "}}" ++ rest)
              = scan "\red{" mark 0 (of_chars su ++ "}\red{" ++ of_chars fr ++ "}}" ++ rest))
      by (destruct Hm as [-> | ->]; reflexivity).
    rewrite A, scan_dull; [|now right|assumption].
    change (scan "\red{" mark 0 ("}\red{" ++ of_chars fr ++ "}}" ++ rest))
      with (scan "\red{" mark (String.length "\red{") (of_chars fr ++ "}" ++ "}" ++ rest)).
    rewrite scan_inside by assumption. reflexivity.
Qed.

Definition side_out (up lo : list ascii) : list (ascii * ascii) :=
  (map (fun c => ("^"%char, c)) up ++ map (fun c => ("_"%char, c)) lo)%list.

Definition label_dull (x : tlabel) : Prop := Forall dull (l_nh x) /\ Forall dull (l_mh x) /\ Forall dull (l_no x) /\ Forall dull (l_mo x).

Lemma bt_reads p : colour p -> reads p "\bt" [].
Proof. intros [-> | ->] m rest; now exists m. Qed.

Lemma amplitude_reads_blue x : label_dull x -> reads "\blue{" (amplitude_text x) (side_out (l_mh x) (l_nh x)).
Proof.
  intros (H1 & H2 & H3 & H4). unfold amplitude_text, side_out.
  apply (reads_app _ "\bt" [] _ (map (fun c => ("^"%char, c)) (l_mh x) ++ map (fun c => ("_"%char, c)) (l_nh x))%list); [apply bt_reads; now left|].
  apply reads_app; apply index_reads_blue; auto.
Qed.
Lemma amplitude_reads_red x : label_dull x -> reads "\red{" (amplitude_text x) (side_out (l_mo x) (l_no x)).
Proof.
  intros (H1 & H2 & H3 & H4). unfold amplitude_text, side_out.
  apply (reads_app _ "\bt" [] _ (map (fun c => ("^"%char, c)) (l_mo x) ++ map (fun c => ("_"%char, c)) (l_no x))%list); [apply bt_reads; now right|].
  apply reads_app; apply index_reads_red; auto.
Qed.

Lemma amplitudes_read p (g : tlabel -> list (ascii * ascii)) xs :
  (forall x, In x xs -> reads p (amplitude_text x) (g x)) ->
  reads p (String.concat "" (map amplitude_text xs)) (flat_map g xs).
Proof.
  rewrite concat_empty_sep. induction xs as [|x xs IH]; intros H; [apply reads_nil|].
  change (concat_str (map amplitude_text (x :: xs))) with (amplitude_text x ++ concat_str (map amplitude_text xs)).
  cbn [flat_map]. apply reads_app; [apply H; now left|]. apply IH. intros; apply H; now right.
Qed.

Lemma digits_dull n : Forall dull (chars (str_nat n)).
Proof.
  assert (H : forall c, In c (chars (str_nat n)) -> forall b, b = "\"%char \/ b = "}"%char \/ b = "^"%char \/ b = "_"%char -> c <> b).
  { intros c Hc b Hb ->. pose proof (str_nat_no_char b n) as X.
    assert (Y : has_char b (str_nat n) = false) by (apply X; destruct Hb as [->|[->|[-> | ->]]]; reflexivity).
    clear X. revert Hc Y. generalize (str_nat n). intros s. induction s as [|a s IH]; cbn; [easy|].
    intros [->|Hc]; [now rewrite Ascii.eqb_refl|]. intros Y. apply orb_false_iff in Y as [_ Y]. auto. }
  apply Forall_forall. intros c Hc. repeat split; apply H; auto.
Qed.
Lemma number_reads p n : colour p -> reads p (str_nat n) [].
Proof. intros Hp. rewrite <- (of_chars_chars (str_nat n)). apply reads_dull; [exact Hp|apply digits_dull]. Qed.

Lemma power_reads p x k : colour p -> reads p x [] -> reads p (power_text x k) [].
Proof.
  intros Hp Hx. unfold power_text. destruct k as [|[|k]]; [apply reads_nil|exact Hx|].
  apply (reads_app _ x [] _ []); [exact Hx|]. apply (reads_app _ "^{" [] _ []); [destruct Hp as [-> | ->]; intros m rest; eexists; reflexivity|].
  apply (reads_app _ _ [] _ []); [now apply number_reads|]. destruct Hp as [-> | ->]; intros m rest; eexists; reflexivity.
Qed.
Lemma factorials_reads p l : colour p -> reads p (concat_str (map (fun n => str_nat n ++ "!") l)) [].
Proof.
  intros Hp. induction l as [|n l IH]; [apply reads_nil|].
  change (concat_str (map (fun n => str_nat n ++ "!") (n :: l))) with ((str_nat n ++ "!") ++ concat_str (map (fun n => str_nat n ++ "!") l)).
  apply (reads_app _ _ [] _ []); [|exact IH]. apply (reads_app _ _ [] _ []); [now apply number_reads|].
  destruct Hp as [-> | ->]; intros m rest; eexists; reflexivity.
Qed.
Lemma fraction_reads p num den : colour p -> reads p (fraction_text num den) [].
Proof.
  intros Hp. unfold fraction_text. rewrite !concat_empty_sep.
  assert (S1 : forall l, reads p (match l with [] => "1" | _ => concat_str (map (fun n => str_nat n ++ "!") l) end) []).
  { intros [|n l]; [|now apply factorials_reads]. destruct Hp as [-> | ->]; intros m rest; eexists; reflexivity. }
  assert (G : reads p ("\frac{" ++ (match num with [] => "1" | _ => concat_str (map (fun n => str_nat n ++ "!") num) end) ++ "}{"
     ++ (match den with [] => "1" | _ => concat_str (map (fun n => str_nat n ++ "!") den) end) ++ "}") []).
  { repeat (apply (reads_app _ _ [] _ []); [first [apply S1|destruct Hp as [-> | ->]; intros m rest; eexists; reflexivity]|]).
    destruct Hp as [-> | ->]; intros m rest; eexists; reflexivity. }
  destruct num; destruct den; [apply reads_nil|exact G..].
Qed.

Lemma hamiltonian_reads_blue r su eu sl el : Forall dull su -> Forall dull eu -> Forall dull sl -> Forall dull el ->
  (r = 0 -> su = [] /\ sl = []) -> reads "\blue{" (hamiltonian_text r su eu sl el) (side_out su sl).
Proof.
  intros H1 H2 H3 H4 Z. unfold hamiltonian_text. destruct r as [|r].
  - destruct Z as [-> ->]; [reflexivity|]. intros m rest. eexists. reflexivity.
  - intros m rest. exists "_"%char. change string_of_list_ascii with of_chars. rewrite !append_assoc. unfold side_out.
    change (scan "\blue{" m 0 ("\bh^{\blue{" ++ of_chars su ++ "}\red{" ++ of_chars eu ++ "}}_{\blue{" ++ of_chars sl ++ "}\red{" ++ of_chars el ++ "}}" ++ rest))
      with (scan "\blue{" "^" (String.length "\blue{") (of_chars su ++ "}" ++ "\red{" ++ of_chars eu ++ "}}_{\blue{" ++ of_chars sl ++ "}\red{" ++ of_chars el ++ "}}" ++ rest)).
    rewrite scan_inside by assumption. rewrite <- app_assoc. f_equal.
    change (scan "\blue{" "^" 0 ("\red{" ++ of_chars eu ++ "}}_{\blue{" ++ of_chars sl ++ "}\red{" ++ of_chars el ++ "}}" ++ rest))
      with (scan "\blue{" "^" 0 (of_chars eu ++ "}}_{\blue{" ++ of_chars sl ++ "}\red{" ++ of_chars el ++ "}}" ++ rest)).
    rewrite scan_dull; [|now left|assumption].
    change (scan "\blue{" "^" 0 ("}}_{\blue{" ++ of_chars sl ++ "}\red{" ++ of_chars el ++ "}}" ++ rest))
      with (scan "\blue{" "_" (String.length "\blue{") (of_chars sl ++ "}" ++ "\red{" ++ of_chars el ++ "}}" ++ rest)).
    rewrite scan_inside by assumption. f_equal.
    change (scan "\blue{" "_" 0 ("\red{" ++ of_chars el ++ "}}" ++ rest)) with (scan "\blue{" "_" 0 (of_chars el ++ "}}" ++ rest)).
    rewrite scan_dull; [reflexivity|now left|assumption].
Qed.
Lemma hamiltonian_reads_red r su eu sl el : Forall dull su -> Forall dull eu -> Forall dull sl -> Forall dull el ->
  (r = 0 -> eu = [] /\ el = []) -> reads "\red{" (hamiltonian_text r su eu sl el) (side_out eu el).
Proof.
  intros H1 H2 H3 H4 Z. unfold hamiltonian_text. destruct r as [|r].
  - destruct Z as [-> ->]; [reflexivity|]. intros m rest. eexists. reflexivity.
  - intros m rest. exists "_"%char. change string_of_list_ascii with of_chars. rewrite !append_assoc. unfold side_out.
    change (scan "\red{" m 0 ("\bh^{\blue{" ++ of_chars su ++ "}\red{" ++ of_chars eu ++ "}}_{\blue{" ++ of_chars sl ++ "}\red{" ++ of_chars el ++ "}}" ++ rest))
      with (scan "\red{" "^" 0 (of_chars su ++ "}\red{" ++ of_chars eu ++ "}}_{\blue{" ++ of_chars sl ++ "}\red{" ++ of_chars el ++ "}}" ++ rest)).
    rewrite scan_dull; [|now right|assumption].
    change (scan "\red{" "^" 0 ("}\red{" ++ of_chars eu ++ "}}_{\blue{" ++ of_chars sl ++ "}\red{" ++ of_chars el ++ "}}" ++ rest))
      with (scan "\red{" "^" (String.length "\red{") (of_chars eu ++ "}" ++ "}_{\blue{" ++ of_chars sl ++ "}\red{" ++ of_chars el ++ "}}" ++ rest)).
    rewrite scan_inside by assumption. rewrite <- app_assoc. f_equal.
    change (scan "\red{" "^" 0 ("}_{\blue{" ++ of_chars sl ++ "}\red{" ++ of_chars el ++ "}}" ++ rest))
      with (scan "\red{" "_" 0 (of_chars sl ++ "}\red{" ++ of_chars el ++ "}}" ++ rest)).
    rewrite scan_dull; [|now right|assumption].
    change (scan "\red{" "_" 0 ("}\red{" ++ of_chars el ++ "}}" ++ rest))
      with (scan "\red{" "_" (String.length "\red{") (of_chars el ++ "}" ++ "}" ++ rest)).
    rewrite scan_inside by assumption. reflexivity.
Qed.

(** ** Terms *)
Definition all_dull (su sl eu el : list ascii) (xs : list tlabel) : Prop :=
  Forall dull su /\ Forall dull sl /\ Forall dull eu /\ Forall dull el /\ forall x, In x xs -> label_dull x.

Lemma flat_dull (g : tlabel -> list ascii) xs : Forall dull (flat_map g xs) -> forall x, In x xs -> Forall dull (g x).
Proof.
  intros H x Hx. rewrite Forall_forall in *. intros c Hc. apply H. apply in_flat_map. eauto.
Qed.

Lemma term_reads k gap hm hn f fbar ts num den s : term_text k gap hm hn f fbar ts num den s ->
  exists su sl eu el xs,
    Forall2 fits ts xs /\ List.length su + fbar = hm /\ List.length sl + f = hn /\
    (su ++ sl)%list = letters_from summed_letters 0 (List.length su + List.length sl) /\
    flat_map l_nh xs = su /\ flat_map l_mh xs = sl /\ List.length eu = fbar /\ List.length el = f /\
    (eu ++ el)%list = letters_from free_letters k (fbar + f) /\
    flat_map (fun x => l_no x ++ l_mo x)%list xs = letters_from free_letters (k + fbar + f + gap) (total n_o ts + total m_o ts) /\
    indices "\blue{" s = (side_out su sl ++ flat_map (fun x => side_out (l_mh x) (l_nh x)) xs)%list /\
    indices "\red{" s = (side_out eu el ++ flat_map (fun x => side_out (l_mo x) (l_no x)) xs)%list.
Proof.
  intros (su & sl & eu & el & xs & F & L1 & L2 & L3 & L4 & E1 & E2 & E3 & E4 & E5 & ->).
  assert (D : Forall dull (su ++ sl)%list) by (eapply letters_dull; eauto). apply Forall_app in D as [D1 D2].
  assert (D : Forall dull (eu ++ el)%list) by (eapply letters_dull; eauto). apply Forall_app in D as [D3 D4].
  assert (DX : forall x, In x xs -> label_dull x).
  { intros x Hx. repeat split.
    - apply (flat_dull l_nh xs); [now rewrite E2|exact Hx].
    - apply (flat_dull l_mh xs); [now rewrite E3|exact Hx].
    - assert (X : Forall dull (l_no x ++ l_mo x)%list) by (apply (flat_dull (fun x => l_no x ++ l_mo x)%list xs); [eapply letters_dull; eauto|exact Hx]).
      now apply Forall_app in X.
    - assert (X : Forall dull (l_no x ++ l_mo x)%list) by (apply (flat_dull (fun x => l_no x ++ l_mo x)%list xs); [eapply letters_dull; eauto|exact Hx]).
      now apply Forall_app in X. }
  exists su, sl, eu, el, xs. repeat (split; [first [assumption|reflexivity]|]).
  assert (LF : forall p, colour p -> reads p "f" []) by (intros p [-> | ->] m rest; eexists; reflexivity).
  assert (LB : forall p, colour p -> reads p "\bar{f}" []) by (intros p [-> | ->] m rest; eexists; reflexivity).
  split; apply reads_indices.
  - assert (C : colour "\blue{") by now left.
    apply (reads_app _ _ [] _ _ (power_reads _ _ f C (LF _ C))).
    apply (reads_app _ _ [] _ _ (power_reads _ _ fbar C (LB _ C))).
    apply (reads_app _ _ [] _ _ (fraction_reads _ num den C)).
    apply reads_app.
    + apply hamiltonian_reads_blue; auto. intros Z. split; apply length_zero_iff_nil; lia.
    + apply (amplitudes_read _ (fun x => side_out (l_mh x) (l_nh x))). intros x Hx. apply amplitude_reads_blue; auto.
  - assert (C : colour "\red{") by now right.
    apply (reads_app _ _ [] _ _ (power_reads _ _ f C (LF _ C))).
    apply (reads_app _ _ [] _ _ (power_reads _ _ fbar C (LB _ C))).
    apply (reads_app _ _ [] _ _ (fraction_reads _ num den C)).
    apply reads_app.
    + apply hamiltonian_reads_red; auto. intros Z. split; apply length_zero_iff_nil; lia.
    + apply (amplitudes_read _ (fun x => side_out (l_mo x) (l_no x))). intros x Hx. apply amplitude_reads_red; auto.
Qed.

Lemma side_filter c up lo : map snd (filter (fun x => Ascii.eqb (fst x) c) (side_out up lo))
  = ((if Ascii.eqb "^" c then up else []) ++ (if Ascii.eqb "_" c then lo else []))%list.
Proof.
  unfold side_out. rewrite filter_app, map_app.
  assert (G : forall d l, map snd (filter (fun x : ascii * ascii => Ascii.eqb (fst x) c) (map (fun x => (d, x)) l)) = if Ascii.eqb d c then l else []).
  { intros d l. induction l as [|x l IH]; [now destruct (Ascii.eqb d c)|]. cbn [map filter fst]. destruct (Ascii.eqb d c); [cbn [map snd]; now rewrite IH|exact IH]. }
  now rewrite !G.
Qed.
Lemma side_filters c (g h : tlabel -> list ascii) xs :
  map snd (filter (fun x => Ascii.eqb (fst x) c) (flat_map (fun x => side_out (g x) (h x)) xs))
  = flat_map (fun x => (if Ascii.eqb "^" c then g x else []) ++ (if Ascii.eqb "_" c then h x else []))%list xs.
Proof.
  induction xs as [|x xs IH]; [reflexivity|]. cbn [flat_map]. now rewrite filter_app, map_app, IH, side_filter.
Qed.
Lemma side_all up lo : map snd (side_out up lo) = (up ++ lo)%list.
Proof. unfold side_out. rewrite map_app, !map_map. cbn [snd]. now rewrite !map_id. Qed.
Lemma side_alls (g h : tlabel -> list ascii) xs : map snd (flat_map (fun x => side_out (g x) (h x)) xs) = flat_map (fun x => g x ++ h x)%list xs.
Proof. induction xs as [|x xs IH]; [reflexivity|]. cbn [flat_map]. now rewrite map_app, IH, side_all. Qed.

Lemma flat_swap (g h : tlabel -> list ascii) xs : Permutation (flat_map (fun x => g x ++ h x)%list xs) (flat_map (fun x => h x ++ g x)%list xs).
Proof. induction xs as [|x xs IH]; [constructor|]. cbn [flat_map]. apply Permutation_app; [apply Permutation_app_comm|exact IH]. Qed.

Lemma summed_indices k gap hm hn f fbar ts num den s : term_text k gap hm hn f fbar ts num den s ->
  exists n, n + fbar + f = hm + hn /\
    summed_upper s = letters_from summed_letters 0 n /\ Permutation (summed_lower s) (letters_from summed_letters 0 n).
Proof.
  intros T. destruct (term_reads _ _ _ _ _ _ _ _ _ _ T) as (su & sl & eu & el & xs & F & L1 & L2 & E1 & E2 & E3 & _ & _ & _ & _ & B & _).
  exists (List.length su + List.length sl). split; [lia|]. rewrite <- E1. unfold summed_upper, summed_lower, letters_at. rewrite B.
  rewrite !filter_app, !map_app, !side_filter, !side_filters. cbn [Ascii.eqb Bool.eqb]. rewrite app_nil_r. cbn [app].
  rewrite (flat_map_ext _ l_mh) by (intros; apply app_nil_r). rewrite E3. split; [reflexivity|].
  change (fun x : tlabel => l_nh x) with l_nh. rewrite E2. apply Permutation_app_comm.
Qed.

Lemma free_indices_of k gap hm hn f fbar ts num den s : term_text k gap hm hn f fbar ts num den s ->
  Permutation (all_free s) (letters_from free_letters k (fbar + f) ++ letters_from free_letters (k + fbar + f + gap) (total n_o ts + total m_o ts))%list /\
  (total n_o ts = 0 -> f = 0 -> free_lower s = []) /\ (total m_o ts = 0 -> fbar = 0 -> free_upper s = []).
Proof.
  intros T. destruct (term_reads _ _ _ _ _ _ _ _ _ _ T) as (su & sl & eu & el & xs & F & L1 & L2 & E1 & E2 & E3 & L3 & L4 & E4 & E5 & _ & R).
  unfold all_free, free_upper, free_lower, letters_at. rewrite R. split; [|split].
  - rewrite map_app, side_all, side_alls, E4. apply Permutation_app_head. rewrite <- E5. apply flat_swap.
  - intros Z1 ->. rewrite filter_app, map_app, side_filter, side_filters. cbn [Ascii.eqb Bool.eqb app].
    rewrite (proj1 (length_zero_iff_nil el) L4). cbn [app]. clear - F Z1. induction F as [|t x ts xs (_ & _ & Fx & _) F IH]; [reflexivity|].
    unfold total in Z1. cbn [fold_right] in Z1. fold (total n_o ts) in Z1. cbn [flat_map]. rewrite IH by lia.
    rewrite app_nil_r. apply length_zero_iff_nil. lia.
  - intros Z1 ->. rewrite filter_app, map_app, side_filter, side_filters. cbn [Ascii.eqb Bool.eqb].
    rewrite (proj1 (length_zero_iff_nil eu) L3). cbn [app]. clear - F Z1. induction F as [|t x ts xs (_ & _ & _ & Fx) F IH]; [reflexivity|].
    unfold total in Z1. cbn [fold_right] in Z1. fold (total m_o ts) in Z1. cbn [flat_map]. rewrite IH by lia.
    rewrite !app_nil_r. apply length_zero_iff_nil. lia.
Qed.

Lemma total_factors g us : g t_one = 0 -> total g (factors us) = total g us.
Proof. intros Hg. destruct us; [|reflexivity]. change (g t_one + 0 = 0). now rewrite Hg. Qed.

Lemma describes_same om on hm hn us f fbar hm' hn' us' f' fbar' t :
  describes om on hm hn us f fbar t -> describes om on hm' hn' us' f' fbar' t ->
  hm = hm' /\ hn = hn' /\ f = f' /\ fbar = fbar' /\ factors us = factors us'.
Proof. unfold describes. intros -> E. injection E. intros. repeat split; congruence. Qed.

Lemma letters_split l a b n : (letters_from l a n ++ letters_from l (a + n) b)%list = letters_from l a (n + b).
Proof. apply slice_app. Qed.

Theorem plain_free om on hm hn us f fbar t s : contraction om on hm hn us f fbar -> describes om on hm hn us f fbar t ->
  plain_term om on t s ->
  Permutation (all_free s) (letters_from free_letters 0 (om + on)) /\
  (om = 0 -> free_lower s = []) /\ (on = 0 -> free_upper s = []).
Proof.
  intros (C1 & C2 & C3 & C4) D (hm' & hn' & us' & f' & fb' & num & den & D' & _ & T).
  destruct (describes_same _ _ _ _ _ _ _ _ _ _ _ _ _ D D') as (<- & <- & <- & <- & Ef).
  destruct (free_indices_of _ _ _ _ _ _ _ _ _ _ T) as (P1 & P2 & P3).
  assert (N : total n_o us' = total n_o us) by (rewrite <- (total_factors n_o us), <- (total_factors n_o us') by reflexivity; now rewrite Ef).
  assert (M : total m_o us' = total m_o us) by (rewrite <- (total_factors m_o us), <- (total_factors m_o us') by reflexivity; now rewrite Ef).
  rewrite N, M in *. split; [|split; intros; [apply P2|apply P3]; lia].
  rewrite P1. rewrite !Nat.add_0_l, Nat.add_0_r. rewrite <- (Nat.add_0_l (fbar + f)) at 2. rewrite letters_split.
  replace (fbar + f + (total n_o us + total m_o us)) with (om + on) by lia. reflexivity.
Qed.

Lemma factor_free p s : factor_text p s ->
  Permutation (all_free s) (letters_from free_letters 0 (total n_o p + total m_o p)) /\
  (total n_o p = 0 -> free_lower s = []) /\ (total m_o p = 0 -> free_upper s = []).
Proof.
  intros (xs & F & E1 & E2 & E3 & ->).
  assert (DX : forall x, In x xs -> label_dull x).
  { intros x Hx. repeat split.
    - apply (flat_dull l_nh xs); [rewrite E1; constructor|exact Hx].
    - apply (flat_dull l_mh xs); [rewrite E2; constructor|exact Hx].
    - assert (X : Forall dull (l_no x ++ l_mo x)%list) by (apply (flat_dull (fun x => l_no x ++ l_mo x)%list xs); [eapply letters_dull; eauto|exact Hx]).
      now apply Forall_app in X.
    - assert (X : Forall dull (l_no x ++ l_mo x)%list) by (apply (flat_dull (fun x => l_no x ++ l_mo x)%list xs); [eapply letters_dull; eauto|exact Hx]).
      now apply Forall_app in X. }
  assert (R : indices "\red{" (String.concat "" (map amplitude_text xs)) = flat_map (fun x => side_out (l_mo x) (l_no x)) xs).
  { apply reads_indices. apply (amplitudes_read _ (fun x => side_out (l_mo x) (l_no x))). intros x Hx. apply amplitude_reads_red; auto. }
  unfold all_free, free_upper, free_lower, letters_at. rewrite R. split; [|split].
  - rewrite side_alls, <- E3. apply flat_swap.
  - intros Z1. rewrite side_filters. cbn [Ascii.eqb Bool.eqb app]. clear - F Z1. induction F as [|t x ts xs (_ & _ & Fx & _) F IH]; [reflexivity|].
    unfold total in Z1. cbn [fold_right] in Z1. fold (total n_o ts) in Z1. cbn [flat_map]. rewrite IH by lia.
    rewrite app_nil_r. apply length_zero_iff_nil. lia.
  - intros Z1. rewrite side_filters. cbn [Ascii.eqb Bool.eqb]. clear - F Z1. induction F as [|t x ts xs (_ & _ & _ & Fx) F IH]; [reflexivity|].
    unfold total in Z1. cbn [fold_right] in Z1. fold (total m_o ts) in Z1. cbn [flat_map]. rewrite IH by lia.
    rewrite !app_nil_r. apply length_zero_iff_nil. lia.
Qed.

Lemma free_nodup : NoDup free_letters.
Proof. apply NoDup_count_occ' with (decA := Ascii.ascii_dec). intros x Hx. cbn in Hx. repeat (destruct Hx as [<-|Hx]; [reflexivity|]). easy. Qed.

Lemma letter_not_before i n : n <= i -> i < 8 -> ~ In (nth i free_letters " "%char) (letters_from free_letters 0 n).
Proof.
  intros H1 H2 X. unfold letters_from in X. cbn [skipn] in X. apply (In_nth _ _ " "%char) in X as (j & Hj & Ej).
  assert (Lj : j < n) by (rewrite firstn_length in Hj; lia).
  assert (L8 : List.length free_letters = 8) by reflexivity.
  assert (Ej' : nth j free_letters " "%char = nth i free_letters " "%char).
  { rewrite <- Ej. symmetry. rewrite <- (firstn_skipn n free_letters) at 2. rewrite app_nth1; [reflexivity|exact Hj]. }
  apply (proj1 (NoDup_nth free_letters " "%char) free_nodup) in Ej'; [lia|rewrite L8; lia|rewrite L8; lia].
Qed.
Lemma letter_in i k n : k <= i -> i < k + n -> i < 8 -> In (nth i free_letters " "%char) (letters_from free_letters k n).
Proof.
  intros H1 H2 H3. unfold letters_from.
  assert (L8 : List.length free_letters = 8) by reflexivity.
  assert (E : nth i free_letters " "%char = nth (i - k) (firstn n (skipn k free_letters)) " "%char).
  { rewrite <- (firstn_skipn k free_letters) at 1. rewrite app_nth2; rewrite firstn_length_le by lia; [|lia].
    rewrite <- (firstn_skipn n (skipn k free_letters)) at 1. rewrite app_nth1; [reflexivity|]. rewrite firstn_length, skipn_length. lia. }
  rewrite E. apply nth_In. rewrite firstn_length, skipn_length. lia.
Qed.

Theorem linked_free om on hm hn us f fbar t s common : om + on <= 3 ->
  contraction om on hm hn us f fbar -> Forall (fun t => 1 <= up t + down t) us -> describes om on hm hn us f fbar t ->
  condensed_term om on t s -> factor_text (loose us) common ->
  (Permutation (all_free common ++ all_free s)%list (letters_from free_letters 0 (om + on))
   <-> fbar + f = 0 \/ total n_o (bound us) + total m_o (bound us) = 0) /\
  (om = 0 -> free_lower common = [] /\ free_lower s = []) /\ (on = 0 -> free_upper common = [] /\ free_upper s = []).
Proof.
  intros H3 (C1 & C2 & C3 & C4) N D (hm' & hn' & us' & f' & fb' & num & den & D' & _ & T) FT.
  destruct (describes_same _ _ _ _ _ _ _ _ _ _ _ _ _ D D') as (<- & <- & <- & <- & Ef).
  destruct (free_indices_of _ _ _ _ _ _ _ _ _ _ T) as (P1 & P2 & P3). destruct (factor_free _ _ FT) as (Q1 & Q2 & Q3).
  assert (TL : forall g, g t_one = 0 -> total g (bound us') = total g (bound us)).
  { intros g Hg. destruct us as [|u us]; destruct us' as [|u' us']; cbn [factors] in Ef; auto.
    - injection Ef as <- <-. cbn. reflexivity.
    - injection Ef as -> ->. cbn. reflexivity.
    - now rewrite Ef. }
  assert (TF : forall g, g t_one = 0 -> total g (loose us') = total g (loose us)).
  { intros g Hg. destruct us as [|u us]; destruct us' as [|u' us']; cbn [factors] in Ef; auto.
    - injection Ef as <- <-. change (g t_one + 0 = 0). now rewrite Hg.
    - injection Ef as -> ->. change (0 = g t_one + 0). now rewrite Hg.
    - now rewrite Ef. }
  rewrite !TL, !TF in P1 by reflexivity. rewrite TL in P2, P3 by reflexivity.
  pose proof (bound_total n_o us) as B1. pose proof (bound_total m_o us) as B2.
  set (k := total n_o (loose us) + total m_o (loose us)) in *. set (b := total n_o (bound us) + total m_o (bound us)) in *.
  split; [|split; intros; split; first [apply P2|apply P3|apply Q2|apply Q3]; lia].
  assert (R : om + on = k + (fbar + f) + b) by (unfold k, b; lia).
  assert (PP : Permutation (all_free common ++ all_free s)%list (letters_from free_letters 0 (k + (fbar + f)) ++ letters_from free_letters (k + fbar + f + (fbar + f)) b)%list).
  { rewrite P1, Q1, app_assoc. rewrite letters_split. reflexivity. }
  rewrite PP. split.
  - intros X. destruct (Nat.eq_dec (fbar + f) 0) as [|Hf]; [now left|]. right. destruct b as [|b']; [reflexivity|exfalso].
    set (i := k + fbar + f + (fbar + f) + b').
    apply (letter_not_before i (om + on)); [unfold i; lia|unfold i; lia|].
    eapply Permutation_in; [exact X|]. apply in_or_app. right. apply letter_in; unfold i; lia.
  - intros [Z|Z].
    + replace (k + fbar + f + (fbar + f)) with (0 + (k + (fbar + f))) by lia. rewrite letters_split, R. reflexivity.
    + rewrite Z. cbn [letters_from firstn]. rewrite app_nil_r. rewrite R, Z, Nat.add_0_r. reflexivity.
Qed.

Theorem unlinked_free om on hm hn us f fbar t s common :
  contraction om on hm hn us f fbar -> describes om on hm hn us f fbar t -> 1 <= om + on ->
  without_factor om on (mkt 0 0 on om) t s -> factor_text [mkt 0 0 on om] common ->
  Permutation (all_free common ++ all_free s)%list (letters_from free_letters 0 (om + on)) /\
  (om = 0 -> free_lower common = [] /\ free_lower s = []) /\ (on = 0 -> free_upper common = [] /\ free_upper s = []).
Proof.
  intros (C1 & C2 & C3 & C4) D Hr (hm' & hn' & us' & us1 & us2 & f' & fb' & num & den & D' & Es & _ & T) FT.
  destruct (describes_same _ _ _ _ _ _ _ _ _ _ _ _ _ D D') as (<- & <- & <- & <- & Ef).
  destruct (free_indices_of _ _ _ _ _ _ _ _ _ _ T) as (P1 & P2 & P3). destruct (factor_free _ _ FT) as (Q1 & Q2 & Q3).
  assert (N : total n_o us' = total n_o us) by (rewrite <- (total_factors n_o us), <- (total_factors n_o us') by reflexivity; now rewrite Ef).
  assert (M : total m_o us' = total m_o us) by (rewrite <- (total_factors m_o us), <- (total_factors m_o us') by reflexivity; now rewrite Ef).
  assert (N' : total n_o us' = om + total n_o (us1 ++ us2)) by (rewrite Es, !total_app, total_cons; cbn [n_o]; lia).
  assert (M' : total m_o us' = on + total m_o (us1 ++ us2)) by (rewrite Es, !total_app, total_cons; cbn [m_o]; lia).
  assert (Z : fbar = 0 /\ f = 0 /\ total n_o (us1 ++ us2) = 0 /\ total m_o (us1 ++ us2) = 0) by lia.
  destruct Z as (-> & -> & Z1 & Z2). rewrite Z1, Z2 in P1. cbn [letters_from firstn Nat.add app] in P1.
  unfold total in Q1, Q2, Q3; cbn [fold_right n_o m_o] in Q1, Q2, Q3. rewrite !Nat.add_0_r in *.
  split; [rewrite P1, Q1, app_nil_r; reflexivity|].
  split; intros; split; first [apply P2|apply P3|apply Q2|apply Q3]; lia.
Qed.

(** ** Statements used by the property file *)
Lemma summed_letters_nodup n : NoDup (letters_from summed_letters 0 n).
Proof.
  unfold letters_from. change (skipn 0 summed_letters) with summed_letters.
  assert (X : NoDup summed_letters) by (repeat constructor; cbn; intuition discriminate).
  revert n. induction X as [|c l Hc _ IH]; intros [|n]; cbn [firstn]; constructor; auto.
  intros Hi. apply Hc. rewrite <- (firstn_skipn n l). apply in_or_app. now left.
Qed.

Theorem summed_once om on c t s : plain_term om on t s \/ condensed_term om on t s \/ without_factor om on c t s ->
  NoDup (summed_upper s) /\ NoDup (summed_lower s) /\ Permutation (summed_upper s) (summed_lower s) /\
  exists n, summed_upper s = letters_from summed_letters 0 n.
Proof.
  intros [T | [T | T]];
    [ destruct T as (hm & hn & us & f & fb & num & den & _ & _ & T)
    | destruct T as (hm & hn & us & f & fb & num & den & _ & _ & T)
    | destruct T as (hm & hn & us & us1 & us2 & f & fb & num & den & _ & _ & _ & T) ];
    apply summed_indices in T as (n & _ & E & P); rewrite E;
    (split; [apply summed_letters_nodup|]);
    (split; [apply (Permutation_NoDup (Permutation_sym P)); apply summed_letters_nodup|]);
    (split; [now apply Permutation_sym|now exists n]).
Qed.

Theorem all_printed ss text : plain_text ss text ->
  (List.length ss < 14 -> text = sum_text ss) /\
  (14 <= List.length ss -> exists lines rest, Forall (fun l => List.length l = 7) lines /\ ss = (List.concat lines ++ rest)%list /\
     List.length rest = List.length ss mod 7 /\ text = lines_text lines).
Proof.
  intros [[L E] | (L & lines & rest & F & R & E & T)].
  - split; [intros _; exact E|intros; lia].
  - split; [intros; lia|]. intros _. exists lines, rest. split; [exact F|]. split; [exact E|]. split; [|exact T].
    assert (X : List.length (List.concat lines) = 7 * List.length lines).
    { clear - F. induction F as [|l r Hl _ IH]; [reflexivity|]. cbn [List.concat]. rewrite app_length, IH, Hl. cbn [List.length]. lia. }
    rewrite E, app_length, X. rewrite (Nat.mul_comm 7), Nat.add_comm, Nat.mod_add, Nat.mod_small; lia.
Qed.

Theorem one_kind om on hm hn us f fbar t s : contraction om on hm hn us f fbar ->
  Forall (fun t => 1 <= up t + down t) us -> describes om on hm hn us f fbar t ->
  plain_term om on t s \/
  (exists common, condensed_term om on t s /\ factor_text (loose us) common /\ om + on <= 3) \/
  (1 <= om + on /\ without_factor om on (mkt 0 0 on om) t s /\ exists common, factor_text [mkt 0 0 on om] common) ->
  (om = 0 -> free_lower s = []) /\ (on = 0 -> free_upper s = []).
Proof.
  intros C N D [T | [(common & T & F & R) | (R & T & common & F)]].
  - exact (proj2 (plain_free _ _ _ _ _ _ _ _ _ C D T)).
  - destruct (linked_free _ _ _ _ _ _ _ _ _ _ R C N D T F) as (_ & A & B). split; intros X; [apply (A X)|apply (B X)].
  - destruct (unlinked_free _ _ _ _ _ _ _ _ _ _ C D R T F) as (_ & A & B). split; intros X; [apply (A X)|apply (B X)].
Qed.
