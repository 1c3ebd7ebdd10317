(** Proofs about the python code of the full coupled cluster equations. *)
From Verif Require Import PyBase PyBaseFacts ModelHelper ModelW ModelFullCC ModelPrefactor ModelFullCCPy
  SpecPrefactor SpecFullCC SpecFullCCPy ProofsPrefactor ProofsHelper ProofsW ProofsStr ProofsFullCC ProofsFullCCLabels.

(** ** C28 for the two instances of the code *)
Lemma nat_simplify so num den : set_order so ->
  let '(n, d) := simplify_prefactor Nat.eqb so num den in
  cancelled num den n d /\ no_common_factor n d /\ (no_common_factor num den -> n = num /\ d = den).
Proof. intros H. apply simplify_spec; [apply Nat.eqb_eq|exact H]. Qed.

Lemma string_simplify so num den : set_order so ->
  let '(n, d) := simplify_prefactor String.eqb so num den in
  cancelled num den n d /\ no_common_factor n d /\ (no_common_factor num den -> n = num /\ d = den).
Proof. intros H. apply simplify_spec; [apply String.eqb_eq|exact H]. Qed.

Lemma string_simplify_sorted so leb num den : set_order so ->
  (forall a b : string, leb a b = true \/ leb b a = true) ->
  (forall a b c, leb a b = true -> leb b c = true -> leb a c = true) ->
  let '(n, d) := simplify_prefactor_sorted String.eqb so leb num den in
  cancelled num den n d /\ no_common_factor n d /\ (no_common_factor num den -> n = num /\ d = den) /\
  (~ no_common_factor num den ->
   Sorted.StronglySorted (fun a b => leb a b = true) n /\ Sorted.StronglySorted (fun a b => leb a b = true) d).
Proof. intros H T R. apply simplify_sorted_spec; [apply String.eqb_eq|exact H|exact T|exact R]. Qed.

(** ** C29 *)
Lemma fact_product_value l : fact_product l = value fact l.
Proof. reflexivity. Qed.

Lemma connected_filter ts : exists d, NoDup d /\ (forall t, In t d <-> In t ts /\ ~ disconnected t) /\
  List.length d = List.length (dedup tamp_eqb (filter (fun t => Nat.ltb 0 (m_h t) || Nat.ltb 0 (n_h t)) ts)).
Proof.
  exists (dedup tamp_eqb (filter (fun t => Nat.ltb 0 (m_h t) || Nat.ltb 0 (n_h t)) ts)).
  split; [apply nodup_dedup, tamp_eqb_eq|]. split; [|reflexivity].
  intros t. rewrite (in_dedup tamp_eqb tamp_eqb_eq), filter_In. unfold disconnected.
  rewrite orb_true_iff, !Nat.ltb_lt. split; intros [H1 H2]; (split; [exact H1|lia]).
Qed.

Lemma single_fact n : fact_product (if Nat.ltb 1 n then [n] else []) = fact n.
Proof.
  destruct (Nat.ltb_spec 1 n) as [H|H]; unfold fact_product, fold_right; [lia|].
  destruct n as [|[|n]]; [reflexivity|reflexivity|lia].
Qed.

Lemma fact_product_app a b : fact_product (a ++ b) = fact_product a * fact_product b.
Proof. rewrite !fact_product_value. apply value_app. Qed.

Lemma prefactor_value so om on hm hn us f fbar t : set_order so ->
  describes om on hm hn us f fbar t -> Forall (fun t => 1 <= up t + down t) us -> us <> [] ->
  exists x num den,
    different_connected us x /\
    build_prefactor so (snd (fst t)) (snd t) = (num, den) /\
    fact_product num * (fact hm * fact hn * fact (List.length us)) = fact x * fact_product den /\
    no_common_factor num den.
Proof.
  intros Hso -> HR HN. cbn [fst snd].
  assert (factors us = us) as -> by (destruct us; [congruence|reflexivity]).
  unfold build_prefactor.
  assert (B : is_bare_h us = false).
  { unfold is_bare_h. destruct us as [|u [|u' r]]; try reflexivity.
    destruct (tamp_eqb u t_one) eqn:E; [|reflexivity]. apply tamp_eqb_eq in E. subst.
    inversion HR; subst. unfold up, down in *; cbn in *. lia. }
  rewrite B. cbn [ch_m ch_n].
  destruct (connected_filter us) as (d & D1 & D2 & D3).
  set (x := List.length (dedup tamp_eqb _)) in *.
  set (num := if Nat.ltb 1 x then [x] else []). set (den := (_ ++ _ ++ _)%list).
  pose proof (nat_simplify so num den Hso) as S.
  destruct (simplify_prefactor Nat.eqb so num den) as [n dd]. destruct S as (S1 & S2 & _).
  exists x, n, dd. split; [exists d; auto|]. split; [reflexivity|]. split; [|exact S2].
  pose proof (cancelled_fraction fact _ _ _ _ S1) as F. unfold same_fraction in F.
  change (fact_product num * fact_product dd = fact_product n * fact_product den) in F.
  assert (En : fact_product num = fact x) by apply single_fact.
  assert (Ed : fact_product den = fact hm * fact hn * fact (List.length us)).
  { unfold den. rewrite !fact_product_app, !single_fact. lia. }
  rewrite En, Ed in F. lia.
Qed.

Lemma prefactor_bare so om on hm hn f fbar t : describes om on hm hn [] f fbar t ->
  build_prefactor so (snd (fst t)) (snd t) = ([], []).
Proof. intros ->. reflexivity. Qed.

(** ** C30 *)
Definition short (om on hm hn : nat) (us : list tamp) : Prop :=
  List.length us <= 6 /\ hm + hn <= 10 /\ om + on <= 8.

Lemma labels_consistent son soc om on hm hn us f fbar t :
  set_order son -> set_order soc ->
  contraction om on hm hn us f fbar -> describes om on hm hn us f fbar t ->
  us <> [] -> List.length us <= 6 -> hm + hn <= 10 -> om + on <= 8 ->
  exists calls, einsum_calls son soc t = Ok calls /\ calls <> [] /\
    Forall (realises om on hm hn f fbar us) calls.
Proof.
  intros Hson Hsoc Hc Hd Hne Hk Hh Ho.
  eexists. split; [apply (calls_exact son soc Hson om on hm hn f fbar us Hc Hne Hk Hh Ho t Hd)|].
  assert (R : forall fs, Permutation fs (combine us (labels hm f fbar us)) -> realises om on hm hn f fbar us (call_of om on hm hn f fbar us fs)).
  { intros fs P. apply (call_realises om on hm hn f fbar us Hc Hk Hh Ho). exact P. }
  destruct (Nat.eq_dec (List.length us) 1) as [L1|L1].
  - rewrite single_one by exact L1. split.
    + destruct (om + on) as [|n] eqn:E; [discriminate|].
      assert (P : In (chars (of_chars (out om on))) (letter_permutations soc (of_chars (out om on)))).
      { apply in_unique_permutations_gen; [apply Ascii.eqb_eq|exact Hsoc|reflexivity]. }
      destruct (letter_permutations soc (of_chars (out om on))); [destruct P|discriminate].
    + rewrite Forall_forall. intros c Hin. apply repeat_spec in Hin. subst. apply R. reflexivity.
  - rewrite single_more by exact L1. split.
    + assert (P : In (range 0 (List.length us)) (unique_permutations son (range 0 (List.length us)))) by
        (apply (in_unique_permutations son Hson); reflexivity).
      destruct (unique_permutations son _); [destruct P|discriminate].
    + rewrite Forall_forall. intros c Hin. apply in_map_iff in Hin as (perm & <- & Hp). apply R.
      apply (in_unique_permutations son Hson) in Hp. apply fs_perm. exact Hp.
Qed.

(** Counting the letters of a call. *)
Notation cnt x l := (count_occ ascii_dec l x).

Lemma chars_list s : list_ascii_of_string s = chars s.
Proof. induction s as [|c s IH]; cbn; congruence. Qed.

Lemma occurrences_app x a b : occurrences x (a +++ b) = occurrences x a + occurrences x b.
Proof. unfold occurrences. rewrite !chars_list, chars_app. apply count_occ_app. Qed.

Lemma occurrences_of_chars x l : occurrences x (of_chars l) = cnt x l.
Proof. unfold occurrences. now rewrite chars_list, chars_of_chars. Qed.

Lemma occurrences_chained x first mid lst vs : List.length vs = S (List.length mid) ->
  occurrences x (concat_str (chained (first :: mid ++ [lst]) vs)) =
  cnt x (first :: mid) + cnt x (mid ++ [lst]) + cnt x (List.concat vs).
Proof.
  revert first vs; induction mid as [|c mid IH]; intros first [|v vs] H; cbn [List.length] in H; try lia.
  - destruct vs; [|cbn in H; lia]. cbn [app chained].
    change (concat_str [of_chars (first :: lst :: v)]) with (of_chars (first :: lst :: v) +++ "").
        rewrite occurrences_app, occurrences_of_chars. cbn [List.concat]. rewrite app_nil_r.
    change (first :: lst :: v) with ([first] ++ [lst] ++ v)%list. rewrite !count_occ_app. cbn. lia.
  - change (concat_str (chained (first :: (c :: mid) ++ [lst]) (v :: vs)))
      with (of_chars (first :: c :: v) +++ concat_str (chained (c :: mid ++ [lst]) vs)).
    change ((c :: mid) ++ [lst])%list with (c :: mid ++ [lst])%list.
    rewrite occurrences_app, occurrences_of_chars, IH by lia. cbn [List.concat].
    change (first :: c :: v) with ([first] ++ [c] ++ v)%list.
    change (first :: c :: mid) with ([first] ++ [c] ++ mid)%list.
    change (c :: mid ++ [lst])%list with ([c] ++ mid ++ [lst])%list.
    change (c :: mid) with ([c] ++ mid)%list.
    rewrite !count_occ_app. lia.
Qed.

Lemma count_flat_map {X} x (g : X -> list ascii) (l l' : list X) : Permutation l l' -> cnt x (flat_map g l) = cnt x (flat_map g l').
Proof. intros P. apply (proj1 (Permutation_count_occ ascii_dec _ _)). now apply Permutation_flat_map. Qed.

Lemma count_letters x (fs : list (tamp * tlabel)) :
  cnt x (List.concat (map (fun y => letters (snd y)) fs)) =
  cnt x (flat_map (fun y => l_nh (snd y)) fs) + cnt x (flat_map (fun y => l_mh (snd y)) fs)
  + cnt x (flat_map (fun y => (l_no (snd y) ++ l_mo (snd y))%list) fs).
Proof.
  induction fs as [|y fs IH]; [reflexivity|]. cbn [map List.concat flat_map].
  rewrite !count_occ_app, IH. unfold letters. rewrite !count_occ_app. lia.
Qed.

Lemma rank_fits t x : fits t x -> List.length (letters x) = up t + down t.
Proof. intros (A & B & C & D). unfold letters, up, down. rewrite !app_length. lia. Qed.

Lemma length_of_chars l : String.length (of_chars l) = List.length l.
Proof. induction l as [|c l IH]; cbn; congruence. Qed.

Lemma map_length_chained c vs : List.length c = S (List.length vs) ->
  map String.length (chained c vs) = map (fun v => 2 + List.length v) vs.
Proof.
  revert c; induction vs as [|v vs IH]; intros c H.
  - destruct c as [|a [|b c]]; reflexivity.
  - destruct c as [|a [|b c]]; cbn [List.length] in H; try lia.
    change (chained (a :: b :: c) (v :: vs)) with (of_chars (a :: b :: v) :: chained (b :: c) vs).
    cbn [map]. rewrite length_of_chars, IH by (cbn [List.length]; lia). reflexivity.
Qed.

Lemma realises_letters om on hm hn f fbar us c : realises om on hm hn f fbar us c ->
  map String.length (e_inputs c) = (2 + hm + hn) :: map (fun mn => 2 + fst mn + snd mn) (e_ts c) /\
  String.length (e_output c) = 2 + om + on /\
  forall x, (occurrences x (concat_str (e_inputs c) +++ e_output c) = 0 \/
             occurrences x (concat_str (e_inputs c) +++ e_output c) = 2) /\
            occurrences x (e_output c) <= 1.
Proof.
  intros (mid & su & sl & eu & el & out & fs & H). cbn zeta in H.
  destruct H as (P & F & Eh & Et & Lm & Ei & Eo & L1 & L2 & L3 & L4 & L5 & P1 & P2 & P3 & N).
  assert (Lf : List.length fs = List.length us) by (rewrite <- (Permutation_length P); now rewrite map_length).
  split; [|split].
  - rewrite Ei, map_length_chained.
    + cbn [map]. f_equal; [rewrite !app_length; lia|]. rewrite Et, !map_map.
      apply map_ext_in. intros y Hy. rewrite Forall_forall in F. rewrite (rank_fits (fst y)) by now apply F. cbn [fst snd]. lia.
    + cbn [List.length]. rewrite app_length, map_length. cbn [List.length]. lia.
  - rewrite Eo, length_of_chars. cbn [List.length]. lia.
  - intros x. rewrite occurrences_app, Eo, occurrences_of_chars, Ei, occurrences_chained
      by (cbn [List.length]; rewrite map_length; lia).
    cbn [List.concat]. rewrite !count_occ_app, count_letters.
    rewrite (proj1 (Permutation_count_occ ascii_dec _ _) P1 x).
    rewrite (proj1 (Permutation_count_occ ascii_dec _ _) P2 x).
    pose proof (proj1 (Permutation_count_occ ascii_dec _ _) P3 x) as Q. rewrite !count_occ_app in Q.
    rewrite (NoDup_count_occ ascii_dec) in N. specialize (N x). rewrite !count_occ_app in N.
    change ("a" :: mid ++ ["b"])%char%list with (["a"] ++ mid ++ ["b"])%char%list in N.
    change ("a" :: mid)%char%list with (["a"] ++ mid)%char%list.
    change ("a" :: "b" :: out)%char%list with (["a"] ++ ["b"] ++ out)%char%list.
    rewrite !count_occ_app in *.
    rewrite (proj1 (Permutation_count_occ ascii_dec _ _) P1 x) in N.
    rewrite (proj1 (Permutation_count_occ ascii_dec _ _) P2 x) in N.
    lia.
Qed.

(** ** C32 *)
Lemma calls_of_term son soc om on hm hn us f fbar t :
  set_order son -> set_order soc ->
  contraction om on hm hn us f fbar -> describes om on hm hn us f fbar t ->
  Forall (fun t => 1 <= up t + down t) us ->
  us <> [] -> List.length us <= 6 -> hm + hn <= 10 -> om + on <= 8 ->
  exists calls, einsum_calls son soc t = Ok calls /\
    (List.length us = 1 -> exists c, calls = repeat c (fact (om + on))) /\
    (2 <= List.length us -> NoDup calls /\ List.length calls = fact (List.length us)).
Proof.
  intros Hson Hsoc Hc Hd HR Hne Hk Hh Ho.
  eexists. split; [apply (calls_exact son soc Hson om on hm hn f fbar us Hc Hne Hk Hh Ho t Hd)|].
  split.
  - intros L1. rewrite single_one by exact L1. eexists. f_equal.
    destruct (om + on) as [|n] eqn:E; [reflexivity|]. rewrite <- E.
    unfold letter_permutations. rewrite unique_permutations_length.
    + rewrite chars_of_chars. f_equal. unfold out. apply slice_length. cbn [List.length chars unlinked_indices]. lia.
    + apply Ascii.eqb_eq.
    + exact Hsoc.
    + rewrite chars_of_chars. pose proof (all_letters_nodup om on hm hn f fbar us) as N.
      do 3 apply NoDup_app_r in N. exact N.
  - intros L2. rewrite single_more by lia. split.
    + apply (calls_differ son Hson om on hm hn f fbar us Hc Hk Hh Ho HR).
    + rewrite map_length. unfold unique_permutations. rewrite unique_permutations_length.
      * now rewrite length_range, Nat.sub_0_r.
      * apply Nat.eqb_eq.
      * exact Hson.
      * apply nodup_range.
Qed.
