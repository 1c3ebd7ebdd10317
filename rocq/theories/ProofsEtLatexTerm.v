(** Proofs about the LaTeX of the e^T ansatz: the tidied text of a term, and
    that different contractions have different texts. *)
From Coq Require Import Lia Permutation Factorial.
From Verif Require Import PyBase PyStr PyBaseFacts ModelHelper ModelW ModelLatexW ModelFullCC ModelFullCCPy ModelFullCCLatex ModelZhz ModelEt ModelEtLatex
  ProofsHelper ProofsW ProofsStr ProofsFullCC ProofsFullCCLabels ProofsFullCCBuckets ProofsFullCCLatexText ProofsFullCCLatex ProofsFullCCLatexFile
  SpecFullCC SpecFullCCPy SpecLatexW SpecFullCCLatex SpecZhz ProofsZhz ProofsZhzLatex ProofsZhzFile ProofsZhzEquation
  SpecEt ProofsEt SpecEtLatex ProofsEtLatex.
Open Scope string_scope.

(** ** Tidied texts *)
Lemma letters_in l i n : Forall letter l -> Forall letter (letters_from l i n).
Proof.
  intros H. rewrite Forall_forall in *. intros x Hx. apply H. unfold letters_from in Hx.
  rewrite <- (firstn_skipn i l). apply in_or_app. right. rewrite <- (firstn_skipn n (skipn i l)). apply in_or_app. now left.
Qed.
Lemma all_inner : Forall letter inner_letters.
Proof. apply Forall_forall. intros x Hx. unfold letter. apply in_or_app. now left. Qed.
Lemma all_outer : Forall letter outer_letters.
Proof. apply Forall_forall. intros x Hx. unfold letter. apply in_or_app. now right. Qed.
Lemma summed_harmless i n : harmless (summed i n) = true.
Proof.
  unfold summed. rewrite string_of_chars. apply harmless_chars. eapply Forall_impl; [|apply letters_in, all_inner]. exact letter_plain.
Qed.
Lemma free_harmless i n : harmless (free i n) = true.
Proof.
  unfold free. rewrite string_of_chars. apply harmless_chars. eapply Forall_impl; [|apply letters_in, all_outer]. exact letter_plain.
Qed.
Lemma in_h_harmless k i : harmless (in_h_text k i) = true.
Proof. unfold in_h_text. destruct (with_z k i); [reflexivity|apply summed_harmless]. Qed.
Lemma in_z_harmless k i : harmless (in_z_text k i) = true.
Proof. unfold in_z_text. destruct (with_z k i); [apply summed_harmless|reflexivity]. Qed.

Lemma tidy_concat l : Forall (fun s => tidy s = true) l -> tidy (concat_str l) = true.
Proof. induction 1 as [|x l Hx _ IH]; [reflexivity|]. change (concat_str (x :: l)) with (x ++ concat_str l). now apply tidy_app. Qed.
Lemma tidy_each k f : (forall i, tidy (f i) = true) -> tidy (each_t k f) = true.
Proof.
  intros H. unfold each_t. rewrite concat_empty_sep. apply tidy_concat. apply Forall_forall. intros s Hs.
  apply in_map_iff in Hs as (i & <- & _). apply H.
Qed.

Ltac tidy_all := repeat (apply tidy_app); try reflexivity;
  try (apply tidy_harmless; first [apply summed_harmless | apply free_harmless | apply in_h_harmless | apply in_z_harmless]).

Lemma eT_quotient_chars num den c : has_char c "\frac{1}" = false -> is_digit c = false ->
  Ascii.eqb c "!" = false -> Ascii.eqb c "(" = false -> Ascii.eqb c ")" = false ->
  has_char c (eT_quotient_text num den) = false.
Proof.
  intros H0 H1 H2 H3 H4.
  assert (N : forall x, has_char c (eT_number_text x) = false).
  { intros [n b]. unfold eT_number_text. cbn [fst snd]. destruct b; rewrite !has_char_app, str_nat_no_char by exact H1; cbn; rewrite ?H2, ?H3, ?H4; reflexivity. }
  assert (J : forall l, has_char c (String.concat "" (map eT_number_text l)) = false).
  { intros l. rewrite concat_empty_sep. induction l as [|x l IH]; [reflexivity|]. cbn [map].
    change (concat_str (?x :: ?l)) with (x ++ concat_str l). now rewrite has_char_app, N, IH. }
  assert (B : has_char c "\frac{" = false /\ has_char c "1" = false /\ has_char c "}" = false).
  { change "\frac{1}" with ("\frac{" ++ "1" ++ "}") in H0. rewrite !has_char_app in H0. apply orb_false_iff in H0 as [A H0]. apply orb_false_iff in H0. tauto. }
  destruct B as (B1 & B2 & B3).
  assert (B4 : has_char c "}{" = false).
  { change "}{" with ("}" ++ "{"). rewrite has_char_app, B3. change "\frac{" with ("\frac" ++ "{") in B1. rewrite has_char_app in B1. apply orb_false_iff in B1. tauto. }
  assert (M : forall l, has_char c (match l with [] => "1" | _ => String.concat "" (map eT_number_text l) end) = false).
  { intros [|x l]; [exact B2|apply J]. }
  unfold eT_quotient_text. assert (G : has_char c ("\frac{" ++ (match num with [] => "1" | _ => String.concat "" (map eT_number_text num) end)
      ++ "}{" ++ (match den with [] => "1" | _ => String.concat "" (map eT_number_text den) end) ++ "}") = false).
  { rewrite !has_char_app, B1, M, B4, M, B3. reflexivity. }
  destruct num, den; try exact G; reflexivity.
Qed.
Lemma eT_quotient_tidy num den : tidy (eT_quotient_text num den) = true.
Proof. apply tidy_plain; apply eT_quotient_chars; reflexivity. Qed.

Lemma t_cleans s k i : cleans (eT_t_text false s k i) (eT_t_text true s k i).
Proof.
  apply operator_cleans; [now destruct s|now left|right]. split; [tidy_all|]. eexists _, _. split; [reflexivity|discriminate].
Qed.
Lemma cleans_concat rs ss : Forall2 cleans rs ss -> cleans (concat_str rs) (concat_str ss).
Proof. induction 1 as [|r s rs ss H _ IH]; [now apply cleans_tidy|]. now apply cleans_app. Qed.
Lemma ts_cleans s k : cleans (eT_ts_text false s k) (eT_ts_text true s k).
Proof.
  unfold eT_ts_text. destruct (k_t k) eqn:E; [now apply cleans_tidy|]. unfold each_t. rewrite !concat_empty_sep.
  apply cleans_concat. apply forall2_map2. intros i. apply t_cleans.
Qed.
Lemma each_first k f x r : (forall i, f i = String x (r i)) -> k_t k <> 0 -> exists q, each_t k f = String x q.
Proof.
  intros H Hq. unfold each_t. destruct (k_t k) as [|q]; [congruence|]. rewrite concat_empty_sep. cbn [seq map].
  change (concat_str (?a :: ?l)) with (a ++ concat_str l). rewrite H. cbn [append]. eauto.
Qed.
Lemma each_none k f : k_t k = 0 -> each_t k f = "".
Proof. intros H. unfold each_t. now rewrite H. Qed.

Lemma h_up_fine k : eT_h_up k = "" \/ (tidy (eT_h_up k) = true /\ exists x r, eT_h_up k = String x r /\ x <> "}"%char).
Proof.
  unfold eT_h_up. destruct (k_up k); [now left|right]. split.
  - apply tidy_app; [apply tidy_each; intros; tidy_all|tidy_all].
  - destruct (Nat.eq_dec (k_t k) 0) as [E|E].
    + rewrite each_none by exact E. eexists _, _. split; [reflexivity|discriminate].
    + destruct (each_first k (fun i => "\blue{" ++ in_h_text k i ++ "}") "\"%char _ (fun i => eq_refl) E) as [q ->].
      eexists _, _. split; [reflexivity|discriminate].
Qed.
Lemma h_down_fine k : eT_h_down k = "" \/ (tidy (eT_h_down k) = true /\ exists x r, eT_h_down k = String x r /\ x <> "}"%char).
Proof.
  unfold eT_h_down. destruct (k_down k); [now left|right]. split; [tidy_all|]. eexists _, _. split; [reflexivity|discriminate].
Qed.
Lemma z_up_fine k : eT_z_up k = "" \/ (tidy (eT_z_up k) = true /\ exists x r, eT_z_up k = String x r /\ x <> "}"%char).
Proof.
  unfold eT_z_up. destruct (k_z k); [now left|right]. split.
  - apply tidy_app; [apply tidy_each; intros; tidy_all|]. apply tidy_app; [destruct (k_zh k); tidy_all|tidy_all].
  - destruct (Nat.eq_dec (k_t k) 0) as [E|E].
    + rewrite each_none by exact E. destruct (k_zh k); (eexists _, _; split; [reflexivity|discriminate]).
    + destruct (each_first k (fun i => "\magenta{" ++ in_z_text k i ++ "}") "\"%char _ (fun i => eq_refl) E) as [q ->].
      eexists _, _. split; [reflexivity|discriminate].
Qed.
Lemma derivative_cleans r s : cleans r s -> cleans (eT_derivative r) (eT_derivative s).
Proof. intros H. unfold eT_derivative. apply cleans_app; [now apply cleans_tidy|]. apply cleans_app; [exact H|now apply cleans_tidy]. Qed.
Lemma h_cleans s k : cleans (eT_h_text false s k) (eT_h_text true s k).
Proof.
  unfold eT_h_text. destruct s.
  - destruct (k_up k + k_down k)%nat; [now apply cleans_tidy|]. apply derivative_cleans.
    apply operator_cleans; [reflexivity|apply h_up_fine|apply h_down_fine].
  - apply operator_cleans; [reflexivity|apply h_up_fine|apply h_down_fine].
Qed.
Lemma z_cleans s k : cleans (eT_z_text false s k) (eT_z_text true s k).
Proof.
  assert (C : cleans (operator_text false "\bz" (k_z k) 0 (eT_z_up k) "") (operator_text true "\bz" (k_z k) 0 (eT_z_up k) "")).
  { apply operator_cleans; [reflexivity|apply z_up_fine|now left]. }
  unfold eT_z_text. destruct s; [|exact C]. destruct (k_up k + k_down k)%nat; [now apply derivative_cleans|exact C].
Qed.

(** The tidied text of a term. *)
Definition tidied (s : side) (k : pairs) : string :=
  power_text "\bar{f}" (k_t k + k_zh k) ++ eT_quotient_text (map as_number (numerator k)) (map as_number (denominator k))
  ++ eT_ts_text true s k ++ eT_h_text true s k ++ eT_z_text true s k.

Lemma tidied_text s k : eT_term_text true s k (tidied s k).
Proof.
  exists (eT_quotient_text (map as_number (numerator k)) (map as_number (denominator k))). split; [|reflexivity].
  rewrite <- prefactor_text. apply eT_one_over_text.
Qed.
Lemma term_cleans s k : cleans (render_elterm s (elt true k)) (tidied s k).
Proof.
  rewrite raw_text, prefactor_text. unfold tidied.
  apply cleans_app; [apply cleans_tidy; now apply tidy_power|]. apply cleans_app; [apply cleans_tidy, eT_quotient_tidy|].
  apply cleans_app; [apply ts_cleans|]. apply cleans_app; [apply h_cleans|apply z_cleans].
Qed.

(** ** Reading a term *)
Lemma cut_brace a a' r r' : has_char "}" a = false -> has_char "}" a' = false ->
  a ++ String "}" r = a' ++ String "}" r' -> a = a' /\ r = r'.
Proof.
  revert a'. induction a as [|x a IH]; intros [|x' a'] H H' E; cbn [append has_char] in *.
  - split; [reflexivity|]. congruence.
  - exfalso. assert (x' = "}"%char) by congruence. subst. discriminate.
  - exfalso. assert (x = "}"%char) by congruence. subst. discriminate.
  - apply orb_false_iff in H as [H1 H2]. apply orb_false_iff in H' as [H3 H4].
    destruct (IH a' H2 H4) as [-> ->]; [congruence|]. split; [congruence|reflexivity].
Qed.
Lemma app_same a x y : a ++ x = a ++ y -> x = y.
Proof. induction a as [|c a IH]; [auto|]. cbn [append]. intros E. apply IH. congruence. Qed.
Lemma harmless_brace s : harmless s = true -> has_char "}" s = false.
Proof. apply harmless_no_char. reflexivity. Qed.

(** what may follow the power of fbar and the fraction *)
Definition starts (x : string) : Prop := exists r, x = "\m" ++ r \/ x = "\bt" ++ r \/ x = "\bs" ++ r.
Definition starts_f (x : string) : Prop := starts x \/ exists r, x = "\frac{" ++ r.

Lemma power_cut a b x y : starts_f x -> starts_f y ->
  power_text "\bar{f}" a ++ x = power_text "\bar{f}" b ++ y -> a = b /\ x = y.
Proof.
  intros Hx Hy E.
  assert (N : forall z, starts_f z -> forall r, z <> String "^" r /\ z <> "\bar" ++ r).
  { intros z [(r & [-> | [-> | ->]])|(r & ->)] r'; split; discriminate. }
  destruct a as [|[|a]]; destruct b as [|[|b]]; unfold power_text in E.
  - auto.
  - exfalso. cbn [append] in E. exact (proj2 (N _ Hx _) E).
  - exfalso. cbn [append] in E. exact (proj2 (N _ Hx _) E).
  - exfalso. cbn [append] in E. symmetry in E. exact (proj2 (N _ Hy _) E).
  - split; [reflexivity|]. now apply app_same in E.
  - exfalso. rewrite append_assoc in E. apply app_same in E. cbn [append] in E. exact (proj1 (N _ Hx _) E).
  - exfalso. cbn [append] in E. symmetry in E. exact (proj2 (N _ Hy _) E).
  - exfalso. rewrite append_assoc in E. apply app_same in E. cbn [append] in E. symmetry in E. exact (proj1 (N _ Hy _) E).
  - rewrite !append_assoc in E. apply app_same in E. rewrite ?append_assoc in E. apply app_same in E. rewrite ?append_assoc in E. cbn [append] in E.
    apply cut_brace in E; try (apply harmless_brace, digits_harmless). destruct E as [E ->]. apply str_nat_inj in E. auto.
Qed.

Lemma quotient_form num den : eT_quotient_text num den = "" \/ exists a b, eT_quotient_text num den = "\frac{" ++ a ++ String "}" (String "{" (b ++ "}")) /\
  has_char "}" a = false /\ has_char "}" b = false.
Proof.
  assert (N : forall x, has_char "}" (eT_number_text x) = false).
  { intros [n b]. unfold eT_number_text. cbn [fst snd]. destruct b; rewrite !has_char_app, str_nat_no_char by reflexivity; reflexivity. }
  assert (J : forall l, has_char "}" (match l with [] => "1" | _ => String.concat "" (map eT_number_text l) end) = false).
  { intros [|y l]; [reflexivity|]. rewrite concat_empty_sep. generalize (y :: l). clear l. intros l. induction l as [|x l IH]; [reflexivity|]. cbn [map].
    change (concat_str (?x :: ?l)) with (x ++ concat_str l). now rewrite has_char_app, N, IH. }
  destruct num as [|f num]; [destruct den as [|d den]; [now left|]|]; right; unfold eT_quotient_text.
  - exists "1", (String.concat "" (map eT_number_text (d :: den))). split; [reflexivity|]. split; [reflexivity|]. exact (J (d :: den)).
  - exists (String.concat "" (map eT_number_text (f :: num))), (match den with [] => "1" | _ => String.concat "" (map eT_number_text den) end).
    split; [reflexivity|]. split; [exact (J (f :: num))|apply J].
Qed.
Lemma quotient_starts num den x : starts x -> starts_f (eT_quotient_text num den ++ x).
Proof.
  intros H. destruct (quotient_form num den) as [-> |(a & b & -> & _)]; [now left|right]. rewrite append_assoc. eauto.
Qed.
Lemma quotient_cut num den num' den' x y : starts x -> starts y ->
  eT_quotient_text num den ++ x = eT_quotient_text num' den' ++ y ->
  eT_quotient_text num den = eT_quotient_text num' den' /\ x = y.
Proof.
  intros Hx Hy. assert (N : forall z, starts z -> forall r, z <> "\frac{" ++ r).
  { intros z (r & [-> | [-> | ->]]) r'; discriminate. }
  destruct (quotient_form num den) as [-> |(a & b & -> & A & B)]; destruct (quotient_form num' den') as [-> |(a' & b' & -> & A' & B')]; intros E.
  - auto.
  - exfalso. cbn [append] in E. exact (N _ Hx _ E).
  - exfalso. cbn [append] in E. symmetry in E. exact (N _ Hy _ E).
  - rewrite !append_assoc in E. apply app_same in E. rewrite ?append_assoc in E. cbn [append] in E.
    apply cut_brace in E; auto. destruct E as [-> E]. apply (app_same "{") in E. rewrite !append_assoc in E. cbn [append] in E.
    apply cut_brace in E; auto. destruct E as [-> ->]. auto.
Qed.

(** the amplitudes *)
Definition t_name (s : side) : string := match s with RHS => "\bt" | LHS => "\bs" end.
Definition amp (s : side) (xz : string * string) : string :=
  t_name s ++ "_{\magenta{}\blue{" ++ fst xz ++ String "}" ("\magenta{" ++ snd xz ++ String "}" "\red{}}").
Lemma t_amp s k i : eT_t_text true s k i = amp s (in_h_text k i, in_z_text k i).
Proof.
  unfold eT_t_text, operator_text, amp. cbn [Nat.add fst snd]. unfold braces_text. cbn [andb String.eqb append].
  replace (match s with RHS => "\bt" | LHS => "\bs" end) with (t_name s) by reflexivity.
  f_equal. repeat (rewrite append_assoc; cbn [append]). reflexivity.
Qed.
Definition clear_pair (xz : string * string) : Prop := has_char "}" (fst xz) = false /\ has_char "}" (snd xz) = false.
Lemma amps_cut s l : forall l' h h', Forall clear_pair l -> Forall clear_pair l' ->
  (forall r, h <> t_name s ++ r) -> (forall r, h' <> t_name s ++ r) ->
  concat_str (map (amp s) l) ++ h = concat_str (map (amp s) l') ++ h' -> l = l' /\ h = h'.
Proof.
  assert (C : forall xz l, concat_str (map (amp s) (xz :: l)) = amp s xz ++ concat_str (map (amp s) l)) by reflexivity.
  induction l as [|[x z] l IH]; intros [|[x' z'] l'] h h' F F' N N' E.
  - auto.
  - exfalso. rewrite C in E. unfold amp in E. rewrite ?append_assoc in E. exact (N _ E).
  - exfalso. rewrite C in E. unfold amp in E. rewrite ?append_assoc in E. symmetry in E. exact (N' _ E).
  - inversion F as [|? ? [H1 H2] F1]; subst. inversion F' as [|? ? [H3 H4] F2]; subst. cbn [fst snd] in *.
    rewrite !C in E. unfold amp in E. cbn [fst snd] in E. rewrite ?append_assoc in E. apply app_same in E.
    rewrite ?append_assoc in E. apply app_same in E. rewrite ?append_assoc in E. cbn [append] in E.
    apply cut_brace in E; auto. destruct E as [-> E].
    rewrite ?append_assoc in E. apply (app_same "\magenta{") in E. cbn [append] in E.
    apply cut_brace in E; auto. destruct E as [-> E]. apply (app_same "\red{}}") in E.
    apply IH in E; auto. destruct E as [-> ->]. auto.
Qed.

Definition amp_pairs (k : pairs) : list (string * string) := map (fun i => (in_h_text k i, in_z_text k i)) (seq 0 (k_t k)).
Lemma amp_clear k : Forall clear_pair (amp_pairs k).
Proof.
  apply Forall_forall. intros xz H. apply in_map_iff in H as (i & <- & _). split; apply harmless_brace; [apply in_h_harmless|apply in_z_harmless].
Qed.
Lemma ts_form s k : eT_ts_text true s k = match k_t k with 0 => "\mathds{1}" | _ => concat_str (map (amp s) (amp_pairs k)) end.
Proof.
  unfold eT_ts_text. destruct (k_t k) eqn:E; [reflexivity|]. unfold each_t, amp_pairs. rewrite concat_empty_sep, map_map. f_equal.
  apply map_ext. intros i. apply t_amp.
Qed.
Lemma ts_starts s k x : starts (eT_ts_text true s k ++ x).
Proof.
  rewrite ts_form. destruct (k_t k) eqn:E; [exists ("athds{1}" ++ x); now left|]. unfold amp_pairs. rewrite E. cbn [seq map].
  change (concat_str (?a :: ?l)) with (a ++ concat_str l). unfold amp. rewrite !append_assoc. eexists. right. destruct s; [right|left]; reflexivity.
Qed.

(** the Hamiltonian *)
Definition h_start (s : side) : string := match s with RHS => "\bh" | LHS => "\left(i\dv{\bt" end.
Lemma h_form s k : allowed_on s (k_down k) ->
  (k_up k = 0 /\ exists r c, c <> "^"%char /\ ((forall x, eT_h_text true s k ++ x = h_start s ++ String c (r ++ x)) \/ (s = LHS /\ eT_h_text true s k = "\mathds1"))) \/
  (k_up k <> 0 /\ exists r, forall x, eT_h_text true s k ++ x
     = h_start s ++ String "^" ("{" ++ each_t k (fun i => "\blue{" ++ in_h_text k i ++ "}") ++ "\blue{}\red{" ++ free 0 (k_hp k) ++ String "}" (r ++ x))).
Proof.
  intros A. unfold eT_h_text, eT_h_up, eT_h_down. destruct (k_up k) as [|m] eqn:Em; [left|right]; (split; [auto; discriminate|]).
  - cbn [Nat.add]. destruct s.
    + rewrite (A eq_refl). exists "", "a"%char. split; [discriminate|]. right. auto.
    + unfold operator_text. cbn [Nat.add]. destruct (k_down k) as [|n].
      * exists "0", "_"%char. split; [discriminate|]. left. intros x. reflexivity.
      * exists ("{\blue{" ++ summed (k_t k) (k_zh k) ++ "}\red{}}"), "_"%char. split; [discriminate|]. left. intros x.
        unfold braces_text. cbn [andb String.eqb append h_start]. rewrite !append_assoc. cbn [append]. reflexivity.
  - unfold operator_text, braces_text. cbn [Nat.add].
    assert (Ne : forall u v, (each_t k u ++ "\blue{}" ++ v =? "") = false).
    { intros u v. destruct (each_t k u); reflexivity. }
    cbn [andb]. change ("\blue{}\red{" ++ free 0 (k_hp k) ++ "}") with ("\blue{}" ++ "\red{" ++ free 0 (k_hp k) ++ "}"). rewrite Ne.
    destruct s.
    + rewrite (A eq_refl). cbn [String.eqb andb append]. unfold eT_derivative. exists ("}}{\tau}\right)"). intros x. cbn [h_start].
      repeat (rewrite append_assoc; cbn [append]). reflexivity.
    + set (d := match k_down k with 0 => "" | _ => _ end).
      exists ("}" ++ (if d =? "" then "" else "_" ++ "{" ++ d ++ "}")). intros x. cbn [h_start].
      repeat (rewrite append_assoc; cbn [append]). reflexivity.
Qed.
Lemma h_not_t s k x : allowed_on s (k_down k) -> forall r, eT_h_text true s k ++ x <> t_name s ++ r.
Proof.
  intros A r. destruct (h_form s k A) as [(_ & q & c & _ & [E|[-> E]])|(_ & q & E)]; rewrite E; [destruct s; discriminate|discriminate|destruct s; discriminate].
Qed.
Lemma free_inj a b : a <= 7 -> b <= 7 -> free 0 a = free 0 b -> a = b.
Proof.
  intros Ha Hb E. assert (L : forall n, n <= 7 -> String.length (free 0 n) = n).
  { intros n Hn. do 8 (destruct n as [|n]; [reflexivity|]). lia. }
  rewrite <- (L a Ha), <- (L b Hb). now rewrite E.
Qed.
Lemma h_cut s k k' x x' : allowed_on s (k_down k) -> allowed_on s (k_down k') -> k_hp k <= 7 -> k_hp k' <= 7 -> amp_pairs k = amp_pairs k' ->
  eT_h_text true s k ++ x = eT_h_text true s k' ++ x' ->
  (k_up k = 0 /\ k_up k' = 0) \/ (k_up k <> 0 /\ k_up k' <> 0 /\ k_hp k = k_hp k').
Proof.
  intros A A' B B' EA E.
  destruct (h_form s k A) as [(U & r & c & Hc & F)|(U & r & F)]; destruct (h_form s k' A') as [(U' & r' & c' & Hc' & F')|(U' & r' & F')]; auto.
  - exfalso. rewrite F' in E. destruct F as [F|[-> F]]; rewrite F in E; [apply app_same in E; congruence|discriminate].
  - exfalso. rewrite F in E. destruct F' as [F'|[-> F']]; rewrite F' in E; [apply app_same in E; congruence|discriminate].
  - right. split; [exact U|]. split; [exact U'|]. rewrite F, F' in E.
    assert (EE : each_t k (fun i => "\blue{" ++ in_h_text k i ++ "}") = each_t k' (fun i => "\blue{" ++ in_h_text k' i ++ "}")).
    { assert (G : forall y, each_t y (fun i => "\blue{" ++ in_h_text y i ++ "}") = String.concat "" (map (fun xz => "\blue{" ++ fst xz ++ "}") (amp_pairs y))).
      { intros y. unfold each_t, amp_pairs. now rewrite map_map. }
      now rewrite !G, EA. }
    rewrite EE in E. apply app_same in E. apply (app_same "^{") in E. apply app_same in E. apply app_same in E.
    apply cut_brace in E; try (apply harmless_brace, free_harmless). destruct E as [E _]. now apply free_inj in E.
Qed.

(** the number of "!" *)
Definition bangs (l : list factor) : nat := list_sum (map (fun f => match f with FFact _ => 1 | FNum _ => 0 end) l).
Lemma bangs_app a b : bangs (a ++ b)%list = (bangs a + bangs b)%nat.
Proof. unfold bangs. now rewrite map_app, list_sum_app. Qed.
Lemma no_occurrence c s : has_char c s = false -> occurrences c s = 0.
Proof.
  induction s as [|x s IH]; intros H; [reflexivity|]. cbn [has_char occurrences] in *. apply orb_false_iff in H as [H1 H2].
  rewrite Ascii.eqb_sym, H1, IH by exact H2. reflexivity.
Qed.
Lemma bangs_text l : occurrences "!" (String.concat "" (map eT_number_text (map as_number l))) = bangs l.
Proof.
  rewrite concat_empty_sep. induction l as [|f l IH]; [reflexivity|]. cbn [map]. change (concat_str (?x :: ?l)) with (x ++ concat_str l).
  rewrite occurrences_app, IH. unfold bangs. cbn [map list_sum fold_right]. f_equal.
  destruct f as [n|n]; unfold eT_number_text; cbn [as_number fst snd]; rewrite !occurrences_app, (no_occurrence _ (str_nat n)) by (apply str_nat_no_char; reflexivity); reflexivity.
Qed.
Lemma quotient_bangs num den : occurrences "!" (eT_quotient_text (map as_number num) (map as_number den)) = (bangs num + bangs den)%nat.
Proof.
  assert (M : forall l, occurrences "!" (match map as_number l with [] => "1" | _ => String.concat "" (map eT_number_text (map as_number l)) end) = bangs l).
  { intros l. rewrite <- bangs_text. now destruct l. }
  destruct num as [|f num]; [destruct den as [|d den]; [reflexivity|]|]; unfold eT_quotient_text; cbn [map]; rewrite !occurrences_app.
  - pose proof (M (d :: den)) as E. cbn [map] in E. rewrite E. cbn. lia.
  - pose proof (M (f :: num)) as E. cbn [map] in E. rewrite E, M. cbn. lia.
Qed.
Definition big (n : nat) : nat := if Nat.ltb 1 n then 1 else 0.
Lemma bangs_fact n : bangs (fact_if n) = big n.
Proof. unfold fact_if, big. now destruct (Nat.ltb 1 n). Qed.
Lemma bangs_num n : bangs (num_if n) = 0.
Proof. unfold num_if. now destruct (Nat.ltb 1 n). Qed.
Lemma term_bangs k : (bangs (numerator k) + bangs (denominator k)
  = big (k_up k) * (1 + big (k_ht k)) + big (k_zh k) + big (k_z k) * (1 + big (k_zh k) + big (k_zt k)) + big (k_t k))%nat.
Proof.
  unfold numerator, denominator, h_num, z_num. rewrite !bangs_app, !bangs_fact. unfold k_down.
  unfold big at 5 7. destruct (Nat.ltb 1 (k_up k)) eqn:E1; destruct (Nat.ltb 1 (k_z k)) eqn:E2; rewrite ?bangs_app, ?bangs_fact, ?bangs_num;
    unfold big at 1 2 3 4 5 6; rewrite ?E1, ?E2; unfold bangs; cbn [map list_sum fold_right]; unfold big; rewrite ?E1, ?E2; lia.
Qed.

Lemma letters_end i : 5 <= i -> summed i 1 = "".
Proof. intros H. unfold summed, letters_from. rewrite skipn_all2 by (cbn; lia). reflexivity. Qed.
Lemma letters_there i : i < 5 -> summed i 1 <> "".
Proof. intros H. do 5 (destruct i as [|i]; [discriminate|]). lia. Qed.

Lemma amp_pairs_nth k i : i < k_t k -> nth i (amp_pairs k) ("", "") = (in_h_text k i, in_z_text k i).
Proof.
  intros H. unfold amp_pairs. rewrite (nth_indep _ ("", "") (in_h_text k 0, in_z_text k 0)) by (now rewrite map_length, seq_length).
  rewrite (map_nth (fun i => (in_h_text k i, in_z_text k i))). now rewrite seq_nth by exact H.
Qed.

Lemma split_known k k' : k_up k <= 2 -> k_up k' <= 2 -> k_zh k = k_zh k' -> amp_pairs k = amp_pairs k' -> k_hp k = k_hp k' ->
  (k_up k = 0 <-> k_up k' = 0) -> (bangs (numerator k) + bangs (denominator k) = bangs (numerator k') + bangs (denominator k'))%nat ->
  ~ k_zt k < k_zt k'.
Proof.
  intros B B' En EA Eh Eu Eb L.
  assert (Eq : k_t k = k_t k').
  { apply (f_equal (@List.length _)) in EA. unfold amp_pairs in EA. now rewrite !map_length, !seq_length in EA. }
  assert (Z5 : 5 <= k_zt k).
  { destruct (Nat.le_gt_cases 5 (k_zt k)) as [H|H]; [exact H|]. exfalso. apply (letters_there (k_zt k) H).
    assert (I : k_zt k < k_t k) by (rewrite Eq; unfold k_t; lia).
    pose proof (f_equal (fun l => nth (k_zt k) l ("", "")) EA) as E. cbv beta in E. rewrite !amp_pairs_nth in E by lia.
    apply pair_equal_spec in E as [E _]. unfold in_h_text, with_z in E.
    rewrite Nat.ltb_irrefl in E. destruct (Nat.ltb_spec (k_zt k) (k_zt k')); [exact E|lia]. }
  rewrite !term_bangs in Eb. unfold k_t, k_up, k_z in *.
  assert (X : forall n, 2 <= n -> big n = 1) by (intros n Hn; unfold big; destruct (Nat.ltb_spec 1 n); [reflexivity|lia]).
  rewrite (X (k_zp k + k_zh k + k_zt k)%nat), (X (k_zp k' + k_zh k' + k_zt k')%nat), (X (k_zt k)), (X (k_zt k')),
    (X (k_zt k + k_ht k)%nat), (X (k_zt k' + k_ht k')%nat), En in Eb by lia.
  assert (U : (k_hp k + k_ht k = 2)%nat) by lia. assert (U' : (k_hp k' + k_ht k' = 1)%nat) by lia. rewrite U, U' in Eb.
  change (big 2) with 1 in Eb. change (big 1) with 0 in Eb. lia.
Qed.

(** Different contractions of the same projection have different texts. *)
Lemma tidied_inj s P k k' : k_zp k + k_hp k = P -> k_zp k' + k_hp k' = P -> k_up k <= 2 -> k_up k' <= 2 ->
  allowed_on s (k_down k) -> allowed_on s (k_down k') -> tidied s k = tidied s k' -> k = k'.
Proof.
  intros HP HP' B B' A A' E. unfold tidied in E.
  apply power_cut in E; try (apply quotient_starts, ts_starts). destruct E as [E1 E].
  apply quotient_cut in E; try apply ts_starts. destruct E as [E2 E].
  apply (f_equal (occurrences "!")) in E2. rewrite !quotient_bangs in E2.
  assert (EA : amp_pairs k = amp_pairs k' /\ eT_h_text true s k ++ eT_z_text true s k = eT_h_text true s k' ++ eT_z_text true s k').
  { rewrite !ts_form in E. destruct (k_t k) as [|q] eqn:Eq; destruct (k_t k') as [|q'] eqn:Eq'.
    - apply app_same in E. unfold amp_pairs. rewrite Eq, Eq'. auto.
    - exfalso. unfold amp_pairs in E. rewrite Eq' in E. cbn [seq map] in E.
      change (concat_str (?a :: ?l)) with (a ++ concat_str l) in E. unfold amp at 1 in E. destruct s; discriminate.
    - exfalso. unfold amp_pairs in E. rewrite Eq in E. cbn [seq map] in E.
      change (concat_str (?a :: ?l)) with (a ++ concat_str l) in E. unfold amp at 1 in E. destruct s; discriminate.
    - apply amps_cut in E; try apply amp_clear; try (now apply h_not_t). exact E. }
  destruct EA as [EA EH].
  assert (Eq : k_t k = k_t k').
  { apply (f_equal (@List.length _)) in EA. unfold amp_pairs in EA. now rewrite !map_length, !seq_length in EA. }
  assert (En : k_zh k = k_zh k') by lia.
  assert (Hh : k_hp k <= 2 /\ k_hp k' <= 2) by (unfold k_up in *; lia).
  destruct (h_cut s k k' _ _ A A' ltac:(lia) ltac:(lia) EA EH) as [[U U']|(U & U' & Eh)].
  - unfold k_up, k_t in *. destruct k as [x1 x2 x3 x4 x5], k' as [y1 y2 y3 y4 y5]; cbn [k_zp k_zh k_zt k_hp k_ht] in *. f_equal; lia.
  - assert (Z : k_zt k = k_zt k').
    { destruct (Nat.lt_trichotomy (k_zt k) (k_zt k')) as [L|[L|L]]; [|exact L|]; exfalso.
      - apply (split_known k k'); auto; tauto.
      - apply (split_known k' k); auto; try tauto. }
    unfold k_up, k_t in *. destruct k as [x1 x2 x3 x4 x5], k' as [y1 y2 y3 y4 y5]; cbn [k_zp k_zh k_zt k_hp k_ht] in *. f_equal; lia.
Qed.
