(** Proofs about the LaTeX text of the full coupled cluster equations: removing
    substrings, and the texts of labels and terms. *)
From Verif Require Import PyBase PyBaseFacts PyStr ModelHelper ModelW ModelFullCC ModelPrefactor ModelFullCCPy ModelFullCCLatex
  SpecFullCC SpecFullCCPy SpecFullCCLatex ProofsHelper ProofsW ProofsStr ProofsFullCC ProofsFullCCLabels.
Open Scope string_scope.

(** ** Removing c{} *)
Definition closing (r : string) : bool := (r =? "") || (r =? "{").
Fixpoint closedb (c : ascii) (s : string) : bool :=
  match s with
  | EmptyString => true
  | String x r => negb (Ascii.eqb x c && closing r) && closedb c r
  end.

Lemma closing_app a b : closing (a ++ b) = true -> closing a = true.
Proof.
  destruct a as [|x [|y a]]; [reflexivity| |].
  - unfold closing; cbn. destruct b as [|z b]; [auto|]. cbn. destruct (Ascii.eqb x "{"); discriminate.
  - unfold closing; cbn. destruct (Ascii.eqb x "{"); discriminate.
Qed.

Lemma closed_app c a b : closedb c a = true -> closedb c b = true -> closedb c (a ++ b) = true.
Proof.
  induction a as [|x a IH]; intros Ha Hb; [exact Hb|].
  cbn [closedb append] in *. apply andb_true_iff in Ha as [H1 H2]. apply andb_true_iff. split; [|auto].
  destruct (Ascii.eqb x c); [|reflexivity]. cbn [andb] in *.
  destruct (closing (a ++ b)) eqn:E; [|reflexivity]. apply closing_app in E. rewrite E in H1. discriminate.
Qed.

Section Remove.
  Variable c : ascii.
  Let P : string := String c "{}".

  Lemma prefix_closed a b : a <> "" -> closedb c a = true -> String.prefix P (a ++ b) = String.prefix P a.
  Proof.
    intros Hne H. destruct a as [|x a]; [congruence|]. unfold P. cbn [closedb append String.prefix] in *.
    apply andb_true_iff in H as [H _]. destruct (ascii_dec c x) as [<-|N]; [|reflexivity].
    rewrite Ascii.eqb_refl in H. cbn [andb] in H. unfold closing in H.
    destruct a as [|y a]; [discriminate|]. cbn [append String.prefix].
    destruct (ascii_dec "{" y) as [<-|N]; [|reflexivity].
    destruct a as [|z a]; [discriminate|]. cbn [append String.prefix]. destruct (ascii_dec "}" z); [|reflexivity].
    destruct a, b; reflexivity.
  Qed.

  Lemma contains_closed a b : closedb c a = true -> contains P (a ++ b) = contains P a || contains P b.
  Proof.
    induction a as [|x a IH]; intros H.
    - cbn [append]. replace (contains P "") with false by reflexivity. reflexivity.
    - pose proof (prefix_closed (String x a) b ltac:(discriminate) H) as E.
      cbn [closedb] in H. apply andb_true_iff in H as [_ H].
      cbn [contains append] in *. rewrite E, (IH H). now rewrite orb_assoc.
  Qed.

  Lemma prefix_length p s : String.prefix p s = true -> String.length p <= String.length s.
  Proof.
    revert s; induction p as [|x p IH]; intros [|y s] H; cbn in *; try discriminate; try lia.
    destruct (ascii_dec x y); [|discriminate]. specialize (IH _ H). lia.
  Qed.

  Lemma remove_app a b k : closedb c a = true -> k <= String.length a ->
    remove_sub P k (a ++ b) = remove_sub P k a ++ remove_sub P 0 b.
  Proof.
    revert k; induction a as [|x a IH]; intros k H Hk.
    - cbn in Hk. replace k with 0 by lia. reflexivity.
    - pose proof (prefix_closed (String x a) b ltac:(discriminate) H) as E.
      cbn [closedb] in H. apply andb_true_iff in H as [_ H]. cbn [String.length] in Hk.
      destruct k as [|k].
      + cbn [remove_sub append] in *. rewrite E. destruct (String.prefix P (String x a)) eqn:Ep.
        * change (String.length P - 1) with 2. apply IH; [exact H|].
          apply prefix_length in Ep. unfold P in Ep. cbn [String.length] in Ep. lia.
        * rewrite IH by (auto; lia). reflexivity.
      + cbn [remove_sub append]. apply IH; [exact H|lia].
  Qed.

  Lemma remove_none s : contains P s = false -> remove_sub P 0 s = s.
  Proof.
    induction s as [|x s IH]; intros H; [reflexivity|].
    cbn [contains remove_sub] in *. apply orb_false_iff in H as [H1 H2]. rewrite H1, (IH H2). reflexivity.
  Qed.
End Remove.

Definition tidy (s : string) : bool :=
  closedb "^" s && negb (contains "^{}" s) && (closedb "_" s && negb (contains "_{}" s)).

Lemma tidy_app a b : tidy a = true -> tidy b = true -> tidy (a ++ b) = true.
Proof.
  unfold tidy. rewrite !andb_true_iff, !negb_true_iff. intros [[A1 A2] [A3 A4]] [[B1 B2] [B3 B4]].
  rewrite !contains_closed by assumption. rewrite A2, B2, A4, B4, !closed_app by assumption. auto.
Qed.

Definition clean (s : string) : string := replace_empty "_{}" (replace_empty "^{}" s).

Lemma clean_step a m a' b :
  closedb "^" a = true -> replace_empty "^{}" a = m -> closedb "_" m = true -> replace_empty "_{}" m = a' ->
  clean (a ++ b) = a' ++ clean b.
Proof.
  intros H1 H2 H3 H4. unfold clean, replace_empty in *.
  rewrite remove_app by (auto; lia). rewrite H2. rewrite remove_app by (auto; lia). now rewrite H4.
Qed.

Lemma clean_app a b : tidy a = true -> clean (a ++ b) = a ++ clean b.
Proof.
  unfold tidy. rewrite !andb_true_iff, !negb_true_iff. intros [[A1 A2] [A3 A4]].
  apply clean_step with a; auto; unfold replace_empty; apply remove_none; assumption.
Qed.
Lemma clean_id a : tidy a = true -> clean a = a.
Proof. intros H. rewrite <- (append_nil_r a) at 1. rewrite clean_app by exact H. now rewrite append_nil_r. Qed.

(** ** Harmless strings: without the five special characters *)
Definition special (c : ascii) : bool := existsb (Ascii.eqb c) ["\"; "^"; "_"; "{"; "}"]%char.
Fixpoint harmless (s : string) : bool :=
  match s with EmptyString => true | String c r => negb (special c) && harmless r end.

Lemma special_neq c d : special c = false -> special d = true -> Ascii.eqb c d = false.
Proof. intros H1 H2. destruct (Ascii.eqb_spec c d) as [->|]; congruence. Qed.

Lemma harmless_no_char c s : special c = true -> harmless s = true -> has_char c s = false.
Proof.
  intros Hc. induction s as [|x s IH]; intros H; [reflexivity|].
  cbn [harmless has_char] in *. apply andb_true_iff in H as [H1 H2]. apply negb_true_iff in H1.
  rewrite (IH H2), orb_false_r. rewrite Ascii.eqb_sym. now apply special_neq.
Qed.
Lemma closed_no_char c s : has_char c s = false -> closedb c s = true.
Proof.
  induction s as [|x s IH]; intros H; [reflexivity|].
  cbn [has_char closedb] in *. apply orb_false_iff in H as [H1 H2]. rewrite Ascii.eqb_sym, H1, (IH H2). reflexivity.
Qed.
Lemma tidy_harmless s : harmless s = true -> tidy s = true.
Proof.
  intros H. unfold tidy.
  rewrite !closed_no_char by (apply harmless_no_char; auto).
  rewrite (contains_no_first "^" "{}") by (apply harmless_no_char; auto).
  rewrite (contains_no_first "_" "{}") by (apply harmless_no_char; auto). reflexivity.
Qed.
Lemma harmless_app a b : harmless (a ++ b) = harmless a && harmless b.
Proof. induction a as [|x a IH]; [reflexivity|]. cbn [append harmless]. now rewrite IH, andb_assoc. Qed.

Lemma harmless_chars l : Forall (fun c => special c = false) l -> harmless (of_chars l) = true.
Proof. induction 1 as [|c l H _ IH]; [reflexivity|]. cbn [of_chars harmless]. now rewrite H, IH. Qed.

Lemma letters_plain l : (forall c, In c l -> In c SL \/ In c XL) -> Forall (fun c => special c = false) l.
Proof.
  intros H. rewrite Forall_forall. intros c Hc. destruct (H c Hc) as [K|K]; cbn in K;
    repeat (destruct K as [<-|K]; [reflexivity|]); contradiction.
Qed.
Lemma in_slice {A} (l : list A) a n x : In x (slice l a n) -> In x l.
Proof.
  unfold slice. intros H. rewrite <- (firstn_skipn a l). apply in_or_app. right.
  rewrite <- (firstn_skipn n (skipn a l)). apply in_or_app. now left.
Qed.

Lemma digits_harmless n : harmless (str_nat n) = true.
Proof.
  assert (G : forall s, has_char "\" s = false -> has_char "^" s = false -> has_char "_" s = false ->
     has_char "{" s = false -> has_char "}" s = false -> harmless s = true).
  { induction s as [|c s IH]; intros A B C D E; [reflexivity|]. cbn [has_char harmless] in *.
    apply orb_false_iff in A as [A1 A2], B as [B1 B2], C as [C1 C2], D as [D1 D2], E as [E1 E2].
    rewrite IH by assumption. rewrite andb_true_r. unfold special. cbn [existsb].
    rewrite !(Ascii.eqb_sym c). now rewrite A1, B1, C1, D1, E1. }
  apply G; apply str_nat_no_char; reflexivity.
Qed.

Lemma str_nat_nonempty n : str_nat n <> "".
Proof.
  intros H. pose proof (py_int_str_nat n) as P. rewrite H in P. cbn in P. discriminate.
Qed.

(** ** Amplitudes *)
Definition raw_index (s f : list ascii) : string :=
  match (s ++ f)%list with [] => "" | _ => "\blue{" ++ of_chars s ++ "}\red{" ++ of_chars f ++ "}" end.
Definition raw_amp (p : tlabel) : string :=
  "\bt^{" ++ raw_index (l_mh p) (l_mo p) ++ "}_{" ++ raw_index (l_nh p) (l_no p) ++ "}".

Definition plain_label (p : tlabel) : Prop :=
  Forall (fun c => special c = false) (l_mh p) /\ Forall (fun c => special c = false) (l_mo p) /\
  Forall (fun c => special c = false) (l_nh p) /\ Forall (fun c => special c = false) (l_no p).
Definition nonempty_label (p : tlabel) : Prop := (l_mh p ++ l_mo p ++ l_nh p ++ l_no p)%list <> [].

Lemma string_of_chars l : string_of_list_ascii l = of_chars l.
Proof. induction l as [|c l IH]; [reflexivity|]. cbn. now rewrite IH. Qed.

Lemma sslice_of_chars a n s : sslice a (a + n) s = of_chars (slice (chars s) a n).
Proof. rewrite <- (of_chars_chars (sslice a (a + n) s)). now rewrite chars_sslice. Qed.
Lemma sslice_0_of_chars n s : sslice 0 n s = of_chars (slice (chars s) 0 n).
Proof. apply (sslice_of_chars 0). Qed.

Lemma sslice_same a s : sslice a a s = "".
Proof. rewrite <- (Nat.add_0_r a) at 2. rewrite sslice_of_chars. reflexivity. Qed.

Lemma lower_form t u l x : t_lower_labels t (mkoff u l x) =
  (sslice l (l + n_h t) summation_indices, sslice x (x + n_o t) unlinked_indices, mkoff u (l + n_h t) (x + n_o t)).
Proof.
  unfold t_lower_labels. cbn [o_lower o_upper o_unlinked].
  destruct (Nat.ltb_spec 0 (n_h t)); [reflexivity|]. destruct (Nat.ltb_spec 0 (n_o t)); [reflexivity|]. cbn [orb].
  replace (n_h t) with 0 by lia. replace (n_o t) with 0 by lia. now rewrite !Nat.add_0_r, !sslice_same.
Qed.
Lemma upper_form t u l x : t_upper_labels t (mkoff u l x) =
  (sslice u (u + m_h t) summation_indices, sslice x (x + m_o t) unlinked_indices, mkoff (u + m_h t) l (x + m_o t)).
Proof.
  unfold t_upper_labels. cbn [o_lower o_upper o_unlinked].
  destruct (Nat.ltb_spec 0 (m_h t)); [reflexivity|]. destruct (Nat.ltb_spec 0 (m_o t)); [reflexivity|]. cbn [orb].
  replace (m_h t) with 0 by lia. replace (m_o t) with 0 by lia. now rewrite !Nat.add_0_r, !sslice_same.
Qed.

Lemma render_part_raw s f a b : List.length s = a -> List.length f = b ->
  render_part (if Nat.ltb 0 a || Nat.ltb 0 b then Some (of_chars s, of_chars f) else None) = raw_index s f.
Proof. intros <- <-. unfold raw_index. destruct s, f; reflexivity. Qed.

(** The labels of the loop are the parts. *)
Lemma latex_loop_parts ts u l x :
  Forall (fun t => 1 <= up t + down t) ts ->
  l + total n_h ts <= 10 -> u + total m_h ts <= 10 -> x + total n_o ts + total m_o ts <= 8 ->
  map render_t_latex (t_latex_loop ts (mkoff u l x)) = map raw_amp (parts ts l u x).
Proof.
  revert u l x; induction ts as [|t ts IH]; intros u l x Hnz H1 H2 H3; [reflexivity|].
  inversion Hnz as [|? ? Ht Hts]; subst. unfold total in *; cbn [fold_right] in *.
  fold (total n_h ts) in *. fold (total m_h ts) in *. fold (total n_o ts) in *. fold (total m_o ts) in *.
  cbn [t_latex_loop parts]. unfold t_latex_labels. rewrite lower_form, upper_form.
  assert (Len : forall a n, a + n <= 10 -> List.length (slice SL a n) = n) by (intros; now apply slice_length).
  assert (LenX : forall a n, a + n <= 8 -> List.length (slice XL a n) = n) by (intros; now apply slice_length).
  rewrite !sslice_of_chars. cbn [map].
  assert (E : render_t_latex (mklab
      (if Nat.ltb 0 (m_h t) || Nat.ltb 0 (m_o t) then Some (of_chars (slice SL u (m_h t)), of_chars (slice XL (x + n_o t) (m_o t))) else None)
      (if Nat.ltb 0 (n_h t) || Nat.ltb 0 (n_o t) then Some (of_chars (slice SL l (n_h t)), of_chars (slice XL x (n_o t))) else None))
    = raw_amp (mktl (slice SL l (n_h t)) (slice SL u (m_h t)) (slice XL x (n_o t)) (slice XL (x + n_o t) (m_o t)))).
  { unfold render_t_latex, raw_amp. cbn [tl_up tl_down l_nh l_mh l_no l_mo].
    rewrite !render_part_raw by (first [apply Len|apply LenX]; lia). reflexivity. }
  rewrite <- E. unfold up, down in Ht. cbn [tl_up tl_down]. clear E.
  assert (R : map render_t_latex (t_latex_loop ts (mkoff (u + m_h t) (l + n_h t) (x + n_o t + m_o t)))
     = map raw_amp (parts ts (l + n_h t) (u + m_h t) (x + n_o t + m_o t))) by (apply IH; auto; lia).
  rewrite <- R.
  destruct (Nat.ltb_spec 0 (n_h t)); destruct (Nat.ltb_spec 0 (n_o t));
  destruct (Nat.ltb_spec 0 (m_h t)); destruct (Nat.ltb_spec 0 (m_o t)); cbn [orb];
  try reflexivity; exfalso; lia.
Qed.

(** ** Cleaning an amplitude *)
Lemma clean_lit_up b : clean ("\bt^{}" ++ b) = "\bt" ++ clean b.
Proof. apply clean_step with "\bt"; reflexivity. Qed.
Lemma clean_lit_down b : clean ("}}_{}" ++ b) = "}}" ++ clean b.
Proof. apply clean_step with "}}_{}"; reflexivity. Qed.

Ltac lhs x := match goal with |- _ = ?r => change (x = r) end.
Ltac assoc := repeat (rewrite append_assoc; cbn [append]).

Lemma clean_raw_amp p b : plain_label p -> nonempty_label p -> clean (raw_amp p ++ b) = amplitude_text p ++ clean b.
Proof.
  intros (P1 & P2 & P3 & P4) N. unfold nonempty_label in N. unfold raw_amp, amplitude_text, index_text, raw_index.
  pose proof (tidy_harmless _ (harmless_chars _ P1)) as T1. pose proof (tidy_harmless _ (harmless_chars _ P2)) as T2.
  pose proof (tidy_harmless _ (harmless_chars _ P3)) as T3. pose proof (tidy_harmless _ (harmless_chars _ P4)) as T4.
  change string_of_list_ascii with of_chars. rewrite app_assoc in N.
  destruct (l_mh p ++ l_mo p)%list as [|c1 r1]; destruct (l_nh p ++ l_no p)%list as [|c2 r2].
  - cbn in N. congruence.
  - cbn [append]. assoc.
    lhs (clean ("\bt^{}" ++ "_{\blue{" ++ of_chars (l_nh p) ++ "}\red{" ++ of_chars (l_no p) ++ "}}" ++ b)).
    rewrite clean_lit_up.
    rewrite (clean_app "_{\blue{") by reflexivity. rewrite (clean_app (of_chars (l_nh p))) by assumption.
    rewrite (clean_app "}\red{") by reflexivity. rewrite (clean_app (of_chars (l_no p))) by assumption.
    rewrite (clean_app "}}") by reflexivity. reflexivity.
  - cbn [append]. assoc.
    lhs (clean ("\bt^{\blue{" ++ of_chars (l_mh p) ++ "}\red{" ++ of_chars (l_mo p) ++ "}}_{}" ++ b)).
    rewrite (clean_app "\bt^{\blue{") by reflexivity.
    rewrite (clean_app (of_chars (l_mh p))) by assumption.
    rewrite (clean_app "}\red{") by reflexivity. rewrite (clean_app (of_chars (l_mo p))) by assumption.
    rewrite clean_lit_down. reflexivity.
  - cbn [append]. assoc.
    lhs (clean ("\bt^{\blue{" ++ of_chars (l_mh p) ++ "}\red{" ++ of_chars (l_mo p) ++ "}}_{\blue{" ++ of_chars (l_nh p) ++ "}\red{" ++ of_chars (l_no p) ++ "}}" ++ b)).
    rewrite (clean_app "\bt^{\blue{") by reflexivity.
    rewrite (clean_app (of_chars (l_mh p))) by assumption.
    rewrite (clean_app "}\red{") by reflexivity. rewrite (clean_app (of_chars (l_mo p))) by assumption.
    rewrite (clean_app "}}_{\blue{") by reflexivity. rewrite (clean_app (of_chars (l_nh p))) by assumption.
    rewrite (clean_app "}\red{") by reflexivity. rewrite (clean_app (of_chars (l_no p))) by assumption.
    rewrite (clean_app "}}") by reflexivity. reflexivity.
Qed.

Lemma clean_raw_amps xs b : Forall (fun p => plain_label p /\ nonempty_label p) xs ->
  clean (concat_str (map raw_amp xs) ++ b) = String.concat "" (map amplitude_text xs) ++ clean b.
Proof.
  assert (C : forall l, String.concat "" l = concat_str l).
  { induction l as [|x [|y l] IH]; [reflexivity|cbn; now rewrite append_nil_r|].
    change (String.concat "" (x :: y :: l)) with (x ++ "" ++ String.concat "" (y :: l)). rewrite IH. reflexivity. }
  intros H. rewrite C. induction H as [|p xs [H1 H2] _ IH]; [reflexivity|].
  change (concat_str (map raw_amp (p :: xs))) with (raw_amp p ++ concat_str (map raw_amp xs)).
  change (concat_str (map amplitude_text (p :: xs))) with (amplitude_text p ++ concat_str (map amplitude_text xs)).
  rewrite !append_assoc, clean_raw_amp by assumption. now rewrite IH.
Qed.

(** ** Powers, fractions and the Hamiltonian *)
Lemma render_power_text x k : render_power x k = power_text x k.
Proof. destruct k as [|[|k]]; reflexivity. Qed.

Lemma concat_empty_sep l : String.concat "" l = concat_str l.
Proof.
  induction l as [|x [|y l] IH]; [reflexivity|cbn; now rewrite append_nil_r|].
  change (String.concat "" (x :: y :: l)) with (x ++ "" ++ String.concat "" (y :: l)). rewrite IH. reflexivity.
Qed.

Lemma one_line_fact n l : concat_str (map (fun n => str_nat n ++ "!") (n :: l)) =? "1" = false.
Proof.
  apply String.eqb_neq. intros H.
  assert (K : has_char "!" (concat_str (map (fun n => str_nat n ++ "!") (n :: l))) = true).
  { change (concat_str (map (fun n => str_nat n ++ "!") (n :: l))) with ((str_nat n ++ "!") ++ concat_str (map (fun n => str_nat n ++ "!") l)).
    rewrite !has_char_app. cbn. now rewrite orb_true_r. }
  rewrite H in K. discriminate.
Qed.

Lemma render_fraction_text p : render_latex_prefactor p = fraction_text (fst p) (snd p).
Proof.
  destruct p as [num den]. unfold render_latex_prefactor, fraction_text. cbn [fst snd].
  destruct num as [|n num], den as [|d den].
  - reflexivity.
  - rewrite one_line_fact, andb_false_r, concat_empty_sep. reflexivity.
  - rewrite one_line_fact, concat_empty_sep. reflexivity.
  - rewrite one_line_fact, !concat_empty_sep. reflexivity.
Qed.

Lemma tidy_power x k : tidy x = true -> tidy (power_text x k) = true.
Proof.
  intros H. destruct k as [|[|k]]; [reflexivity|exact H|]. unfold power_text.
  apply tidy_app; [exact H|].
  pose proof (digits_harmless (S (S k))) as D. pose proof (str_nat_nonempty (S (S k))) as N.
  destruct (str_nat (S (S k))) as [|c r]; [congruence|].
  change (tidy (("^{" ++ String c "") ++ r ++ "}") = true) || change ("^{" ++ String c r ++ "}") with (("^{" ++ String c "") ++ r ++ "}").
  cbn [harmless] in D. apply andb_true_iff in D as [D1 D2]. apply negb_true_iff in D1.
  apply tidy_app; [|apply tidy_app; [now apply tidy_harmless|reflexivity]].
  unfold tidy, closedb, closing, contains, String.prefix. cbn [append].
  rewrite !(special_neq c) by (auto; reflexivity).
  destruct (ascii_dec "}" c) as [<-|]; [discriminate|].
  destruct (ascii_dec "^" c) as [<-|]; [discriminate|].
  destruct (ascii_dec "_" c) as [<-|]; [discriminate|]. reflexivity.
Qed.

Lemma tidy_factorials l : tidy (concat_str (map (fun n => str_nat n ++ "!") l)) = true.
Proof.
  induction l as [|n l IH]; [reflexivity|].
  change (concat_str (map (fun n => str_nat n ++ "!") (n :: l))) with ((str_nat n ++ "!") ++ concat_str (map (fun n => str_nat n ++ "!") l)).
  apply tidy_app; [|exact IH]. apply tidy_app; [apply tidy_harmless, digits_harmless|reflexivity].
Qed.
Lemma tidy_fraction num den : tidy (fraction_text num den) = true.
Proof.
  unfold fraction_text. rewrite !concat_empty_sep.
  assert (S : forall l, tidy (match l with [] => "1" | _ => concat_str (map (fun n => str_nat n ++ "!") l) end) = true).
  { intros [|n l]; [reflexivity|apply tidy_factorials]. }
  destruct num as [|n num]; destruct den as [|d den]; [reflexivity| | |];
  (apply tidy_app; [reflexivity|]; apply tidy_app; [first [reflexivity|apply tidy_factorials]|];
   apply tidy_app; [reflexivity|]; apply tidy_app; [first [reflexivity|apply tidy_factorials]|reflexivity]).
Qed.

Lemma tidy_hamiltonian r su eu sl el :
  Forall (fun c => special c = false) su -> Forall (fun c => special c = false) eu ->
  Forall (fun c => special c = false) sl -> Forall (fun c => special c = false) el ->
  tidy (hamiltonian_text r su eu sl el) = true.
Proof.
  intros H1 H2 H3 H4. unfold hamiltonian_text. destruct r; [reflexivity|]. change string_of_list_ascii with of_chars.
  repeat (apply tidy_app; [first [reflexivity|now apply tidy_harmless, harmless_chars]|]). reflexivity.
Qed.

(** ** A term *)
Definition raw_term (f fbar : nat) (num den : list nat) (rank : nat) (su eu sl el : list ascii) (xs : list tlabel) : string :=
  power_text "f" f ++ power_text "\bar{f}" fbar ++ fraction_text num den
  ++ hamiltonian_text rank su eu sl el ++ concat_str (map raw_amp xs).
Definition spec_term (f fbar : nat) (num den : list nat) (rank : nat) (su eu sl el : list ascii) (xs : list tlabel) : string :=
  power_text "f" f ++ power_text "\bar{f}" fbar ++ fraction_text num den
  ++ hamiltonian_text rank su eu sl el ++ String.concat "" (map amplitude_text xs).

Definition plain_letters (l : list ascii) : Prop := Forall (fun c => special c = false) l.
Lemma clean_raw_term f fbar num den rank su eu sl el xs b :
  plain_letters su -> plain_letters eu -> plain_letters sl -> plain_letters el ->
  Forall (fun p => plain_label p /\ nonempty_label p) xs ->
  clean (raw_term f fbar num den rank su eu sl el xs ++ b) = spec_term f fbar num den rank su eu sl el xs ++ clean b.
Proof.
  intros H1 H2 H3 H4 H5. unfold raw_term, spec_term. rewrite !append_assoc.
  rewrite (clean_app (power_text "f" f)) by now apply tidy_power.
  rewrite (clean_app (power_text "\bar{f}" fbar)) by now apply tidy_power.
  rewrite (clean_app (fraction_text num den)) by apply tidy_fraction.
  rewrite (clean_app (hamiltonian_text _ _ _ _ _)) by now apply tidy_hamiltonian.
  now rewrite clean_raw_amps.
Qed.

(** ** Removing the common factor *)
Fixpoint inertb (s : string) : bool :=
  match s with
  | EmptyString => true
  | String x r =>
      (if Ascii.eqb x "\" then
         match r with
         | EmptyString => false
         | String y r' =>
             if Ascii.eqb y "b" then
               match r' with EmptyString => false | String z _ => negb (Ascii.eqb z "t") end
             else true
         end
       else true) && inertb r
  end.

Lemma inert_app a b : inertb a = true -> inertb b = true -> inertb (a ++ b) = true.
Proof.
  induction a as [|x a IH]; intros Ha Hb; [exact Hb|].
  cbn [inertb append] in *. apply andb_true_iff in Ha as [H1 H2]. rewrite (IH H2 Hb), andb_true_r.
  destruct (Ascii.eqb x "\"); [|reflexivity]. destruct a as [|y a]; [discriminate|]. cbn [append].
  destruct (Ascii.eqb y "b"); [|reflexivity]. destruct a as [|z a]; [discriminate|]. exact H1.
Qed.
Lemma inert_no_backslash s : has_char "\" s = false -> inertb s = true.
Proof.
  induction s as [|x s IH]; intros H; [reflexivity|]. cbn [has_char inertb] in *.
  apply orb_false_iff in H as [H1 H2]. rewrite Ascii.eqb_sym, H1, (IH H2). reflexivity.
Qed.
Lemma inert_harmless s : harmless s = true -> inertb s = true.
Proof. intros H. now apply inert_no_backslash, harmless_no_char. Qed.

Section Common.
  Variable C' : string.
  Let C := "\bt" ++ C'.

  Lemma remove_inert a b : inertb a = true -> remove_sub C 0 (a ++ b) = a ++ remove_sub C 0 b.
  Proof.
    induction a as [|x a IH]; intros H; [reflexivity|].
    cbn [inertb] in H. apply andb_true_iff in H as [H1 H2].
    cbn [append remove_sub]. rewrite (IH H2).
    assert (P : String.prefix C (String x (a ++ b)) = false).
    { unfold C. cbn [append String.prefix]. destruct (ascii_dec "\" x) as [<-|]; [|reflexivity].
      rewrite Ascii.eqb_refl in H1. destruct a as [|y a]; [discriminate|]. cbn [append String.prefix].
      destruct (ascii_dec "b" y) as [<-|]; [|reflexivity]. rewrite Ascii.eqb_refl in H1.
      destruct a as [|z a]; [discriminate|]. cbn [append String.prefix].
      destruct (ascii_dec "t" z) as [<-|]; [|reflexivity]. discriminate. }
    now rewrite P.
  Qed.

  Lemma remove_skip s b k : k = String.length s -> remove_sub C k (s ++ b) = remove_sub C 0 b.
  Proof. revert k; induction s as [|x s IH]; intros k ->; [reflexivity|]. cbn. now apply IH. Qed.

  Lemma prefix_refl_app s b : String.prefix s (s ++ b) = true.
  Proof.
    induction s as [|x s IH]; [destruct b; reflexivity|]. cbn. destruct (ascii_dec x x); [exact IH|congruence].
  Qed.

  Lemma remove_self b : remove_sub C 0 (C ++ b) = remove_sub C 0 b.
  Proof.
    pose proof (prefix_refl_app C b) as P. unfold C in *. cbn [append remove_sub] in *. rewrite P.
    apply (remove_skip ("bt" ++ C') b). cbn. lia.
  Qed.
End Common.

(** An amplitude without free letters does not begin with the factor. *)
Lemma raw_amp_bt p : exists r, raw_amp p = "\bt" ++ r.
Proof. eexists. unfold raw_amp. change ("\bt^{" ++ ?x) with ("\bt" ++ "^{" ++ x). reflexivity. Qed.

Lemma raw_amp_inert p : plain_label p -> exists r, raw_amp p = String "\" r /\ inertb r = true.
Proof.
  intros (P1 & P2 & P3 & P4).
  exists ("bt^{" ++ raw_index (l_mh p) (l_mo p) ++ "}_{" ++ raw_index (l_nh p) (l_no p) ++ "}"). split; [reflexivity|].
  assert (R : forall s f, plain_letters s -> plain_letters f -> inertb (raw_index s f) = true).
  { intros s f H1 H2. unfold raw_index. destruct (s ++ f)%list; [reflexivity|].
    repeat (apply inert_app; [first [reflexivity|now apply inert_harmless, harmless_chars]|]). reflexivity. }
  apply inert_app; [reflexivity|]. apply inert_app; [now apply R|].
  apply inert_app; [reflexivity|]. apply inert_app; [now apply R|reflexivity].
Qed.

Lemma prefix_app_same a x y : String.prefix (a ++ x) (a ++ y) = String.prefix x y.
Proof.
  induction a as [|c a IH]; [reflexivity|]. cbn [append String.prefix]. destruct (ascii_dec c c); [exact IH|congruence].
Qed.
Lemma prefix_char_differs c d x y : c <> d -> String.prefix (String c x) (String d y) = false.
Proof. intros H. cbn [String.prefix]. destruct (ascii_dec c d); [contradiction|reflexivity]. Qed.

Fixpoint tail (n : nat) (s : string) : string :=
  match n, s with S k, String _ r => tail k r | _, _ => s end.
Lemma raw_amp_differs p q b : plain_label p ->
  l_mo p = [] -> l_no p = [] -> (l_mh p ++ l_nh p)%list <> [] ->
  l_mh q = [] -> l_nh q = [] -> (l_mo q ++ l_no q)%list <> [] ->
  String.prefix (raw_amp q) (raw_amp p ++ b) = false.
Proof.
  intros (P1 & _ & P3 & _) E1 E2 N E3 E4 M. unfold raw_amp, raw_index. rewrite E1, E2, E3, E4. cbn [app of_chars].
  rewrite !app_nil_r. unfold append at 1 4; fold append. repeat rewrite append_assoc.
  assert (K : forall c l, Forall (fun c => special c = false) (c :: l) -> "}"%char <> c).
  { intros c l F. inversion F; subst. intros <-. discriminate. }
  destruct (l_mo q) as [|a qa]; destruct (l_mh p) as [|c pc].
  - destruct (l_no q) as [|d qd]; [cbn in M; congruence|]. destruct (l_nh p) as [|e pe]; [cbn in N; congruence|].
    match goal with |- String.prefix ?x ?y = _ =>
      change x with ("\bt^{}_{\blue{" ++ String "}" (tail 15 x)); change y with ("\bt^{}_{\blue{" ++ String e (tail 15 y)) end.
    rewrite prefix_app_same. apply prefix_char_differs. now apply (K e pe).
  - match goal with |- String.prefix ?x ?y = _ =>
      change x with ("\bt^{" ++ String "}" (tail 6 x)); change y with ("\bt^{" ++ String "\" (tail 6 y)) end.
    rewrite prefix_app_same. apply prefix_char_differs. discriminate.
  - match goal with |- String.prefix ?x ?y = _ =>
      change x with ("\bt^{" ++ String "\" (tail 6 x)); change y with ("\bt^{" ++ String "}" (tail 6 y)) end.
    rewrite prefix_app_same. apply prefix_char_differs. discriminate.
  - match goal with |- String.prefix ?x ?y = _ =>
      change x with ("\bt^{\blue{" ++ String "}" (tail 12 x)); change y with ("\bt^{\blue{" ++ String c (tail 12 y)) end.
    rewrite prefix_app_same. apply prefix_char_differs. now apply (K c pc).
Qed.

Lemma inert_power x k : inertb x = true -> inertb (power_text x k) = true.
Proof.
  intros H. destruct k as [|[|k]]; [reflexivity|exact H|]. unfold power_text.
  apply inert_app; [exact H|]. apply inert_app; [reflexivity|]. apply inert_app; [apply inert_harmless, digits_harmless|reflexivity].
Qed.
Lemma inert_factorials l : inertb (concat_str (map (fun n => str_nat n ++ "!") l)) = true.
Proof.
  induction l as [|n l IH]; [reflexivity|].
  change (concat_str (map (fun n => str_nat n ++ "!") (n :: l))) with ((str_nat n ++ "!") ++ concat_str (map (fun n => str_nat n ++ "!") l)).
  apply inert_app; [|exact IH]. apply inert_app; [apply inert_harmless, digits_harmless|reflexivity].
Qed.
Lemma inert_fraction num den : inertb (fraction_text num den) = true.
Proof.
  unfold fraction_text. rewrite !concat_empty_sep.
  destruct num as [|n num]; destruct den as [|d den]; [reflexivity| | |];
  (apply inert_app; [reflexivity|]; apply inert_app; [first [reflexivity|apply inert_factorials]|];
   apply inert_app; [reflexivity|]; apply inert_app; [first [reflexivity|apply inert_factorials]|reflexivity]).
Qed.
Lemma inert_hamiltonian r su eu sl el :
  plain_letters su -> plain_letters eu -> plain_letters sl -> plain_letters el ->
  inertb (hamiltonian_text r su eu sl el) = true.
Proof.
  intros H1 H2 H3 H4. unfold hamiltonian_text. destruct r; [reflexivity|]. change string_of_list_ascii with of_chars.
  repeat (apply inert_app; [first [reflexivity|now apply inert_harmless, harmless_chars]|]). reflexivity.
Qed.

Definition only_summed (p : tlabel) : Prop := l_mo p = [] /\ l_no p = [] /\ (l_mh p ++ l_nh p)%list <> [].
Definition only_free (q : tlabel) : Prop := l_mh q = [] /\ l_nh q = [] /\ (l_mo q ++ l_no q)%list <> [].

Lemma remove_amps q xs b : only_free q -> Forall (fun p => plain_label p /\ only_summed p) xs ->
  remove_sub (raw_amp q) 0 (concat_str (map raw_amp xs) ++ b) = concat_str (map raw_amp xs) ++ remove_sub (raw_amp q) 0 b.
Proof.
  intros (Q1 & Q2 & Q3) H. induction H as [|p xs [H1 (S1 & S2 & S3)] _ IH]; [reflexivity|].
  change (concat_str (map raw_amp (p :: xs))) with (raw_amp p ++ concat_str (map raw_amp xs)).
  rewrite !append_assoc. rewrite <- IH. set (b' := concat_str (map raw_amp xs) ++ b).
  pose proof (raw_amp_differs p q b' H1 S1 S2 S3 Q1 Q2 Q3) as D.
  destruct (raw_amp_inert p H1) as (r & E & I). destruct (raw_amp_bt q) as (rq & Eq).
  rewrite E in *. cbn [append remove_sub] in *. rewrite D. f_equal. rewrite Eq. now apply remove_inert.
Qed.

Lemma remove_common q f fbar num den rank su eu sl el xs1 xs2 :
  plain_letters su -> plain_letters eu -> plain_letters sl -> plain_letters el ->
  only_free q ->
  Forall (fun p => plain_label p /\ only_summed p) xs1 -> Forall (fun p => plain_label p /\ only_summed p) xs2 ->
  replace_empty (raw_amp q) (raw_term f fbar num den rank su eu sl el (xs1 ++ q :: xs2))
  = raw_term f fbar num den rank su eu sl el (xs1 ++ xs2).
Proof.
  intros H1 H2 H3 H4 Q X1 X2. unfold replace_empty, raw_term. destruct (raw_amp_bt q) as (rq & Eq).
  rewrite !map_app, !concat_str_app. cbn [map].
  change (concat_str (raw_amp q :: map raw_amp xs2)) with (raw_amp q ++ concat_str (map raw_amp xs2)).
  assert (G : remove_sub (raw_amp q) 0 (concat_str (map raw_amp xs1) ++ raw_amp q ++ concat_str (map raw_amp xs2))
            = concat_str (map raw_amp xs1) ++ concat_str (map raw_amp xs2)).
  { rewrite remove_amps by assumption. f_equal.
    replace (remove_sub (raw_amp q) 0 (raw_amp q ++ concat_str (map raw_amp xs2)))
      with (remove_sub (raw_amp q) 0 (concat_str (map raw_amp xs2) ++ "")).
    - rewrite remove_amps by assumption. cbn [remove_sub]. now rewrite append_nil_r.
    - rewrite append_nil_r, Eq. symmetry. apply remove_self. }
  rewrite <- G, Eq.
  rewrite remove_inert by now apply inert_power. f_equal.
  rewrite remove_inert by now apply inert_power. f_equal.
  rewrite remove_inert by apply inert_fraction. f_equal.
  now rewrite remove_inert by now apply inert_hamiltonian.
Qed.
