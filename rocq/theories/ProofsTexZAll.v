(** Every document of the z t ansatz is processed, also when the letters have
    run out, when a sum is broken into lines, and for negative truncations. *)
From Coq Require Import List Ascii String Bool Arith Lia ZArith.
From Verif Require Import PyBase PyStr PyBaseFacts ModelFullCC ModelFullCCLatex ModelZhz ProofsHelper ProofsStr ProofsFullCC ProofsFullCCLabels ProofsFullCCLatexText ProofsFullCCLatex
  SpecFullCC SpecFullCCLatex SpecZhz ProofsZhz ProofsZhzLatex ProofsZhzFile ProofsZhzEquation.
From Verif Require ProofsWFile ProofsRun.
From Verif Require Import ModelHeaders SpecTex SpecTexDoc ProofsTex ProofsTexDoc ProofsTexFullCC ProofsTexZ ModelTrunc ModelRun.
Import ListNotations.
Open Scope string_scope.

Local Notation J := (ProofsTexDoc.J z_env).
Local Notation JT := (ProofsTexDoc.JT z_env).

(** ** Labels *)
Lemma in_substring c s : forall a n, In c (list_ascii_of_string (String.substring a n s)) -> In c (list_ascii_of_string s).
Proof.
  induction s as [|x s IH]; intros a n H.
  - destruct a, n; cbn in H; destruct H.
  - destruct a as [|a].
    + destruct n as [|n]; cbn in H; [destruct H|]. destruct H as [<-|H]; [now left|right]. exact (IH 0 n H).
    + right. exact (IH a n H).
Qed.

Definition spelled_letters (s : string) : Prop := exists l, s = string_of_list_ascii l /\ Forall ProofsZhzEquation.letter l.
Lemma take_letters base o k : base = z_summation_indices \/ base = z_unlinked_indices -> spelled_letters (take_at base o k).
Proof.
  intros H. exists (list_ascii_of_string (take_at base o k)). split; [symmetry; apply string_of_list_ascii_of_string|].
  apply Forall_forall. intros c Hc. apply in_substring in Hc. unfold ProofsZhzEquation.letter.
  destruct H as [->| ->]; cbn in Hc |- *; tauto.
Qed.

Definition lab_ok (l : zlab) : Prop :=
  match l with None => True | Some (x, y, z) => spelled_letters x /\ spelled_letters y /\ spelled_letters z end.
Definition labs_ok (l : option (zlab * zlab)) : Prop := match l with None => True | Some (u, d) => lab_ok u /\ lab_ok d end.

Ltac labels := repeat match goal with |- context [if ?b then _ else _] => destruct b end; cbv beta iota zeta;
  repeat match goal with
  | |- labs_ok None => exact I
  | |- labs_ok (Some _) => split
  | |- lab_ok None => exact I
  | |- lab_ok (Some _) => split; [|split]
  | |- spelled_letters _ => apply take_letters; auto
  end.
Lemma hz_labels_ok h a s u : labs_ok (hz_labels h a s u).
Proof. unfold hz_labels. cbv zeta. labels. Qed.
Lemma right_labels_ok z o : labs_ok (right_z_labels z o).
Proof. unfold right_z_labels. cbv zeta. labels. Qed.

(** ** Operators *)
Lemma letters_all l : Forall ProofsZhzEquation.letter l -> incl l all_letters.
Proof. intros H c Hc. rewrite Forall_forall in H. apply H in Hc. unfold ProofsZhzEquation.letter in Hc. unfold all_letters. apply in_or_app. now right. Qed.

Lemma op_good name a l : In name ["\bz"; "\bh"] -> In a ["\blue"; "\magenta"] -> labs_ok l ->
  exists s, cleans (render_op name a "\blue" l) s /\ J anywhere s inline M M /\ first_letter s = false.
Proof.
  intros N A L.
  assert (P : forall x, lab_ok x -> exists n X Y Z, Forall ProofsZhzEquation.letter X /\ Forall ProofsZhzEquation.letter Y /\ Forall ProofsZhzEquation.letter Z /\ render_parts a "\blue" x = z_index_text n a "\blue" X Y Z).
  { intros [[[x y] z]|] H.
    - destruct H as ((X & -> & HX) & (Y & -> & HY) & (Z & -> & HZ)). exists 1, X, Y, Z. repeat split; auto.
      cbn [render_parts z_index_text]. destruct A as [<-|[<-|[]]]; cbn [mark_text String.eqb Ascii.eqb Bool.eqb append]; 
        repeat (rewrite append_assoc_s); reflexivity.
    - exists 0, [], [], []. repeat split; constructor. }
  assert (Co : colour a) by (unfold colour; destruct A as [<-|[<-|[]]]; auto).
  destruct l as [[u d]|].
  - destruct L as [Lu Ld]. destruct (P _ Lu) as (n1 & X1 & Y1 & Z1 & A1 & B1 & C1 & E1). destruct (P _ Ld) as (n2 & X2 & Y2 & Z2 & A2 & B2 & C2 & E2).
    exists (operator_text true name 1 0 (z_index_text n1 a "\blue" X1 Y1 Z1) (z_index_text n2 a "\blue" X2 Y2 Z2)). split; [|split].
    + replace (render_op name a "\blue" (Some (u, d))) with (operator_text false name 1 0 (z_index_text n1 a "\blue" X1 Y1 Z1) (z_index_text n2 a "\blue" X2 Y2 Z2)).
      * apply operator_cleans; [destruct N as [<-|[<-|[]]]; reflexivity| |]; apply index_fine; auto; try (unfold colour; auto; fail); discriminate.
      * cbn [render_op operator_text Nat.add]. rewrite E1, E2. unfold braces_text. cbn [andb]. repeat (rewrite append_assoc_s). reflexivity.
    + apply J_operator; [cbn in *; intuition| |]; apply J_z_index; try (cbn in *; intuition; fail); now apply letters_all.
    + apply operator_first. cbn in *; intuition.
  - exists (operator_text true name 0 0 "" ""). split; [|split].
    + change (render_op name a "\blue" None) with (operator_text false name 0 0 "" ""). apply operator_cleans; auto. destruct N as [<-|[<-|[]]]; reflexivity.
    + apply J_operator; [cbn in *; intuition| |]; apply J_nil.
    + apply operator_first. cbn in *; intuition.
Qed.

(** ** Prefactors *)
Definition number_of (f : factor) : nat * bool := match f with FNum n => (n, false) | FFact n => (n, true) end.
Lemma prefactor_good p : tidy (render_hz_prefactor p) = true /\ J anywhere (render_hz_prefactor p) anywhere M M /\ first_letter (render_hz_prefactor p) = false.
Proof.
  assert (Nf : forall l, Forall plain (map render_factor l)).
  { intros l. apply Forall_map, Forall_forall. intros [n|n] _; cbn [render_factor]; [apply plain_number|].
    apply plain_app; [apply plain_number|apply plain_literal; reflexivity]. }
  assert (Pn : plain (match fst p with [] => "1" | l => join "*" (map render_factor l) end)).
  { destruct (fst p) as [|x l]; [apply plain_literal; reflexivity|]. rewrite ProofsWFile.join_is. apply plain_concat; [apply plain_literal; reflexivity|apply Nf]. }
  assert (Pd : plain (match snd p with [] => "1" | l => concat_str (map render_factor l) end)).
  { destruct (snd p) as [|x l]; [apply plain_literal; reflexivity|]. rewrite ProofsWFile.concat_is. apply plain_concat; [apply plain_literal; reflexivity|apply Nf]. }
  unfold render_hz_prefactor. cbv zeta. revert Pn Pd.
  generalize (match fst p with [] => "1" | l => join "*" (map render_factor l) end) as num.
  generalize (match snd p with [] => "1" | l => concat_str (map render_factor l) end) as den. intros den num Pn Pd.
  assert (T : forall s, plain s -> tidy s = true).
  { assert (X : forall c s, (c = "^" \/ c = "_")%char -> plain s -> has_char c s = false).
    { intros c s Hc H. unfold plain in H. induction s as [|x s IH]; [reflexivity|]. cbn [list_ascii_of_string] in H. inversion H as [|? ? Hx Hs]; subst.
      cbn [has_char]. rewrite IH by exact Hs. destruct (Ascii.eqb_spec c x) as [<-|]; [|reflexivity]. destruct Hc as [->| ->]; discriminate Hx. }
    intros s H. apply tidy_plain; apply X; auto. }
  destruct ((num =? "1") && (den =? "1")); [split; [reflexivity|split; [apply J_nil|reflexivity]]|]. split; [|split; [now apply J_frac|reflexivity]].
  apply tidy_app; [reflexivity|]. apply tidy_app; [now apply T|]. apply tidy_app; [reflexivity|]. apply tidy_app; [now apply T|reflexivity].
Qed.

(** ** Terms *)
Lemma power_is s k : render_power s k = power_text s k.
Proof. destruct k as [|[|k]]; reflexivity. Qed.

Lemma third_good rf pp t r : third_z_term rf pp t = Ok (Some r) -> exists s, cleans (render_zlterm r) s /\ good s.
Proof.
  destruct t as [[x h] [zl [z|]]]; [|discriminate]. cbn [third_z_term].
  destruct (f_h_zR h z) as [f|]; [|discriminate]. cbn [bind]. destruct (rf && Nat.ltb 0 f); [discriminate|].
  destruct (fbar_h_zR h z) as [fb|]; [|discriminate]. cbn [bind]. intros [= <-].
  unfold render_zlterm. cbn [zl_f zl_fbar zl_prefactor zl_left zl_h zl_right zl_disconnected].
  rewrite !power_is. unfold render_hz, render_right_z.
  destruct (op_good "\bh" "\blue" _ ltac:(cbn; auto) ltac:(cbn; auto) (hz_labels_ok h 0 0 0)) as (sh & Ch & Jh & Fh).
  destruct (op_good "\bz" "\magenta" _ ltac:(cbn; auto) ltac:(cbn; auto) (right_labels_ok z (mkro 0 0 (hz_n_r h) 0 (hz_m_lhs h + hz_n_lhs h)))) as (sr & Cr & Jr & Fr).
  destruct (prefactor_good (if pp then hz_prefactor h z else no_prefactor)) as (Tp & Jp & Fp). revert Tp Jp Fp.
  generalize (render_hz_prefactor (if pp then hz_prefactor h z else no_prefactor)) as pre. intros pre Tp Jp Fp.
  exists (power_text "f" f ++ power_text "\bar{f}" fb ++ pre ++ "" ++ sh ++ sr). split.
  - apply cleans_app; [apply cleans_tidy; now apply tidy_power|]. apply cleans_app; [apply cleans_tidy; now apply tidy_power|].
    apply cleans_app; [now apply cleans_tidy|]. apply cleans_app; [now apply cleans_tidy|]. now apply cleans_app.
  - unfold good.
    assert (F0 : first_letter (pre ++ "" ++ sh ++ sr) = false)
      by (apply first_letter_app; [exact Fp|]; apply first_letter_app; [reflexivity|]; apply first_letter_app; assumption).
    eapply J_app; [apply J_power; auto| |].
    + eapply J_app; [apply J_power; auto| |intros _; exact F0].
      eapply J_app; [exact Jp| |].
      * eapply J_app; [apply J_nil| |joint]. eapply J_app; [exact Jh|apply J_any_inline, Jr|intros _; exact Fr].
      * intros _. apply first_letter_app; [reflexivity|]. apply first_letter_app; assumption.
    + intros _. apply first_letter_app; [destruct fb as [|[|k]]; reflexivity|exact F0].
Qed.

(** ** Sums *)
Lemma in_firstn {A} (x : A) n l : In x (firstn n l) -> In x l.
Proof. intros H. rewrite <- (firstn_skipn n l). apply in_or_app. now left. Qed.
Lemma in_skipn {A} (x : A) n l : In x (skipn n l) -> In x l.
Proof. intros H. rewrite <- (firstn_skipn n l). apply in_or_app. now right. Qed.
Lemma concatM_forall {A B} (f : A -> res (list B)) (Q : B -> Prop) l : (forall x r, f x = Ok r -> Forall Q r) ->
  forall r, concatM f l = Ok r -> Forall Q r.
Proof.
  intros H. unfold concatM. enough (X : forall ls, mapM f l = Ok ls -> Forall (Forall Q) ls).
  { intros r E. destruct (mapM f l) as [ls|]; [|discriminate]. cbn [bind] in E. injection E as <-. apply Forall_concat. now apply X. }
  induction l as [|x l IH]; intros r E; cbn [mapM] in E; [injection E as <-; constructor|].
  destruct (f x) as [a|] eqn:Ea; [|discriminate]. cbn [bind] in E. destruct (mapM f l) as [b|]; [|discriminate]. cbn [bind] in E.
  injection E as <-. constructor; [exact (H _ _ Ea)|now apply IH].
Qed.

Definition prints (r : zlterm) : Prop := exists s, cleans (render_zlterm r) s /\ good s.
Lemma prints_list rs : Forall prints rs -> exists ss, Forall2 (fun t s => cleans (render_zlterm t) s) rs ss /\ Forall good ss.
Proof.
  induction 1 as [|r rs (s & C & G) _ (ss & F2 & F)]; [exists []; split; constructor|]. exists (s :: ss). split; now constructor.
Qed.

Lemma line_good rs : Forall prints rs -> exists s, cleans (join " + " (map render_zlterm rs)) s /\ (rs <> [] -> J anywhere s inline M M) /\ (rs = [] -> s = "").
Proof.
  intros F. destruct (prints_list rs F) as (ss & F2 & G). exists (String.concat " + " ss). split; [|split].
  - apply cleans_join; [reflexivity|]. clear - F2. induction F2; cbn [map]; constructor; auto.
  - intros N. apply J_join; [exact G|]. intros ->. inversion F2; subst. congruence.
  - intros ->. inversion F2. reflexivity.
Qed.

Lemma z_lines_good w (l : list zlterm) : 2 <= w -> w * 2 <= List.length l -> Forall prints l ->
  z_lines w l <> [] /\ Forall (fun x => x <> [] /\ Forall prints x) (z_lines w l).
Proof.
  intros W L F. unfold z_lines. split; [intros X; apply app_eq_nil in X; destruct X; discriminate|]. apply Forall_app. split.
  - apply Forall_map, Forall_forall. intros i Hi.
    assert (B : i < List.length l / w) by (unfold range in Hi; apply in_seq in Hi; lia).
    assert (B2 : i * w + w <= List.length l).
    { pose proof (Nat.mul_div_le (List.length l) w ltac:(lia)). nia. }
    split.
    + intros X. apply (f_equal (@List.length _)) in X. unfold PyBase.slice in X. rewrite firstn_length, skipn_length in X. cbn [List.length] in X. nia.
    + apply Forall_forall. intros x Hx. unfold PyBase.slice in Hx. apply in_firstn, in_skipn in Hx. rewrite Forall_forall in F. now apply F.
  - constructor; [|constructor]. cbv zeta. destruct (Nat.eqb_spec (w - 1 - List.length l mod w) 0) as [E|E].
    + split; [|exact F]. intros ->. cbn in L. lia.
    + split.
      * intros X. apply (f_equal (@List.length _)) in X. rewrite skipn_length in X. cbn in X. lia.
      * apply Forall_forall. intros x Hx. rewrite Forall_forall in F. apply F. rewrite <- (firstn_skipn (List.length l - (w - 1 - List.length l mod w)) l). apply in_or_app. now right.
Qed.

Lemma zsum_good rs : Forall prints rs -> exists s, cleans (render_zsum "" (glue_z rs)) s /\ J anywhere s anywhere Sp Sp /\ first_letter s = false.
Proof.
  intros F. unfold glue_z. destruct (Nat.ltb_spec (List.length rs) (7 * 2)) as [L|L]; cbn [render_zsum].
  - destruct (line_good rs F) as (s & C & G1 & G2). exists ("(" ++ s ++ ")"). split; [|split; [|reflexivity]].
    + apply cleans_app; [now apply cleans_tidy|]. apply cleans_app; [exact C|now apply cleans_tidy].
    + eapply J_app with (E := inline) (c2 := Sp); [lit_to| |joint]. destruct rs as [|r rs].
      * rewrite (G2 eq_refl). apply J_inline_any. lit_to.
      * eapply J_app with (E := inline) (c2 := Sp); [apply J_any_inline, J_lift, G1; discriminate|apply J_inline_any; lit_to|intros _; reflexivity].
  - destruct (z_lines_good 7 rs ltac:(lia) ltac:(lia) F) as [N Fl]. revert N Fl. generalize (z_lines 7 rs) as ls. intros ls N Fl.
    assert (X : exists ss, Forall2 (fun x s => cleans (join " + " (map render_zlterm x)) s) ls ss /\ Forall (fun s => J anywhere s inline Sp Sp) ss).
    { clear - Fl. induction Fl as [|x ls [Nx Fx] _ (ss & A & B)]; [exists []; split; constructor|].
      destruct (line_good x Fx) as (s & C & G & _). exists (s :: ss). split; constructor; auto. apply J_lift. auto. }
    destruct X as (ss & A & B). exists ("(" ++ nl ++ String.concat splitting ss ++ nl ++ ""). split; [|split; [|reflexivity]].
    + apply cleans_app; [now apply cleans_tidy|]. apply cleans_app; [now apply cleans_tidy|].
      apply cleans_app; [|now apply cleans_tidy]. apply cleans_join; [reflexivity|]. clear - A. induction A; cbn [map]; constructor; auto.
    + change ("(" ++ nl ++ ?x) with (("(" ++ nl) ++ x).
      eapply J_app with (E := line_start) (c2 := Sp); [lit_to| |joint].
      eapply J_app with (E := inline) (c2 := Sp); [|assert (K : J inline (nl ++ "") line_start Sp Sp) by lit_to; eapply J_sub; [exact K|apply incl_refl|exact incl_start]|joint].
      eapply J_sub; [|exact incl_start|apply incl_refl].
      eapply J_concat with (S1 := line_start) (S0 := anywhere); [lit_to|reflexivity|reflexivity|discriminate|exact incl_start|exact B|].
      intros ->. inversion A; subst. congruence.
Qed.

(** ** Equations *)
Lemma equation_good o Hs Z rf e : spells (g_name o) (g_m o) (g_n o) -> g_rank o = (g_m o + g_n o)%nat -> g_rank o <= 8 ->
  generate_z_symmetric_latex_equations o Hs Z true rf = Ok e -> J anywhere e inline Sp Sp.
Proof.
  intros Sp0 R R8. unfold generate_z_symmetric_latex_equations.
  destruct (build_third_z_term o Hs Z rf) as [third|] eqn:E3; [|discriminate]. cbn [bind].
  intros X. apply (f_equal (fun r => match r with Ok x => x | Err _ => "" end)) in X. cbv beta iota in X. rewrite <- X. clear X.
  assert (T : exists s, cleans (render_z_term "" third) s /\ J anywhere s anywhere Sp Sp /\ first_letter s = false).
  { unfold build_third_z_term, build_z_term in E3. destruct (filter_out_valid_z_terms o Hs (HZ Z)) as [l|]; [|discriminate]. cbn [bind] in E3.
    destruct l as [|t l]; [injection E3 as <-; exists ""; split; [now apply cleans_tidy|split; [apply J_nil|reflexivity]]|].
    unfold prepare_third_z_latex, keep_terms in E3. destruct (concatM _ (t :: l)) as [rs|] eqn:Ec; [|discriminate]. cbn [bind] in E3. injection E3 as <-.
    apply zsum_good. revert Ec. apply concatM_forall. intros x r Hx. destruct (third_z_term rf true x) as [[q|]|] eqn:Ex; [| |discriminate]; cbn [bind option_list] in Hx; injection Hx as <-; [|constructor].
    constructor; [exact (third_good _ _ _ _ Ex)|constructor]. }
  destruct T as (s3 & C3 & J3 & F3).
  assert (C1 : cleans (build_first_z_term o) (h_alone_text (g_m o) (g_n o))).
  { rewrite (op_of_projection o Sp0 R) at 1. apply cleans_b_ok. 
    pose proof first_check as FC. rewrite forallb_forall in FC. apply (FC (g_m o, g_n o)). apply in_small. lia. }
  assert (C5 : cleans (render_fifth_term o) (String.concat " + " (map (dt_z_text (g_m o) (g_n o)) (seq 0 (g_n o + 1))))).
  { rewrite (op_of_projection o Sp0 R) at 1. apply cleans_b_ok. 
    pose proof fifth_check as FC. rewrite forallb_forall in FC. apply (FC (g_m o, g_n o)). apply in_small. lia. }
  replace (replace_empty "_{}" (replace_empty "^{}"
          (build_first_z_term o
           ++ "\\&+\sum\Big(" ++ render_z_term "" third ++ "\Big)(1-\delta_{cb})"
           ++ "\\&-i\sum\Big(" ++ render_fifth_term o ++ "\Big)")))
    with (h_alone_text (g_m o) (g_n o) ++ "\\&+\sum\Big(" ++ s3 ++ "\Big)(1-\delta_{cb})"
           ++ "\\&-i\sum\Big(" ++ String.concat " + " (map (dt_z_text (g_m o) (g_n o)) (seq 0 (g_n o + 1))) ++ "\Big)").
  - eapply J_app; [apply J_lift, J_h_alone| |intros _; reflexivity].
    eapply J_app with (E := inline) (c2 := Sp); [lit_to| |joint].
    eapply J_app with (E := anywhere) (c2 := Sp); [eapply J_sub; [exact J3|intros x [<-|[<-|[]]]; cbn; auto|apply incl_refl]|eapply J_app with (E := inline) (c2 := Sp); [lit_to|apply J_dts|joint]|intros _; reflexivity].
  - symmetry. apply cleans_clean. apply cleans_app; [exact C1|].
    apply cleans_app; [now apply cleans_tidy|]. apply cleans_app; [exact C3|]. apply cleans_app; [now apply cleans_tidy|].
    apply cleans_app; [now apply cleans_tidy|]. apply cleans_app; [exact C5|now apply cleans_tidy].
Qed.

(** ** The file *)
Lemma t_text o : spells (g_name o) (g_m o) (g_n o) -> g_rank o = (g_m o + g_n o)%nat -> g_rank o <= 8 ->
  wrap_t_latex o (generate_t_lhs o) = t_equation_text (g_m o) (g_n o).
Proof.
  intros Sp0 R R8. rewrite (op_of_projection o Sp0 R) at 1 2. pose proof t_check as FC. rewrite forallb_forall in FC.
  apply String.eqb_eq. apply (FC (g_m o, g_n o)). apply in_small. lia.
Qed.
Lemma align_text o e : g_rank o = (g_m o + g_n o)%nat -> wrap_z_align_environment (generate_z_lhs o) e = z_align_text (g_m o) (g_n o) e.
Proof.
  intros R. unfold generate_z_lhs. rewrite R, sslice_0_of_chars. unfold wrap_z_align_environment, z_align_text. rewrite !append_assoc. reflexivity.
Qed.

Lemma sections_good rs : Forall (fun r => spells (g_name (fst r)) (g_m (fst r)) (g_n (fst r)) /\ g_rank (fst r) = (g_m (fst r) + g_n (fst r))%nat /\
    g_rank (fst r) <= 8 /\ J anywhere (snd r) inline Sp Sp) rs ->
  forall q, JT line_start (render_z_equations q rs) line_start D D /\ first_letter (render_z_equations q rs) = false.
Proof.
  induction 1 as [|[o e] rs (Sp0 & R & R8 & Je) _ IH]; intros q; [split; [apply JT_nil|reflexivity]|]. cbn [fst snd] in *. cbn [render_z_equations].
  rewrite (t_text o Sp0 R R8), (align_text o e R). destruct (IH (g_rank o)) as [X F]. revert X F. generalize (render_z_equations (g_rank o) rs) as text. intros text X F.
  change percents with comment_lines. split.
  - assert (Y : JT line_start (comment_lines ++ t_equation_text (g_m o) (g_n o) ++ comment_lines ++ z_align_text (g_m o) (g_n o) e ++ text) line_start D D).
    { eapply JT_app with (E := line_start) (c2 := D); [whole| |joint]. eapply JT_app; [apply JT_t_equation| |intros _; reflexivity].
      eapply JT_app with (E := line_start) (c2 := D); [whole| |joint]. eapply JT_app; [apply JT_z_align, Je|exact X|intros _; exact F]. }
    assert (Z : JT inline (comment_lines ++ t_equation_text (g_m o) (g_n o) ++ comment_lines ++ z_align_text (g_m o) (g_n o) e ++ text) line_start D D).
    { eapply JT_app with (E := line_start) (c2 := D); [whole| |joint]. eapply JT_app; [apply JT_t_equation| |intros _; reflexivity].
      eapply JT_app with (E := line_start) (c2 := D); [whole| |joint]. eapply JT_app; [apply JT_z_align, Je|exact X|intros _; exact F]. }
    destruct (Nat.ltb q (g_rank o)).
    + eapply JT_app; [apply (JT_paragraph (g_rank o))|exact Y|intros _; reflexivity].
    + eapply JT_app with (E := inline) (c2 := D); [whole|exact Z|joint].
  - destruct (Nat.ltb q (g_rank o)); reflexivity.
Qed.

Lemma mapM_forall {A B} (f : A -> res B) (Q : B -> Prop) l : (forall x r, In x l -> f x = Ok r -> Q r) -> forall r, mapM f l = Ok r -> Forall Q r.
Proof.
  induction l as [|x l IH]; intros H r E; cbn [mapM] in E; [injection E as <-; constructor|].
  destruct (f x) as [a|] eqn:Ea; [|discriminate]. cbn [bind] in E. destruct (mapM f l) as [b|]; [|discriminate]. cbn [bind] in E.
  injection E as <-. constructor; [exact (H x a (or_introl eq_refl) Ea)|]. apply IH; [intros; eapply H; eauto; now right|reflexivity].
Qed.

Theorem z_t_all H cc P rf text : z_t_latex H cc P true rf = Ok text -> processed (ground_state_z_t_symmetric_latex_header ++ text).
Proof.
  unfold z_t_latex. destruct (mapM _ (z_projections cc P)) as [rs|] eqn:E; [|discriminate]. cbn [bind].
  intros X. apply (f_equal (fun r => match r with Ok x => x | Err _ => "" end)) in X. cbv beta iota in X. rewrite <- X. clear X.
  assert (F : Forall (fun r => spells (g_name (fst r)) (g_m (fst r)) (g_n (fst r)) /\ g_rank (fst r) = (g_m (fst r) + g_n (fst r))%nat /\
    g_rank (fst r) <= 8 /\ J anywhere (snd r) inline Sp Sp) rs).
  { revert rs E. apply mapM_forall. intros o r Ho Er.
    assert (Po : spells (g_name o) (g_m o) (g_n o) /\ g_rank o = (g_m o + g_n o)%nat).
    { unfold z_projections in Ho. destruct ((cc <? 0)%Z || (P <? 0)%Z); [destruct Ho|].
      destruct (projections_exact (Z.to_nat cc) (Z.to_nat P)) as (_ & I & _). apply I in Ho as (Sp0 & R & _). auto. }
    destruct Po as [Sp0 R]. destruct (py_nth rank_names (g_rank o)) as [nm|] eqn:En; [|discriminate]. cbn [bind] in Er.
    assert (R8 : g_rank o <= 8). { destruct (Nat.le_gt_cases (g_rank o) 8) as [|G]; [assumption|]. rewrite no_rank_name in En by lia. discriminate. }
    destruct (generate_z_symmetric_latex_equations o _ _ true rf) as [e|] eqn:Ee; [|discriminate]. cbn [bind] in Er. injection Er as <-.
    cbn [fst snd]. split; [exact Sp0|]. split; [exact R|]. split; [exact R8|]. exact (equation_good _ _ _ _ _ Sp0 R R8 Ee). }
  destruct (sections_good rs F (match rev rs with [] => 0 | (omega, _) :: _ => g_rank omega end)) as [X Fl]. now apply z_document.
Qed.

Theorem z_t_excited_all H cc P rf text : z_t_latex H cc P false rf = Ok text -> processed (full_z_t_symmetric_latex_header ++ text).
Proof.
  intros E. destruct (Z.lt_ge_cases cc 0) as [L|L]; [|destruct (Z.lt_ge_cases P 0) as [L'|L']].
  - unfold z_t_latex, z_projections in E. rewrite (proj2 (Z.ltb_lt cc 0) L) in E. cbn [orb mapM bind rev] in E. injection E as <-.
    destruct rf; (eexists _, _; split; vm_compute; reflexivity).
  - unfold z_t_latex, z_projections in E. rewrite (proj2 (Z.ltb_lt P 0) L'), orb_true_r in E. cbn [mapM bind rev] in E. injection E as <-.
    destruct rf; (eexists _, _; split; vm_compute; reflexivity).
  - rewrite ProofsRun.z_t_excited in E by assumption. discriminate.
Qed.
