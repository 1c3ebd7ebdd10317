(** Proofs about the LaTeX of the z t symmetrised equations: whole equations
    and the file. *)
From Coq Require Import Lia Permutation Factorial Sorted.
From Verif Require Import PyBase PyStr PyBaseFacts ModelHelper ModelW ModelLatexW ModelFullCC ModelFullCCPy ModelFullCCLatex ModelZhz
  ProofsHelper ProofsW ProofsStr ProofsFullCC ProofsFullCCLabels ProofsFullCCBuckets ProofsFullCCLatexText ProofsFullCCLatex ProofsFullCCLatexFile
  SpecFullCC SpecFullCCPy SpecLatexW SpecFullCCLatex SpecZhz ProofsZhz ProofsZhzLatex ProofsZhzFile.
Open Scope string_scope.

(** ** Cleaning *)
Lemma tidy_plain s : has_char "^" s = false -> has_char "_" s = false -> tidy s = true.
Proof.
  intros H1 H2. unfold tidy. rewrite !closed_no_char by assumption.
  rewrite (contains_no_first "^" "{}"), (contains_no_first "_" "{}") by assumption. reflexivity.
Qed.

Lemma braces_cleans mark s : mark = "^" \/ mark = "_" ->
  s = "" \/ (tidy s = true /\ exists x r, s = String x r /\ x <> "}"%char) ->
  cleans (braces_text false mark s) (braces_text true mark s).
Proof.
  intros Hm [->|(T & x & r & -> & Hx)]; unfold braces_text.
  - cbn [andb String.eqb]. intros b. destruct Hm as [-> | ->].
    + exact (clean_step "^{}" "" "" b eq_refl eq_refl eq_refl eq_refl).
    + exact (clean_step "_{}" "_{}" "" b eq_refl eq_refl eq_refl eq_refl).
  - cbn [andb String.eqb]. apply cleans_tidy.
    assert (T' : tidy (String x r ++ "}") = true) by (apply tidy_app; [exact T|reflexivity]).
    cbn [append] in T'. unfold tidy in *.
    assert (B : forall c d, Ascii.eqb d c = true \/ (d = "^"%char \/ d = "_"%char) -> (c = "^" \/ c = "_")%char ->
      closedb c (String x (r ++ "}")) = true -> contains (String c "{}") (String x (r ++ "}")) = false ->
      closedb c (String d (String "{" (String x (r ++ "}")))) = true /\
      contains (String c "{}") (String d (String "{" (String x (r ++ "}")))) = false).
    { intros c d _ Hc C1 C2. split.
      - cbn [closedb] in *. rewrite C1. replace (closing (String "{" (String x (r ++ "}")))) with false by (unfold closing; reflexivity).
        rewrite andb_false_r. destruct Hc as [-> | ->]; reflexivity.
      - cbn [contains] in *. rewrite C2. rewrite orb_false_r.
        assert (P1 : String.prefix (String c "{}") (String "{" (String x (r ++ "}"))) = false).
        { destruct Hc as [-> | ->]; reflexivity. }
        rewrite P1, orb_false_r. cbn [String.prefix]. destruct (ascii_dec c d); [|reflexivity].
        destruct (ascii_dec "{" "{"); [|congruence]. destruct (ascii_dec "}" x); [congruence|reflexivity]. }
    rewrite !andb_true_iff, !negb_true_iff in T'. destruct T' as [[T1 T2] [T3 T4]].
    assert (R : forall d, d = "^"%char \/ d = "_"%char -> 
       closedb "^" (String d (String "{" (String x (r ++ "}")))) && negb (contains "^{}" (String d (String "{" (String x (r ++ "}"))))) &&
       (closedb "_" (String d (String "{" (String x (r ++ "}")))) && negb (contains "_{}" (String d (String "{" (String x (r ++ "}")))))) = true).
    { intros d Hd. destruct (B "^"%char d (or_intror Hd) (or_introl eq_refl) T1 T2) as [-> ->].
      destruct (B "_"%char d (or_intror Hd) (or_intror eq_refl) T3 T4) as [-> ->]. reflexivity. }
    destruct Hm as [-> | ->]; cbn [append]; apply R; auto.
Qed.

Lemma operator_cleans name m n up down : tidy name = true -> 
  up = "" \/ (tidy up = true /\ exists x r, up = String x r /\ x <> "}"%char) ->
  down = "" \/ (tidy down = true /\ exists x r, down = String x r /\ x <> "}"%char) ->
  cleans (operator_text false name m n up down) (operator_text true name m n up down).
Proof.
  intros T Hu Hd. unfold operator_text. destruct (m + n)%nat.
  - apply cleans_tidy. now apply tidy_app.
  - apply cleans_app; [now apply cleans_tidy|]. apply cleans_app; apply braces_cleans; auto.
Qed.

Definition letter (c : ascii) : Prop := In c (inner_letters ++ outer_letters)%list.
Lemma letter_plain c : letter c -> special c = false.
Proof. intros H. cbn in H. repeat (destruct H as [<-|H]; [reflexivity|]). contradiction. Qed.

Lemma letters_tidy l : Forall letter l -> tidy (string_of_list_ascii l) = true.
Proof.
  intros H. rewrite string_of_chars. apply tidy_harmless, harmless_chars. eapply Forall_impl; [|exact H]. exact letter_plain.
Qed.
Definition colour (s : string) : Prop := s = "" \/ s = "\blue" \/ s = "\magenta" \/ s = "\red".
Lemma mark_tidy ca l : colour ca -> Forall letter l -> tidy (mark_text ca l) = true.
Proof.
  intros H Hl. apply letters_tidy in Hl. destruct H as [->|[->|[->| ->]]]; cbn [mark_text]; auto;
    (apply tidy_app; [reflexivity|]; apply tidy_app; [reflexivity|]; apply tidy_app; [exact Hl|reflexivity]).
Qed.
Lemma index_fine n ca cb a b p : colour ca -> colour cb -> cb <> "" -> Forall letter a -> Forall letter b -> Forall letter p ->
  z_index_text n ca cb a b p = "" \/
  (tidy (z_index_text n ca cb a b p) = true /\ exists x r, z_index_text n ca cb a b p = String x r /\ x <> "}"%char).
Proof.
  intros Ha Hb Nb La Lb Lp. destruct n; [now left|right]. unfold z_index_text. split.
  - apply tidy_app; [now apply mark_tidy|]. apply tidy_app; [now apply mark_tidy|]. apply mark_tidy; [right; right; right; reflexivity|exact Lp].
  - destruct Ha as [->|[->|[->| ->]]]; cbn [mark_text append]; try (eexists _, _; split; [reflexivity|discriminate]).
    destruct a as [|x a]; cbn [string_of_list_ascii append].
    + destruct Hb as [->|[->|[->| ->]]]; [congruence|..]; cbn [mark_text append]; (eexists _, _; split; [reflexivity|discriminate]).
    + eexists _, _. split; [reflexivity|]. inversion La as [|? ? Lx _]; subst. apply letter_plain in Lx. intros ->. discriminate.
Qed.

Definition letters_ok (w : pairing (list ascii)) : Prop :=
  Forall letter (c_pl w) /\ Forall letter (c_ph w) /\ Forall letter (c_pr w) /\
  Forall letter (c_lp w) /\ Forall letter (c_lh w) /\ Forall letter (c_lr w) /\
  Forall letter (c_hp w) /\ Forall letter (c_hl w) /\ Forall letter (c_hr w) /\
  Forall letter (c_rp w) /\ Forall letter (c_rl w) /\ Forall letter (c_rh w).
Lemma lettered_letters c w : lettered c w -> letters_ok w.
Proof.
  intros L. destruct L as (_ & _ & _ & _ & _ & _ & _ & _ & _ & _ & _ & _ & E1 & E2).
  assert (F1 : Forall letter (c_lh w ++ c_lr w ++ c_hl w ++ c_rl w ++ c_rh w ++ c_hr w)%list).
  { rewrite E1. apply Forall_forall. intros x Hx. apply in_slice in Hx. unfold letter. apply in_or_app. now left. }
  assert (F2 : Forall letter (c_lp w ++ c_pl w ++ c_ph w ++ c_hp w ++ c_pr w ++ c_rp w)%list).
  { rewrite E2. apply Forall_forall. intros x Hx. apply in_slice in Hx. unfold letter. apply in_or_app. now right. }
  rewrite !Forall_app in F1, F2. unfold letters_ok. tauto.
Qed.

Lemma quotient_tidy num den : tidy (quotient_text num den) = true.
Proof.
  assert (N : forall c x, is_digit c = false -> Ascii.eqb c "!" = false -> has_char c (number_text x) = false).
  { intros c [n b] H1 H2. unfold number_text. rewrite has_char_app, str_nat_no_char by exact H1. destruct b; cbn; [now rewrite H2|reflexivity]. }
  assert (J : forall c sep l, is_digit c = false -> Ascii.eqb c "!" = false -> has_char c sep = false -> has_char c (String.concat sep (map number_text l)) = false).
  { intros c sep l H1 H2 H3. induction l as [|x [|y l] IH]; [reflexivity|now apply N|].
    change (String.concat sep (map number_text (x :: y :: l))) with (number_text x ++ sep ++ String.concat sep (map number_text (y :: l))).
    rewrite !has_char_app, N, H3, IH by assumption. reflexivity. }
  assert (S : forall sep l, has_char "^" sep = false -> has_char "_" sep = false ->
     tidy (match l with [] => "1" | _ => String.concat sep (map number_text l) end) = true).
  { intros sep l H1 H2. apply tidy_plain; destruct l as [|x l]; try reflexivity; apply J; auto. }
  assert (G : tidy ("\frac{" ++ (match num with [] => "1" | _ => String.concat "*" (map number_text num) end)
      ++ "}{" ++ (match den with [] => "1" | _ => String.concat "" (map number_text den) end) ++ "}") = true).
  { apply tidy_app; [reflexivity|]. apply tidy_app; [now apply S|]. apply tidy_app; [reflexivity|]. apply tidy_app; [now apply S|reflexivity]. }
  unfold quotient_text. destruct num, den; try exact G; reflexivity.
Qed.

Lemma term_text_cleans k c s : z_term_text false k c s -> exists s', z_term_text true k c s' /\ cleans s s'.
Proof.
  intros (w & pre & L & Hp & ->). pose proof (lettered_letters _ _ L) as (L1 & L2 & L3 & L4 & L5 & L6 & L7 & L8 & L9 & L10 & L11 & L12).
  eexists. split; [exists w, pre; split; [exact L|]; split; [exact Hp|]; cbv zeta; reflexivity|].
  assert (Tp : tidy pre = true).
  { destruct k; [now subst| |now subst]. destruct Hp as (num & den & -> & _). apply quotient_tidy. }
  assert (C : cleans (power_text "f" (f_pairs c) ++ power_text "\bar{f}" (fbar_pairs c) ++ pre
             ++ (if has_left k then left_text false c w else "") ++ h_text false c w
             ++ (if has_right k then right_text false c w else ""))
     (power_text "f" (f_pairs c) ++ power_text "\bar{f}" (fbar_pairs c) ++ pre
             ++ (if has_left k then left_text true c w else "") ++ h_text true c w
             ++ (if has_right k then right_text true c w else ""))).
  { apply cleans_app; [apply cleans_tidy; now apply tidy_power|]. apply cleans_app; [apply cleans_tidy; now apply tidy_power|].
    apply cleans_app; [now apply cleans_tidy|]. unfold left_text, h_text, right_text.
    apply cleans_app; [destruct (has_left k); [|now apply cleans_tidy]|apply cleans_app; [|destruct (has_right k); [|now apply cleans_tidy]]];
      (apply operator_cleans; [reflexivity| |]; apply index_fine; auto; unfold colour; auto; discriminate). }
  destruct (z_loose c k); [|exact C]. apply cleans_app; [now apply cleans_tidy|]. apply cleans_app; [exact C|now apply cleans_tidy].
Qed.

(** ** The contractions of the ground state *)
Section Ground.
  Variables (om on H cc : nat).
  Definition ground_pairing (x : nat * nat) : pairing nat := mkpairing 0 om 0 0 0 0 (fst x) 0 0 (on - fst x) 0 (snd x).
  Lemma ground_form c : contracts om on (h_allowed H) (z_allowed cc true) (z_allowed cc true) right_only c ->
    c = ground_pairing (c_hp c, c_rh c) /\ c_hp c <= on /\ c_rh c <= H /\ c_rh c <= cc /\
    (c_hp c + (om + c_rh c) < 3 \/ c_hp c = 0) /\ f_pairs c = 0 /\ inner c = c_rh c /\ outer c = om + on.
  Proof.
    intros (A & B & (C1 & C2) & (F & _) & _ & D). destruct (F eq_refl) as [F1 F2]. destruct (D eq_refl) as (D1 & D2). specialize (D2 eq_refl).
    unfold p_up, p_down, l_up, l_down, h_up, h_down, r_up, r_down, ground_pairing, f_pairs, inner, outer in *.
    destruct c as [x1 x2 x3 x4 x5 x6 x7 x8 x9 y1 y2 y3]; cbn [c_pl c_ph c_pr c_lp c_lh c_lr c_hp c_hl c_hr c_rp c_rl c_rh fst snd] in *.
    split; [f_equal; lia|]. lia.
  Qed.
  Lemma ground_few cs : H <= 5 \/ cc <= 5 -> NoDup cs ->
    (forall c, In c cs -> contracts om on (h_allowed H) (z_allowed cc true) (z_allowed cc true) right_only c) -> List.length cs <= 9.
  Proof.
    intros HB N I. 
    pose (all := map ground_pairing [(0,0); (0,1); (0,2); (0,3); (0,4); (0,5); (1,0); (1,1); (2,0)]).
    change 9 with (List.length all). apply NoDup_incl_length; [exact N|]. intros c Hc. apply I in Hc.
    destruct (ground_form c Hc) as (E & B1 & B2 & B3 & B4 & _). rewrite E. apply in_map.
    assert (R : c_rh c <= 5) by lia. clear - R B4. revert R B4. generalize (c_rh c) (c_hp c). intros q p R B4. destruct p as [|[|[|p]]].
    - do 6 (destruct q as [|q]; [cbn; auto 12|]). lia.
    - destruct q as [|[|q]]; [cbn; auto 12..|lia].
    - destruct q as [|q]; [cbn; auto 12|lia].
    - lia.
  Qed.
End Ground.

Lemma ground_letters om on H cc c :
  contracts om on (h_allowed H) (z_allowed cc true) (z_allowed cc true) right_only c ->
  H <= 5 \/ cc <= 5 -> om + on <= 7 -> fits_kind right_only c /\ inner c <= 5 /\ outer c <= 7.
Proof.
  intros Hc HB HR. destruct (ground_form _ _ _ _ _ Hc) as (_ & _ & B2 & B3 & _ & _ & Ei & Eo). split; [apply Hc|]. lia.
Qed.

(** ** Finite checks on the letters *)
Definition spelled (m n : nat) : string := string_of_list_ascii (repeat "d"%char m ++ repeat "b"%char n).
Lemma spells_spelled name m n : spells name m n -> name = spelled m n.
Proof. intros H. unfold spelled. rewrite <- H. now rewrite string_of_list_ascii_of_string. Qed.

Definition small_pairs : list (nat * nat) := filter (fun p => Nat.leb (fst p + snd p) 8) (list_prod (seq 0 9) (seq 0 9)).
Lemma in_small m n : (m + n <= 8)%nat -> In (m, n) small_pairs.
Proof.
  intros H. apply filter_In. split; [apply in_prod; apply in_seq; lia|]. now apply Nat.leb_le.
Qed.
Definition op_of (p : nat * nat) : gop := mkgop (spelled (fst p) (snd p)) (fst p + snd p) (fst p) (snd p).
Lemma op_of_projection o : spells (g_name o) (g_m o) (g_n o) -> g_rank o = (g_m o + g_n o)%nat -> o = op_of (g_m o, g_n o).
Proof. intros S R. destruct o as [nm r m n]. cbn [g_m g_n g_name g_rank] in *. unfold op_of. cbn [fst snd]. now rewrite R, <- (spells_spelled nm m n S). Qed.

Definition cleans_b (r s : string) : bool :=
  closedb "^" r && closedb "_" (replace_empty "^{}" r) && String.eqb (replace_empty "_{}" (replace_empty "^{}" r)) s.
Lemma cleans_b_ok r s : cleans_b r s = true -> cleans r s.
Proof.
  unfold cleans_b. rewrite !andb_true_iff. intros [[A B] C] b. apply String.eqb_eq in C.
  eapply clean_step; eauto.
Qed.
Lemma first_check : forallb (fun p => cleans_b (build_first_z_term (op_of p)) (h_alone_text (fst p) (snd p))) small_pairs = true.
Proof. vm_compute. reflexivity. Qed.
Lemma fifth_check : forallb (fun p => cleans_b (render_fifth_term (op_of p))
   (String.concat " + " (map (dt_z_text (fst p) (snd p)) (seq 0 (snd p + 1))))) small_pairs = true.
Proof. vm_compute. reflexivity. Qed.
Lemma t_check : forallb (fun p => String.eqb (wrap_t_latex (op_of p) (generate_t_lhs (op_of p))) (t_equation_text (fst p) (snd p))) small_pairs = true.
Proof. vm_compute. reflexivity. Qed.

Lemma some_rank_name r : r <= 8 -> exists s, py_nth rank_names r = Ok s.
Proof. apply (rank_name_ok 1 1); lia. Qed.
Lemma no_rank_name r : 9 <= r -> py_nth rank_names r = Err IndexErr.
Proof. intros Hr. do 9 (destruct r as [|r]; [lia|]). destruct r; reflexivity. Qed.
Lemma first_projection cc P : exists o r, generate_omega_operator cc P = o :: r /\ o = mkgop "" 0 0 0.
Proof.
  destruct (projections_exact cc P) as (_ & I & So).
  assert (X : In (mkgop "" 0 0 0) (generate_omega_operator cc P)) by (apply I; repeat split; cbn; lia).
  destruct (generate_omega_operator cc P) as [|o r]; [easy|]. exists o, r. split; [reflexivity|].
  assert (R0 : g_rank o = 0).
  { destruct X as [->|X]; [reflexivity|]. inversion So as [|? ? _ F]; subst. rewrite Forall_forall in F. specialize (F _ X). cbn in F. lia. }
  destruct (proj1 (I o) (or_introl eq_refl)) as (Sp & R & _). destruct o as [nm k m n]. cbn [g_rank g_m g_n g_name] in *.
  assert (m = 0) by lia. assert (n = 0) by lia. subst. now rewrite (spells_spelled _ _ _ Sp).
Qed.

Section Equation.
  Variables (H cc : nat) (rf : bool).
  Hypothesis HB : H <= 5 \/ cc <= 5.

  Lemma equation_fine o : spells (g_name o) (g_m o) (g_n o) -> g_rank o = (g_m o + g_n o)%nat -> g_rank o <= 7 ->
    exists e, generate_z_symmetric_latex_equations o (pruned_hamiltonian H) (generate_z_operator cc true) true rf = Ok e /\
      z_equation_text (g_m o) (g_n o) H cc e.
  Proof.
    intros Sp R R7.
    destruct (z_terms_of_ansatz o H cc true right_only) as (ts & E & N & I).
    (* the contractions *)
    assert (X : exists cs, ts = map (recorded right_only) cs /\
       forall c, In c cs -> contracts (g_m o) (g_n o) (h_allowed H) (z_allowed cc true) (z_allowed cc true) right_only c).
    { assert (Y : forall t, In t ts -> exists c, contracts (g_m o) (g_n o) (h_allowed H) (z_allowed cc true) (z_allowed cc true) right_only c /\ t = recorded right_only c)
        by (intros; now apply I). clear - Y. induction ts as [|t ts IH]; [exists []; split; [reflexivity|easy]|].
      destruct (Y t (or_introl eq_refl)) as (c & Hc & ->). destruct IH as (cs & -> & K); [intros; apply Y; now right|].
      exists (c :: cs). split; [reflexivity|]. intros d [<-|Hd]; auto. }
    destruct X as (cs & -> & K). pose proof (nodup_of_map _ _ N) as Nc.
    assert (Ic : forall c, In c cs <-> contracts (g_m o) (g_n o) (h_allowed H) (z_allowed cc true) (z_allowed cc true) right_only c).
    { intros c. split; [apply K|]. intros Hc. assert (J : In (recorded right_only c) (map (recorded right_only) cs)) by (apply I; eauto).
      apply in_map_iff in J as (d & Ed & Hd). assert (d = c) as <-; [|exact Hd].
      apply (recorded_inj right_only); [apply K in Hd; apply Hd|apply Hc|exact Ed]. }
    pose proof (ground_few (g_m o) (g_n o) H cc cs HB Nc K) as Few.
    (* the printed terms *)
    assert (Pr : exists os ss, mapM (print_term right_only rf) (map (recorded right_only) cs) = Ok (map Some os) /\
       Forall2 (z_term_text true right_only) cs ss /\ Forall2 (fun t s => cleans (render_zlterm t) s) os ss).
    { clear - K HB R R7. induction cs as [|c cs IH]; [exists [], []; repeat split; constructor|].
      destruct IH as (os & ss & E1 & F1 & F2); [intros; apply K; now right|].
      assert (Hc := K c (or_introl eq_refl)). destruct (ground_form _ _ _ _ _ Hc) as (_ & _ & B2 & B3 & _ & F0 & Ei & Eo).
      destruct (print_term_ok right_only rf c) as ([t|] & Ep & Q); [apply Hc|lia|lia| |exfalso; lia].
      destruct Q as (_ & Q). destruct (term_text_cleans _ _ _ Q) as (s & S1 & S2).
      exists (t :: os), (s :: ss). cbn [map mapM]. rewrite Ep. cbn [bind]. rewrite E1. repeat split; constructor; auto. }
    destruct Pr as (os & ss & Ep & F1 & F2).
    assert (FM : flat_map option_list (map Some os) = os).
    { clear. induction os as [|t os IH]; [reflexivity|]. cbn [map flat_map option_list app]. now rewrite IH. }
    assert (Third : exists third, build_third_z_term o (pruned_hamiltonian H) (generate_z_operator cc true) rf = Ok third /\
       cleans (render_z_term "" third) (hz_sum_text ss)).
    { unfold build_third_z_term, build_z_term. change (HZ (generate_z_operator cc true)) with (sides right_only (generate_z_operator cc true) (generate_z_operator cc true)).
      rewrite E. cbn [bind]. destruct cs as [|c cs].
      - inversion F1; subst. exists None. split; [reflexivity|]. now apply cleans_tidy.
      - cbn [map] in *. unfold prepare_third_z_latex, keep_terms. change (third_z_term rf true) with (print_term right_only rf).
        rewrite concatM_mapM, Ep. cbn [bind]. rewrite FM.
        eexists. split; [reflexivity|]. cbn [render_z_term]. unfold glue_z.
        assert (Lo : List.length os = List.length ss) by (apply (forall2_len _ _ _ F2)).
        assert (Lc : List.length (c :: cs) = List.length ss) by (apply (forall2_len _ _ _ F1)).
        destruct (Nat.ltb_spec (List.length os) (7 * 2)) as [Hl|Hl]; [|lia]. cbn [render_zsum].
        unfold hz_sum_text. destruct ss as [|s ss]; [discriminate|]. unfold sum_text.
        apply cleans_app; [now apply cleans_tidy|]. apply cleans_app; [|now apply cleans_tidy].
        apply cleans_join; [reflexivity|]. now apply forall2_map_l. }
    destruct Third as (third & Et & Ct). unfold generate_z_symmetric_latex_equations. rewrite Et. cbn [bind].
    eexists. split; [reflexivity|]. exists cs, ss. split; [exact Nc|]. split; [exact Ic|]. split; [exact F1|].
    apply cleans_clean. apply cleans_app.
    - rewrite (op_of_projection o Sp R). apply cleans_b_ok. 
      pose proof first_check as FC. rewrite forallb_forall in FC. apply (FC (g_m o, g_n o)). apply in_small. lia.
    - apply cleans_app; [now apply cleans_tidy|]. apply cleans_app; [exact Ct|]. apply cleans_app; [now apply cleans_tidy|].
      apply cleans_app; [now apply cleans_tidy|]. apply cleans_app; [|now apply cleans_tidy].
      rewrite (op_of_projection o Sp R). apply cleans_b_ok. 
      pose proof fifth_check as FC. rewrite forallb_forall in FC. apply (FC (g_m o, g_n o)). apply in_small. lia.
  Qed.

  Definition one_z (ground : bool) (omega : gop) : res (gop * string) :=
    do _ <- py_nth rank_names (g_rank omega);
    do e <- generate_z_symmetric_latex_equations omega (pruned_hamiltonian H)
              (generate_z_operator cc ground) ground rf;
    Ok (omega, e).

  Lemma t_fine o : spells (g_name o) (g_m o) (g_n o) -> g_rank o = (g_m o + g_n o)%nat -> g_rank o <= 7 ->
    wrap_t_latex o (generate_t_lhs o) = t_equation_text (g_m o) (g_n o).
  Proof.
    intros Sp R R7. rewrite (op_of_projection o Sp R) at 1 2. pose proof t_check as FC. rewrite forallb_forall in FC.
    apply String.eqb_eq. apply (FC (g_m o, g_n o)). apply in_small. lia.
  Qed.

  Lemma render_z_sections : forall os rs p q, Forall2 (fun o r => exists e, r = (o, e) /\ z_equation_text (g_m o) (g_n o) H cc e) os rs ->
    (forall o, In o os -> spells (g_name o) (g_m o) (g_n o) /\ g_rank o = (g_m o + g_n o)%nat /\ g_rank o <= 7) ->
    (p = Some q \/ (p = None /\ match os with [] => True | o :: _ => g_rank o <= q end)) ->
    z_sections H cc p os (render_z_equations q rs).
  Proof.
    intros os rs p q F. revert p q. induction F as [|o r os rs (e & -> & He) F IH]; intros p q G Hp; [constructor|].
    destruct (G o (or_introl eq_refl)) as (Sp & R & R7). cbn [render_z_equations].
    rewrite t_fine by assumption.
    assert (EL : generate_z_lhs o = "i\Big(\dv{\hat{\bz}^{" ++ letters 0 (g_m o + g_n o) ++ "}_{\gamma}}{\tau}\Big)").
    { unfold generate_z_lhs. rewrite R, sslice_0_of_chars. reflexivity. }
    assert (EA : wrap_z_align_environment (generate_z_lhs o) e = z_align_text (g_m o) (g_n o) e).
    { rewrite EL. unfold wrap_z_align_environment, z_align_text. rewrite !append_assoc. reflexivity. }
    rewrite EA.
    assert (HE : (if Nat.ltb q (g_rank o) then "\paragraph{" ++ nth (g_rank o) rank_names "" ++ " Equations}" ++ nl ++ nl else "\vspace{2cm}")
      = (if match p with Some q0 => Nat.ltb q0 (g_rank o) | None => false end
         then "\paragraph{" ++ nth (g_rank o) order_names "" ++ " Equations}" ++ newline ++ newline else "\vspace{2cm}")).
    { destruct Hp as [->|[-> Hq]]; [reflexivity|]. destruct (Nat.ltb_spec q (g_rank o)); [lia|reflexivity]. }
    rewrite HE. refine (z_sections_next H cc p o os e _ He _). apply IH; [intros; apply G; now right|now left].
  Qed.

  Theorem z_file_ok P : cc <= 7 \/ P <= 7 ->
    exists text, generate_z_t_symmetric_latex H cc P true rf = Ok text /\ z_latex_text H cc P rf text.
  Proof.
    intros H7. destruct (projections_exact cc P) as (N & I & So).
    assert (X : exists rs, mapM (one_z true) (generate_omega_operator cc P) = Ok rs /\
       Forall2 (fun o r => exists e, r = (o, e) /\ z_equation_text (g_m o) (g_n o) H cc e) (generate_omega_operator cc P) rs).
    { assert (Y : forall o, In o (generate_omega_operator cc P) -> exists r, one_z true o = Ok r /\ exists e, r = (o, e) /\ z_equation_text (g_m o) (g_n o) H cc e).
      { intros o Ho. apply I in Ho as (Sp & R & L1 & L2). destruct (equation_fine o Sp R) as (e & Ee & Te); [lia|].
        unfold one_z. destruct (some_rank_name (g_rank o)) as (nm & ->); [lia|]. cbn [bind]. rewrite Ee. cbn [bind]. eauto. }
      clear - Y. induction (generate_omega_operator cc P) as [|o os IH]; [exists []; split; [reflexivity|constructor]|].
      destruct (Y o) as (r & E & Fr); [now left|]. destruct IH as (rs & Es & Frs); [intros; apply Y; now right|].
      exists (r :: rs). cbn [mapM]. rewrite E. cbn [bind]. rewrite Es. split; [reflexivity|now constructor]. }
    destruct X as (rs & E & F). unfold generate_z_t_symmetric_latex, z_equations.
    change (mapM _ (generate_omega_operator cc P)) with (mapM (one_z true) (generate_omega_operator cc P)). rewrite E. cbn [bind].
    eexists. split; [reflexivity|].
    eexists (generate_omega_operator cc P), _. split; [exact N|]. split; [exact I|]. split; [exact So|]. split; [|reflexivity].
    apply render_z_sections; [exact F| |].
    - intros o Ho. apply I in Ho as (Sp & R & ? & ?). repeat split; auto. lia.
    - right. split; [reflexivity|]. destruct (first_projection cc P) as (o & r & -> & ->). cbn [g_rank]. lia.
  Qed.
End Equation.

(** Excited states are refused before anything else can go wrong. *)
Theorem z_excited_refused H cc P rf : generate_z_t_symmetric_latex H cc P false rf = Err NotImplementedErr.
Proof.
  unfold generate_z_t_symmetric_latex, z_equations. destruct (first_projection cc P) as (o & r & -> & ->). reflexivity.
Qed.

Lemma third_total rf c : exists o, print_term right_only rf (recorded right_only c) = Ok o.
Proof.
  unfold recorded. cbn [print_term has_left has_right]. fold (zr_ c) (h_ c). unfold third_z_term. rewrite f_h_zR_ok, fbar_h_zR_ok. cbn [bind].
  destruct (rf && _); eauto.
Qed.

Lemma equation_total o H cc rf : exists e,
  generate_z_symmetric_latex_equations o (pruned_hamiltonian H) (generate_z_operator cc true) true rf = Ok e.
Proof.
  destruct (z_terms_of_ansatz o H cc true right_only) as (ts & E & _ & I).
  unfold generate_z_symmetric_latex_equations, build_third_z_term, build_z_term.
  change (HZ (generate_z_operator cc true)) with (sides right_only (generate_z_operator cc true) (generate_z_operator cc true)).
  rewrite E. cbn [bind]. destruct ts as [|t ts]; [cbn [bind]; eauto|].
  unfold prepare_third_z_latex, keep_terms. change (third_z_term rf true) with (print_term right_only rf). rewrite concatM_mapM.
  assert (X : exists os, mapM (print_term right_only rf) (t :: ts) = Ok os).
  { assert (Y : forall x, In x (t :: ts) -> exists c, x = recorded right_only c) by (intros x Hx; apply I in Hx as (c & _ & ->); eauto).
    clear - Y. induction (t :: ts) as [|x l IH]; [eexists; reflexivity|]. destruct (Y x (or_introl eq_refl)) as (c & ->).
    destruct (third_total rf c) as [y Ey]. destruct IH as [ys Eys]; [intros; apply Y; now right|].
    cbn [mapM]. rewrite Ey. cbn [bind]. rewrite Eys. cbn [bind]. eauto. }
  destruct X as [os ->]. cbn [bind]. eauto.
Qed.

(** From rank 9 on there is no name for the heading. *)
Theorem z_rank9_refused H cc P rf : 9 <= cc -> 9 <= P -> generate_z_t_symmetric_latex H cc P true rf = Err IndexErr.
Proof.
  intros Hc HP. destruct (projections_exact cc P) as (N & I & _).
  unfold generate_z_t_symmetric_latex, z_equations.
  change (mapM _ (generate_omega_operator cc P)) with (mapM (one_z H cc rf true) (generate_omega_operator cc P)).
  rewrite (mapM_err_only (one_z H cc rf true) IndexErr); [reflexivity| |].
  - intros o _. unfold one_z. destruct (Nat.leb_spec (g_rank o) 8) as [L|L].
    + destruct (some_rank_name _ L) as [s ->]. destruct (equation_total o H cc rf) as [e ->]. cbn [bind]. eauto.
    + rewrite no_rank_name by lia. now right.
  - exists (mkgop (spelled 9 0) 9 9 0). split; [|reflexivity]. apply I. repeat split; cbn; lia.
Qed.

(** ** Sums of contractions *)
Definition kept (rf : bool) (cs : list (pairing nat)) : list (pairing nat) := filter (fun c => negb (rf && Nat.ltb 0 (f_pairs c))) cs.

Theorem sum_of_contractions k rf cs :
  Forall (fun c => fits_kind k c /\ inner c <= 5 /\ outer c <= 7) cs ->
  exists s ss, prepare k (map (recorded k) cs) rf = Ok s /\
    Forall2 (z_term_text false k) (kept rf cs) ss /\ z_sum_text (ending k) ss (render_zsum (ending k) s).
Proof.
  intros Hc.
  assert (X : exists os, mapM (print_term k rf) (map (recorded k) cs) = Ok os /\
     Forall2 (z_term_text false k) (kept rf cs) (map render_zlterm (flat_map option_list os))).
  { induction Hc as [|c cs (H1 & H2 & H3) Hc (os & E & F)]; [exists []; split; [reflexivity|constructor]|].
    destruct (print_term_ok k rf c H1 H2 H3) as (o & Eo & Q). exists (o :: os). cbn [map mapM]. rewrite Eo. cbn [bind]. rewrite E.
    split; [reflexivity|]. unfold kept. cbn [filter]. destruct o as [t|]; cbn [flat_map option_list app map].
    - destruct Q as (Q1 & Q2). destruct (rf && Nat.ltb 0 (f_pairs c)) eqn:B; [|constructor; [exact Q2|exact F]].
      exfalso. apply Q1. apply andb_true_iff in B as [B1 B2]. split; [exact B1|]. now apply Nat.ltb_lt.
    - destruct Q as (-> & Q). apply Nat.ltb_lt in Q. rewrite Q. cbn [andb negb]. exact F. }
  destruct X as (os & E & F). destruct (sum_printed k (map (recorded k) cs) rf) as [A _]. destruct (A os E) as (s & Es & T).
  exists s, (map render_zlterm (flat_map option_list os)). auto.
Qed.

Theorem printed_prefactor c t : fits_kind right_only c ->
  print_term right_only false (recorded right_only c) = Ok (Some t) ->
  one_over (pair_factorials c) (render_hz_prefactor (zl_prefactor t)).
Proof.
  intros F. unfold recorded. cbn [print_term has_left has_right]. fold (zr_ c) (h_ c). unfold third_z_term.
  rewrite f_h_zR_ok, fbar_h_zR_ok. cbn [bind andb]. intros [= <-]. cbn [zl_prefactor]. now apply hz_one_over.
Qed.

Theorem simplified_prefactor c t : fits_kind right_only c ->
  print_term right_only false (recorded right_only c) = Ok (Some t) ->
  render_simplified_prefactor (zl_prefactor t) =
  if Nat.eqb (pair_factorials c) 1 then "" else "\frac{1}{" ++ str_nat (pair_factorials c) ++ "}".
Proof.
  intros F P. assert (X : zl_prefactor t = hz_prefactor (h_ c) (zr_ c)).
  { revert P. unfold recorded. cbn [print_term has_left has_right]. fold (zr_ c) (h_ c). unfold third_z_term.
    rewrite f_h_zR_ok, fbar_h_zR_ok. cbn [bind andb]. now intros [= <-]. }
  rewrite X. clear t P X. destruct F as (F & _). destruct (F eq_refl) as [F1 F2]. clear F. unfold l_up, l_down in *.
  assert (V : forall l, factors_value l = factors_number (map as_number l)).
  { intros l. unfold factors_value, factors_number. rewrite map_map. f_equal. apply map_ext. apply as_number_value. }
  assert (E : factors_value (snd (hz_prefactor (h_ c) (zr_ c))) = factors_value (fst (hz_prefactor (h_ c) (zr_ c))) * pair_factorials c).
  { rewrite !V. rewrite (prefactor_value (h_ c) (zr_ c) (c_hr c) (c_hp c) (c_rh c) (c_ph c) (c_rp c) (c_rh c) (c_pr c) (c_hr c));
      cbn [h_ zr_ hz_m hz_n hz_m_r hz_n_r z_m z_n z_m_lhs z_n_lhs z_m_h z_n_h]; unfold h_up, h_down, r_up, r_down; try lia.
    unfold pair_factorials. f_equal. ring. }
  assert (D : factors_value (snd (hz_prefactor (h_ c) (zr_ c))) <> 0) by (rewrite V; apply factors_nz, denominators_fact).
  unfold render_simplified_prefactor. rewrite E in *. remember (factors_value (fst (hz_prefactor (h_ c) (zr_ c)))) as n eqn:En. clear En V E.
  assert (Nn : n <> 0) by nia.
  destruct (Nat.eqb_spec (pair_factorials c) 1) as [->|N1].
  - now rewrite Nat.mul_1_r, Nat.eqb_refl.
  - destruct (Nat.eqb_spec n (n * pair_factorials c)) as [Y|_]; [nia|].
    replace (Nat.gcd n (n * pair_factorials c)) with n.
    + rewrite Nat.div_same by exact Nn. rewrite (Nat.mul_comm n), Nat.div_mul by exact Nn. reflexivity.
    + symmetry. apply Nat.divide_gcd_iff; [lia|]. now exists (pair_factorials c); lia.
Qed.

(** ** The products of derivatives and z *)
Definition dt_upper (t : option (string * string) * option string) : string := match fst t with None => "" | Some (u, _) => u end.
Definition dt_lower (t : option (string * string) * option string) : string := match fst t with None => "" | Some (_, d) => d end.
Definition z_upper (t : option (string * string) * option string) : string := match snd t with None => "" | Some u => u end.

Lemma fifth_letters_check : forallb (fun p => forallb (fun k =>
   let t := fifth_z_term (op_of p) k in
   String.eqb (dt_lower t) (letters (snd p) (fst p)) &&
   Bool.eqb (String.eqb (dt_upper t ++ z_upper t) (letters 0 (snd p))) (Nat.eqb (fst p) 0 || Nat.eqb k 0)) (seq 0 (snd p + 1))) small_pairs = true.
Proof. vm_compute. reflexivity. Qed.

Lemma fifth_only lhs lhs' k : g_m lhs = g_m lhs' -> g_n lhs = g_n lhs' -> g_rank lhs = g_rank lhs' -> fifth_z_term lhs k = fifth_z_term lhs' k.
Proof. unfold fifth_z_term. now intros -> -> ->. Qed.

Theorem fifth_letters lhs k : g_rank lhs = (g_m lhs + g_n lhs)%nat -> g_rank lhs <= 8 -> k <= g_n lhs ->
  let t := fifth_z_term lhs k in
  dt_lower t = letters (g_n lhs) (g_m lhs) /\
  (dt_upper t ++ z_upper t = letters 0 (g_n lhs) <-> g_m lhs = 0 \/ k = 0).
Proof.
  intros R R8 Hk. cbv zeta. rewrite (fifth_only lhs (op_of (g_m lhs, g_n lhs))) by (cbn; auto).
  pose proof fifth_letters_check as C. rewrite forallb_forall in C. specialize (C (g_m lhs, g_n lhs) (in_small (g_m lhs) (g_n lhs) ltac:(lia))).
  rewrite forallb_forall in C. specialize (C k). cbn [fst snd] in C. 
  assert (I : In k (seq 0 (g_n lhs + 1))) by (apply in_seq; lia). specialize (C I). cbv zeta in C.
  apply andb_true_iff in C as [C1 C2]. apply String.eqb_eq in C1. split; [exact C1|]. apply eqb_prop in C2.
  rewrite <- String.eqb_eq, C2, orb_true_iff, !Nat.eqb_eq. reflexivity.
Qed.

(** ** Free letters *)
Theorem free_letters_differ om on H cc c w :
  contracts om on (h_allowed H) (z_allowed cc true) (z_allowed cc true) right_only c -> lettered c w ->
  let free := (c_lp w ++ c_pl w ++ c_ph w ++ c_hp w ++ c_pr w ++ c_rp w)%list in
  List.length free = (om + on)%nat /\ forall x, In x free -> ~ In x (letters_from summed_letters 0 (om + on)).
Proof.
  intros Hc L. cbv zeta. destruct (ground_form _ _ _ _ _ Hc) as (_ & _ & _ & _ & _ & _ & _ & Eo).
  destruct L as (L1 & L2 & L3 & L4 & L5 & L6 & L7 & L8 & L9 & L10 & L11 & L12 & E1 & E2). split.
  - rewrite !app_length, L1, L2, L3, L4, L7, L10. unfold outer in Eo. lia.
  - rewrite E2. intros x Hx Hy. apply in_slice in Hx. apply in_slice in Hy. cbn in Hx, Hy.
    repeat (destruct Hx as [<-|Hx]; [repeat (destruct Hy as [Hy|Hy]; [discriminate|]); contradiction|]). contradiction.
Qed.
