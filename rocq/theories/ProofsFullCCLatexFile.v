(** Proofs about the LaTeX of the full coupled cluster equations: left hand
    sides, whole equations and the file. *)
From Coq Require Import Sorted ZArith.
From Verif Require Import PyBase PyBaseFacts PyStr ModelHelper ModelW ModelLatexW ModelTrunc ModelFullCC ModelPrefactor ModelFullCCPy ModelFullCCLatex
  SpecW SpecLatexW SpecTrunc SpecFullCC SpecFullCCPy SpecPrefactor SpecFullCCLatex ProofsHelper ProofsW ProofsStr ProofsLatexW ProofsTrunc ProofsFullCC ProofsFullCCLabels
  ProofsFullCCPy ProofsFullCCBuckets ProofsFullCCFile ProofsFullCCLatexText ProofsFullCCLatex.
Open Scope string_scope.

(** ** One equation *)
Lemma requested_good om on H cc S ground rf hm hn us f fb t : H <= 10 ->
  requested om on H cc S ground rf hm hn us f fb -> describes om on hm hn us f fb t -> good om on t.
Proof.
  intros HH (R1 & R2 & R3 & R4 & R5) D. exists hm, hn, us, f, fb. split; [exact R4|]. split; [|split; [exact D|lia]].
  eapply Forall_impl; [|exact R3]. intros a (A1 & A2). lia.
Qed.

Lemma equation_terms_ok so omega H cc S ground rf : set_order so -> 1 <= cc ->
  exists l fully linked_ unlinked_,
    full_cc_terms so omega H cc S ground rf = Ok l /\
    seperate_s_terms_by_connection l = Ok (fully, linked_, unlinked_) /\
    equation_terms (g_m omega) (g_n omega) H cc S ground rf fully linked_ unlinked_.
Proof.
  intros Hso Hcc. destruct (full_cc_terms_exact so omega H cc S ground rf Hso Hcc) as (l & E & N & I).
  destruct (separation_exact so omega H cc S ground rf Hso Hcc) as (l' & a & b & c & E' & Es & P & _ & _ & _ & G).
  assert (l' = l) by congruence. subst l'. exists l, a, b, c. split; [exact E|]. split; [exact Es|].
  split; [eapply Permutation_NoDup; eauto|]. split.
  - intros t. rewrite <- I. split; apply Permutation_in; [symmetry|]; exact P.
  - intros t hm hn us f fb R D. destruct R as (R1 & R2 & R3 & R4 & R5).
    assert (X : In t (a ++ b ++ c)%list -> (In t a <-> fully_connected us) /\ (In t b <-> linked (g_m omega) (g_n omega) us) /\ (In t c <-> unlinked (g_m omega) (g_n omega) us)).
    { intros Ht. apply (G t hm hn us f fb); auto. eapply Permutation_in; [symmetry; exact P|exact Ht]. }
    rewrite !in_app_iff in X. split; [|split]; intros Ht; apply X; auto.
Qed.

Section Equation.
  Variable so : list (list tamp) -> list (list tamp).
  Hypothesis Hso : set_order so.
  Variable son : list nat -> list nat.
  Hypothesis Hson : set_order son.
  Variables H cc S : nat.
  Variables ground rf : bool.
  Hypothesis Hcc : 1 <= cc.
  Hypothesis HH : H <= 10.
  Variables om on : nat.
  Hypothesis Hr8 : om + on <= 8.

  Lemma terms_facts fully linked_ unlinked_ : equation_terms om on H cc S ground rf fully linked_ unlinked_ ->
    (forall t, In t (fully ++ linked_ ++ unlinked_)%list -> good om on t) /\
    (forall t, In t linked_ -> 2 <= om + on /\ loose (snd t) <> [] /\ snd t <> [t_one]) /\
    (forall t, In t unlinked_ -> 1 <= om + on /\ unlinked om on (snd t)).
  Proof.
    intros (N & I & G). split; [|split].
    - intros t Ht. apply I in Ht as (hm & hn & us & f & fb & R & _ & D). eapply requested_good; eauto.
    - intros t Ht. assert (Ht' : In t (fully ++ linked_ ++ unlinked_)%list) by (rewrite !in_app_iff; auto).
      apply I in Ht' as (hm & hn & us & f & fb & R & _ & D). destruct (G t hm hn us f fb R D) as (_ & G2 & _).
      specialize (G2 Ht). destruct G2 as [(a & Ha & [D1 D2]) G2]. destruct R as (R1 & R2 & R3 & (C1 & C2 & C3 & C4) & R5).
      assert (Es : snd t = us). { unfold describes in D. rewrite D. cbn. destruct us; [easy|reflexivity]. }
      rewrite Es. assert (Am : amplitude cc ground a) by (rewrite Forall_forall in R3; auto).
      destruct Am as (A1 & A2). unfold up, down in A1.
      pose proof (in_total_le m_o us a Ha). pose proof (in_total_le n_o us a Ha).
      split.
      + specialize (G2 a Ha (conj D1 D2)). unfold takes_projection in G2.
        destruct (Nat.leb_spec 2 (om + on)); [assumption|]. exfalso. apply G2. lia.
      + split.
        * intros E. assert (X : In a (loose us)). { apply filter_In. split; [exact Ha|]. unfold is_disconnected. now rewrite D1, D2. }
          rewrite E in X. easy.
        * intros E. rewrite E in Ha. destruct Ha as [<-|[]]. cbn in A1. lia.
    - intros t Ht. assert (Ht' : In t (fully ++ linked_ ++ unlinked_)%list) by (rewrite !in_app_iff; auto).
      apply I in Ht' as (hm & hn & us & f & fb & R & _ & D). destruct (G t hm hn us f fb R D) as (_ & _ & G2).
      specialize (G2 Ht). destruct G2 as (a & Ha & [D1 D2] & [T1 T2]). destruct R as (R1 & R2 & R3 & (C1 & C2 & C3 & C4) & R5).
      assert (Es : snd t = us). { unfold describes in D. rewrite D. cbn. destruct us; [easy|reflexivity]. }
      rewrite Es. assert (Am : amplitude cc ground a) by (rewrite Forall_forall in R3; auto).
      destruct Am as (A1 & A2). unfold up, down in A1. split; [lia|]. exists a. repeat split; auto.
  Qed.

  Lemma equation_ok fully linked_ unlinked_ : equation_terms om on H cc S ground rf fully linked_ unlinked_ ->
    (linked_ <> [] /\ 4 <= om + on /\ write_cc_latex_from_lists so son (om + on) fully linked_ unlinked_ = Err NotImplementedErr) \/
    ((linked_ = [] \/ om + on <= 3) /\
     exists e, write_cc_latex_from_lists so son (om + on) fully linked_ unlinked_ = Ok e /\
       equation_text om on fully linked_ unlinked_ (render_equation (om + on) e)).
  Proof.
    intros T. destruct (terms_facts _ _ _ T) as (F1 & F2 & F3). unfold equation_text.
    destruct (om + on) as [|r] eqn:E.
    - right. split; [right; lia|].
      assert (El : linked_ = []). { destruct linked_ as [|x r]; [reflexivity|]. destruct (F2 x); [now left|lia]. }
      assert (Eu : unlinked_ = []). { destruct unlinked_ as [|x r]; [reflexivity|]. destruct (F3 x); [now left|lia]. }
      subst. unfold write_cc_latex_from_lists. cbn [Nat.eqb]. eexists. split; [reflexivity|].
      split; [reflexivity|]. split; [reflexivity|].
      destruct (plain_part_ok son Hson om on ltac:(lia) "" fully) as (a & P & C).
      { intros t Ht. apply F1. rewrite in_app_iff. auto. }
      exists a. split; [exact P|]. unfold render_equation. cbn [Nat.eqb eq_fully eq_linked eq_unlinked].
      match goal with |- replace_empty "_{}" (replace_empty "^{}" ?s) = _ => change (clean s = a ++ " + () + ()") end.
      change (make_latex_plain son []) with (LPlain []). cbn [map].
      change (join " + " [render_lsum "" (make_latex_plain son fully); render_lsum "" (LPlain []); render_lsum "" (LPlain [])])
        with (render_lsum "" (make_latex_plain son fully) ++ " + () + ()").
      apply cleans_clean. apply cleans_app; [exact C|now apply cleans_tidy].
    - rewrite <- E in *. apply rhs_ok; auto; try lia. intros t Ht. now apply F3.
  Qed.
End Equation.

Theorem latex_equation so son omega H cc S ground rf : set_order so -> set_order son -> 1 <= cc -> H <= 10 ->
  g_rank omega = g_m omega + g_n omega -> g_rank omega <= 8 ->
  exists fully linked_ unlinked_,
    equation_terms (g_m omega) (g_n omega) H cc S ground rf fully linked_ unlinked_ /\
    ((linked_ <> [] /\ 4 <= g_rank omega /\
      generate_cc_latex_equations so son omega H cc S ground rf = Err NotImplementedErr) \/
     ((linked_ = [] \/ g_rank omega <= 3) /\
      exists e, generate_cc_latex_equations so son omega H cc S ground rf = Ok e /\
        equation_text (g_m omega) (g_n omega) fully linked_ unlinked_ (render_equation (g_rank omega) e))).
Proof.
  intros Hso Hson Hcc HH Hg Hr. destruct (equation_terms_ok so omega H cc S ground rf Hso Hcc) as (l & a & b & c & E & Es & T).
  exists a, b, c. split; [exact T|]. unfold generate_cc_latex_equations. rewrite E. cbn [bind]. rewrite Es. cbn [bind].
  rewrite Hg in *. eapply equation_ok; eauto.
Qed.

(** ** Left hand sides *)
Fixpoint left_letters (k : nat) (g : list (nat * nat)) : list (list ascii * list ascii) :=
  match g with
  | [] => []
  | (a, b) :: r => (ProofsFullCCLabels.slice SL k a, ProofsFullCCLabels.slice SL (k + a) b) :: left_letters (k + a + b) r
  end.

Lemma label_group_letters g : forall k, map render_amp (label_group k g) = map pair_text (left_letters k g).
Proof.
  induction g as [|[a b] g IH]; intros k; [reflexivity|]. cbn [label_group left_letters map fst snd]. rewrite IH. f_equal.
  unfold render_amp, pair_text. cbn [fst snd]. rewrite !sslice_of_chars. reflexivity.
Qed.

Definition pairs_total (g : list (nat * nat)) : nat := list_sum (map (fun ab => fst ab + snd ab) g).

Lemma left_letters_labelled g : forall k, k + pairs_total g <= 10 ->
  Forall2 (fun ab x => List.length (fst x) = fst ab /\ List.length (snd x) = snd ab) g (left_letters k g) /\
  flat_map (fun x => fst x ++ snd x)%list (left_letters k g) = ProofsFullCCLabels.slice SL k (pairs_total g).
Proof.
  unfold pairs_total, list_sum. induction g as [|[a b] g IH]; intros k Hk; cbn [map fold_right fst snd] in Hk.
  - split; [constructor|reflexivity].
  - destruct (IH (k + a + b)) as [I1 I2]; [lia|]. cbn [left_letters flat_map fst snd map fold_right]. split.
    + constructor; [|exact I1]. cbn [fst snd]. rewrite !slice_length; [auto|change (List.length SL) with 10; lia..].
    + rewrite I2, <- app_assoc, !slice_app. f_equal. lia.
Qed.

Lemma derivatives_text pre xs : forall (g : list amp), map render_amp g = map pair_text xs ->
  map (fun i => match skipn i g with [] => "" | d :: r => pre ++ concat_str (map render_amp (firstn i g)) ++ "\dv{" ++ render_amp d ++ "}{\tau}" ++ concat_str (map render_amp r) end)
    (range 0 (List.length g)) = derivative_texts pre xs.
Proof.
  revert pre. induction xs as [|x xs IH]; intros pre g E.
  - destruct g; [reflexivity|discriminate].
  - destruct g as [|a g]; [discriminate|]. cbn [map] in E.
    assert (E1 : render_amp a = pair_text x) by exact (f_equal (fun l => hd "" l) E).
    assert (E2 : map render_amp g = map pair_text xs) by exact (f_equal (@tl string) E).
    cbn [derivative_texts]. rewrite <- (IH (pre ++ pair_text x) g E2).
    unfold range. cbn [List.length]. rewrite !Nat.sub_0_r. cbn [seq map skipn firstn].
    change (concat_str []) with "". cbn [append]. rewrite E1, E2. unfold product_text. rewrite concat_empty_sep. f_equal.
    rewrite <- seq_shift, map_map. apply map_ext. intros i. cbn [skipn firstn map]. destruct (skipn i g); [reflexivity|].
    change (concat_str (render_amp a :: map render_amp (firstn i g))) with (render_amp a ++ concat_str (map render_amp (firstn i g))).
    now rewrite E1, !append_assoc.
Qed.

Lemma derivatives_render (g : list amp) :
  map render_lhs_term (derivatives g)
  = map (fun i => match skipn i g with [] => "" | d :: r => "" ++ concat_str (map render_amp (firstn i g)) ++ "\dv{" ++ render_amp d ++ "}{\tau}" ++ concat_str (map render_amp r) end)
    (range 0 (List.length g)).
Proof.
  unfold derivatives. assert (R : forall i, In i (range 0 (List.length g)) -> i < List.length g).
  { intros i Hi. unfold range in Hi. apply in_seq in Hi. lia. }
  induction (range 0 (List.length g)) as [|i is IH]; [reflexivity|]. cbn [flat_map map]. rewrite map_app, IH by (intros; apply R; now right).
  specialize (R i (or_introl eq_refl)). destruct (skipn i g) eqn:E; [|reflexivity].
  exfalso. apply (f_equal (@List.length amp)) in E. rewrite skipn_length in E. cbn in E. lia.
Qed.

Lemma contributes_total m n g : contributes m n g -> pairs_total g = m + n.
Proof.
  intros (_ & _ & A & B). rewrite <- A, <- B. unfold pairs_total, list_sum. clear. induction g as [|[a b] g IH]; [reflexivity|].
  cbn [map fold_right fst snd]. rewrite IH. lia.
Qed.

Lemma flat_map_map {A B C} (f : B -> C) (g : A -> list B) l : map f (flat_map g l) = flat_map (fun x => map f (g x)) l.
Proof. induction l as [|x l IH]; [reflexivity|]. cbn. now rewrite map_app, IH. Qed.

Theorem latex_left sop omega : set_order sop -> g_m omega + g_n omega <= 10 ->
  lhs_text (g_m omega) (g_n omega) (render_left (generate_left_hand_side sop omega)).
Proof.
  intros Hso Hr. unfold lhs_text. destruct (g_m omega + g_n omega) as [|r] eqn:E.
  - unfold generate_left_hand_side, left_groups, generate_t_terms_group. cbn [fst snd].
    replace (g_n omega + g_m omega) with 0 by lia. reflexivity.
  - destruct (t_terms_group_exact sop (g_n omega) (g_m omega) Hso) as (gs & Eg & N & I & So).
    { intros X. injection X as X1 X2. lia. }
    unfold generate_left_hand_side, left_groups. rewrite Eg.
    exists gs, (map (left_letters 0) gs). split; [exact N|]. split; [exact I|]. split; [exact So|]. split.
    + assert (T : forall g, In g gs -> pairs_total g <= 10).
      { intros g Hg. apply I in Hg as [Hg _]. apply contributes_total in Hg. lia. }
      clear - T. induction gs as [|g gs IH]; [constructor|]. cbn [map]. constructor; [|apply IH; intros; apply T; now right].
      destruct (left_letters_labelled g 0) as [L1 L2]; [apply T; now left|]. split; [exact L1|]. now exists (pairs_total g).
    + cbn [render_left]. f_equal. f_equal. rewrite join_concat. f_equal.
      rewrite map_app, flat_map_map. f_equal.
      * rewrite !flat_map_concat_map, !map_map. f_equal. apply map_ext. intros g.
        rewrite derivatives_render. apply derivatives_text. apply label_group_letters.
      * rewrite !map_map. apply map_ext. intros g. cbn [render_lhs_term]. unfold epsilon_text, product_text.
        now rewrite label_group_letters, concat_empty_sep.
Qed.

(** ** The file *)
Lemma slice_cons (k n : nat) : k + S n <= 10 -> exists c, ProofsFullCCLabels.slice SL k (S n) = c :: ProofsFullCCLabels.slice SL (S k) n /\ sslice k (k + 1) summation_indices = String c "".
Proof.
  intros Hk. rewrite sslice_of_chars. change (chars summation_indices) with SL.
  assert (L : List.length (ProofsFullCCLabels.slice SL k 1) = 1) by (apply slice_length; change (List.length SL) with 10; lia).
  destruct (ProofsFullCCLabels.slice SL k 1) as [|c [|]] eqn:E; try discriminate. exists c. split; [|reflexivity].
  change (S n) with (1 + n). rewrite <- slice_app, E. now rewrite Nat.add_1_r.
Qed.

Lemma omega_letters_down n : forall k, k + n <= 10 -> omega_letters k (of_chars (repeat "b"%char n))
  = String.concat "" (map (fun c => "\down{" ++ String c "}") (ProofsFullCCLabels.slice SL k n)).
Proof.
  induction n as [|n IH]; intros k Hk; [reflexivity|]. destruct (slice_cons k n Hk) as (c & E1 & E2).
  rewrite E1. cbn [repeat]. change (of_chars ("b"%char :: repeat "b"%char n)) with (String "b"%char (of_chars (repeat "b"%char n))).
  cbn [omega_letters Ascii.eqb Bool.eqb]. rewrite E2, IH by lia. rewrite !concat_empty_sep. reflexivity.
Qed.
Lemma omega_letters_up m n : forall k, k + m + n <= 10 -> omega_letters k (of_chars (repeat "d"%char m ++ repeat "b"%char n))
  = String.concat "" (map (fun c => "\up{" ++ String c "}") (ProofsFullCCLabels.slice SL k m))
    ++ String.concat "" (map (fun c => "\down{" ++ String c "}") (ProofsFullCCLabels.slice SL (k + m) n)).
Proof.
  induction m as [|m IH]; intros k Hk.
  - cbn [repeat app]. rewrite Nat.add_0_r. apply omega_letters_down. lia.
  - destruct (slice_cons k m ltac:(lia)) as (c & E1 & E2). rewrite E1. cbn [repeat app].
    change (of_chars ("d"%char :: repeat "d"%char m ++ repeat "b"%char n)%list) with (String "d"%char (of_chars (repeat "d"%char m ++ repeat "b"%char n)%list)).
    cbn [omega_letters Ascii.eqb Bool.eqb]. rewrite E2, IH by lia. rewrite Nat.add_succ_comm. rewrite !concat_empty_sep. cbn [map].
    match goal with |- context [concat_str (?a :: ?b)] => change (concat_str (a :: b)) with (a ++ concat_str b) end. now rewrite !append_assoc.
Qed.

Lemma align_ok om on name r lhs rhs : spells name om on -> om + on <= 8 ->
  wrap_align_environment (mkgop name r om on) lhs rhs = align_text om on lhs rhs.
Proof.
  intros Sp Hr. unfold wrap_align_environment, align_text. cbn [g_name]. unfold spells in Sp.
  assert (E : (if omega_letters 0 name =? "" then "1" else omega_letters 0 name) = omega_text om on).
  { rewrite <- (of_chars_chars name). change (chars name) with (list_ascii_of_string name). rewrite Sp. rewrite omega_letters_up by lia.
    unfold omega_text. destruct om as [|om]; [destruct on as [|on]; [reflexivity|]|].
    - destruct (slice_cons 0 on ltac:(lia)) as (c & E1 & E2). cbn [Nat.add].
      change (ProofsFullCCLabels.slice SL 0 0) with (@nil ascii). cbn [map]. change (String.concat "" []) with "". cbn [append].
      change (letters_from summed_letters 0 (S on)) with (ProofsFullCCLabels.slice SL 0 (S on)).
      change (letters_from summed_letters 0 0) with (@nil ascii). cbn [map]. change (String.concat "" []) with "". cbn [append].
      rewrite E1, concat_empty_sep. reflexivity.
    - destruct (slice_cons 0 om ltac:(lia)) as (c & E1 & E2). cbn [Nat.add].
      change (letters_from summed_letters 0 (S om)) with (ProofsFullCCLabels.slice SL 0 (S om)).
      change (letters_from summed_letters (S om) on) with (ProofsFullCCLabels.slice SL (S om) on).
      rewrite E1, !concat_empty_sep. reflexivity. }
  rewrite E. reflexivity.
Qed.

Lemma mapM_err_only {A B} (f : A -> res B) e l : (forall x, In x l -> (exists y, f x = Ok y) \/ f x = Err e) ->
  (exists x, In x l /\ f x = Err e) -> mapM f l = Err e.
Proof.
  induction l as [|x l IH]; intros Hx (y & Hy & Ey); [easy|]. cbn [mapM].
  destruct (Hx x (or_introl eq_refl)) as [[z Ez]|Ez]; rewrite Ez; cbn [bind]; [|reflexivity].
  destruct Hy as [->|Hy]; [congruence|]. rewrite IH; [reflexivity| |eauto]. intros; apply Hx; now right.
Qed.

Section File.
  Variable so : list (list tamp) -> list (list tamp).
  Hypothesis Hso : set_order so.
  Variable son : list nat -> list nat.
  Hypothesis Hson : set_order son.
  Variable sop : list (list (nat * nat)) -> list (list (nat * nat)).
  Hypothesis Hsop : set_order sop.
  Variables H cc S : nat.
  Variables ground rf : bool.
  Hypothesis Hcc : 1 <= cc <= 6.
  Hypothesis HH : H <= 10.

  Definition one_equation (omega : gop) : res (gop * option (list lhs_term) * equation) :=
    do e <- generate_cc_latex_equations so son omega H cc S ground rf;
    do _ <- py_nth rank_names (g_rank omega);
    Ok (omega, generate_left_hand_side sop omega, e).

  Definition fine_equation (omega : gop) (r : gop * option (list lhs_term) * equation) : Prop :=
    exists e fully linked_ unlinked_, r = (omega, generate_left_hand_side sop omega, e) /\
      equation_terms (g_m omega) (g_n omega) H cc S ground rf fully linked_ unlinked_ /\
      equation_text (g_m omega) (g_n omega) fully linked_ unlinked_ (render_equation (g_rank omega) e).

  Lemma rank_name_ok r : r <= 8 -> exists s, py_nth rank_names r = Ok s.
  Proof. intros Hr. do 9 (destruct r as [|r]; [eexists; reflexivity|]). lia. Qed.

  Lemma one_equation_ok P omega : projection cc P omega ->
    (g_rank omega <= 3 /\ exists r, one_equation omega = Ok r /\ fine_equation omega r) \/
    (4 <= g_rank omega /\ ((exists r, one_equation omega = Ok r) \/ one_equation omega = Err NotImplementedErr)).
  Proof.
    intros (Sp & R & L & _).
    destruct (latex_equation so son omega H cc S ground rf Hso Hson ltac:(lia) HH R ltac:(lia)) as (a & b & c & T & X).
    destruct (rank_name_ok (g_rank omega)) as [nm Enm]; [lia|]. unfold one_equation.
    destruct (Nat.leb_spec (g_rank omega) 3) as [R3|R3].
    - left. split; [exact R3|]. destruct X as [(_ & ? & _)|(_ & e & E & Tx)]; [lia|]. rewrite E. cbn [bind]. rewrite Enm. cbn [bind].
      eexists. split; [reflexivity|]. now exists e, a, b, c.
    - right. split; [lia|]. destruct X as [(_ & _ & E)|(_ & e & E & Tx)]; rewrite E; cbn [bind]; [now right|left].
      rewrite Enm. cbn [bind]. eexists; reflexivity.
  Qed.

  Lemma render_sections : forall os rs p, Forall2 fine_equation os rs ->
    (forall o, In o os -> spells (g_name o) (g_m o) (g_n o) /\ g_rank o = g_m o + g_n o /\ g_rank o <= 8) ->
    sections H cc S ground rf p os (render_equations p rs).
  Proof.
    intros os rs p F. revert p. induction F as [|o r os rs Ho F IH]; intros p G; [constructor|].
    destruct Ho as (e & a & b & c & -> & T & Tx). destruct (G o (or_introl eq_refl)) as (Sp & R & R8).
    cbn [render_equations].
    assert (EQ : forall rest, "%" ++ nl ++ "%" ++ nl ++ "%" ++ nl ++ "%" ++ nl ++ "%" ++ nl ++ nl
        ++ (if Nat.ltb p (g_rank o) then
              (if Nat.leb 2 (g_rank o) then "\newpage" ++ nl else "")
              ++ "\subsection{" ++ nth (g_rank o) rank_names "" ++ " Equations}" ++ nl ++ nl
            else "")
        ++ wrap_align_environment o (render_left (generate_left_hand_side sop o)) (render_equation (g_rank o) e) ++ rest
      = comment_lines ++ (if Nat.ltb p (g_rank o) then heading_text (g_rank o) else "")
       ++ align_text (g_m o) (g_n o) (render_left (generate_left_hand_side sop o)) (render_equation (g_rank o) e) ++ rest).
    { intros rest.
      assert (EH : (if Nat.ltb p (g_rank o) then
              (if Nat.leb 2 (g_rank o) then "\newpage" ++ nl else "")
              ++ "\subsection{" ++ nth (g_rank o) rank_names "" ++ " Equations}" ++ nl ++ nl
            else "") = if Nat.ltb p (g_rank o) then heading_text (g_rank o) else "").
      { destruct (Nat.ltb p (g_rank o)); [|reflexivity]. unfold heading_text. destruct (g_rank o) as [|[|k]]; reflexivity. }
      rewrite EH. replace (wrap_align_environment o (render_left (generate_left_hand_side sop o)) (render_equation (g_rank o) e))
        with (align_text (g_m o) (g_n o) (render_left (generate_left_hand_side sop o)) (render_equation (g_rank o) e)).
      - reflexivity.
      - destruct o as [nm rk m n]. cbn [g_m g_n g_rank g_name] in *. symmetry. apply align_ok; [exact Sp|lia]. }
    rewrite EQ. eapply sections_next; eauto.
    - apply latex_left; [exact Hsop|lia].
    - apply IH. intros; apply G; now right.
  Qed.

  Lemma first_rank P : exists o r, generate_omega_operator cc P = o :: r /\ g_rank o = 0.
  Proof.
    destruct (projections_exact cc P) as (_ & I & So).
    assert (X : In (mkgop "" 0 0 0) (generate_omega_operator cc P)) by (apply I; repeat split; cbn; lia).
    destruct (generate_omega_operator cc P) as [|o r]; [easy|]. exists o, r. split; [reflexivity|].
    destruct X as [->|X]; [reflexivity|]. inversion So as [|? ? _ F]; subst. rewrite Forall_forall in F. specialize (F _ X). cbn in F. lia.
  Qed.

  Lemma file_ok P : cc <= 3 \/ P <= 3 ->
    exists text, generate_full_cc_latex so son sop H cc S P ground rf = Ok text /\ latex_text H cc S P ground rf text.
  Proof.
    intros H3. destruct (projections_exact cc P) as (N & I & So).
    assert (X : exists rs, mapM one_equation (generate_omega_operator cc P) = Ok rs /\ Forall2 fine_equation (generate_omega_operator cc P) rs).
    { assert (Y : forall o, In o (generate_omega_operator cc P) -> exists r, one_equation o = Ok r /\ fine_equation o r).
      { intros o Ho. apply I in Ho. destruct (one_equation_ok P o Ho) as [[_ Z]|[Z _]]; [exact Z|]. destruct Ho as (_ & _ & ? & ?). lia. }
      clear - Y. induction (generate_omega_operator cc P) as [|o os IH]; [exists []; split; [reflexivity|constructor]|].
      destruct (Y o) as (r & E & Fr); [now left|]. destruct IH as (rs & Es & Frs); [intros; apply Y; now right|].
      exists (r :: rs). cbn [mapM]. rewrite E. cbn [bind]. rewrite Es. split; [reflexivity|now constructor]. }
    destruct X as (rs & E & F). unfold generate_full_cc_latex, latex_equations. fold one_equation.
    change (mapM _ (generate_omega_operator cc P)) with (mapM one_equation (generate_omega_operator cc P)). rewrite E. cbn [bind].
    eexists. split; [reflexivity|]. exists (generate_omega_operator cc P), (render_equations 0 rs).
    split; [exact N|]. split; [exact I|]. split; [exact So|]. split.
    - apply render_sections; [exact F|]. intros o Ho. apply I in Ho as (Sp & R & ? & ?). repeat split; auto. lia.
    - f_equal. destruct (first_rank P) as (o & r & Ef & E0). rewrite Ef in F. inversion F as [|? y ? ys Fy Fys]; subst.
      destruct Fy as (e & a & b & c & -> & _). cbn [render_equations]. rewrite E0. reflexivity.
  Qed.

  Lemma rank4_refused P : 4 <= cc -> 4 <= P -> 1 <= H -> 1 <= S ->
    generate_full_cc_latex so son sop H cc S P ground rf = Err NotImplementedErr.
  Proof.
    intros H4 P4 H1 S1. destruct (projections_exact cc P) as (N & I & So).
    unfold generate_full_cc_latex, latex_equations.
    change (mapM _ (generate_omega_operator cc P)) with (mapM one_equation (generate_omega_operator cc P)).
    rewrite (mapM_err_only one_equation NotImplementedErr); [reflexivity| |].
    - intros o Ho. apply I in Ho. destruct (one_equation_ok P o Ho) as [[_ (r & E & _)]|[_ [(r & E)|E]]]; eauto.
    - set (o := mkgop "bbbb" 4 0 4). exists o. split; [apply I; repeat split; cbn; lia|].
      destruct (latex_equation so son o H cc S ground rf Hso Hson ltac:(lia) HH ltac:(reflexivity) ltac:(cbn; lia)) as (a & b & c & T & X).
      unfold one_equation. destruct X as [(_ & _ & E)|([Eb|Er] & _)].
      { rewrite E. reflexivity. }
      2:{ change (4 <= 3) in Er. lia. }
      exfalso. destruct T as (_ & TI & TG). cbn [g_m g_n o] in TI, TG.
      assert (R : requested 0 4 H cc S ground rf 1 0 [mkt 0 0 3 0] 0 1).
      { split; [lia|]. split; [cbn; lia|]. split.
        - constructor; [|constructor]. unfold amplitude, up, down. cbn. split; [lia|auto].
        - split; [|auto]. unfold contraction. cbn. lia. }
      set (t := (mkco 4 0 4 0 1 [0] [3], mkch 1 1 0 1 0 [0] [0], [mkt 0 0 3 0]) : term).
      assert (D : describes 0 4 1 0 [mkt 0 0 3 0] 0 1 t) by reflexivity.
      assert (Ht : In t (a ++ b ++ c)%list).
      { apply TI. exists 1, 0, [mkt 0 0 3 0], 0, 1. split; [exact R|]. split; [|exact D]. repeat constructor. }
      destruct (TG t _ _ _ _ _ R D) as (G1 & G2 & G3). rewrite Eb in Ht. cbn [app] in Ht.
      apply in_app_iff in Ht as [Ht|Ht].
      + apply G1 in Ht. inversion Ht as [|? ? Hd _]. apply Hd. split; reflexivity.
      + apply G3 in Ht as (u & [<-|[]] & _ & [Tp _]). cbn in Tp. lia.
  Qed.
End File.

Theorem latex_file so son sop d H cc S P ground rf :
  set_order so -> set_order son -> set_order sop ->
  is_dict d -> acceptable Fcc d ->
  has_value d KH (Z.of_nat H) -> has_value d KCC (Z.of_nat cc) ->
  has_value d KS (Z.of_nat S) -> has_value d KP (Z.of_nat P) ->
  (cc <= 3 \/ P <= 3 -> exists text, generate_full_cc_latex so son sop H cc S P ground rf = Ok text /\
                          latex_text H cc S P ground rf text) /\
  (4 <= cc -> 4 <= P -> generate_full_cc_latex so son sop H cc S P ground rf = Err NotImplementedErr).
Proof.
  intros H1 H2 H3 Hd A VH VC VS VP.
  assert (B1 := dict_bound Fcc d KH 6%Z H Hd A ltac:(cbn; auto) VH).
  assert (B2 := dict_bound Fcc d KCC 6%Z cc Hd A ltac:(cbn; auto) VC).
  assert (B3 := dict_bound Fcc d KS 6%Z S Hd A ltac:(cbn; auto) VS).
  split; [intros; apply file_ok; auto; lia|]. intros. apply rank4_refused; auto; lia.
Qed.
