(** The documents of the e^T ansatz are processed. *)
From Coq Require Import List Ascii String Bool Arith Lia.
From Verif Require Import PyBase ModelFullCC ModelEt SpecFullCC SpecPrefactor SpecLatexW SpecFullCCLatex SpecZhz SpecEt SpecEtLatex ModelHeaders.
From Verif Require Import ModelTrunc ProofsTrunc SpecTex SpecTexDoc ProofsTex ProofsTexW ProofsTexDoc ProofsTexFullCC ProofsTexZ.
Import ListNotations.
Open Scope string_scope.

Local Notation J := (J z_env).
Local Notation JT := (JT z_env).

(** ** Operators *)
Lemma J_in_z k i c : J inline (in_z_text k i) inline c c.
Proof. unfold in_z_text. destruct (with_z k i); [apply J_summed|apply J_nil]. Qed.
Lemma J_in_h k i c : J inline (in_h_text k i) inline c c.
Proof. unfold in_h_text. destruct (with_z k i); [apply J_nil|apply J_summed]. Qed.

Lemma J_each k f : (forall i, J inline (f i) inline M M /\ first_letter (f i) = false) -> J inline (each_t k f) inline M M /\ first_letter (each_t k f) = false.
Proof.
  intros H. unfold each_t. split.
  - apply J_concat_nil, Forall_map, Forall_forall. auto.
  - apply first_letter_concat; [reflexivity|]. apply Forall_map, Forall_forall. intros i _. apply H.
Qed.

Lemma J_t s k i : J anywhere (eT_t_text true s k i) inline M M /\ first_letter (eT_t_text true s k i) = false.
Proof.
  unfold eT_t_text. split; [|apply operator_first; destruct s; cbn; auto].
  apply J_operator; [destruct s; cbn; auto|apply J_nil|].
  eapply J_app; [lit| |joint]. eapply J_app; [apply J_in_h| |joint]. eapply J_app; [lit| |joint].
  eapply J_app; [apply J_in_z|lit_to|joint].
Qed.
Lemma J_ts s k : J anywhere (eT_ts_text true s k) inline M M /\ first_letter (eT_ts_text true s k) = false.
Proof.
  unfold eT_ts_text. destruct (k_t k) as [|n] eqn:E; [split; [lit_to|reflexivity]|].
  unfold each_t. rewrite E. cbn [seq map]. split.
  - assert (X : forall l, Forall (fun x => J inline x inline M M /\ first_letter x = false) l -> forall y, J anywhere y inline M M ->
        J anywhere (String.concat "" (y :: l)) inline M M).
    { intros l F y Y. destruct l as [|x l]; [exact Y|].
      change (String.concat "" (y :: x :: l)) with (y ++ String.concat "" (x :: l)).
      eapply J_app; [exact Y|apply J_concat_nil, F|]. intros _. apply first_letter_concat; [reflexivity|].
      eapply Forall_impl; [|exact F]. now intros ? []. }
    apply X; [|apply J_t]. apply Forall_map, Forall_forall. intros i _. split; [apply J_any_inline|]; apply J_t.
  - apply first_letter_concat; [reflexivity|]. constructor; [apply J_t|]. apply Forall_map, Forall_forall. intros i _. apply J_t.
Qed.

Lemma J_h_up k : J inline (eT_h_up k) inline M M.
Proof.
  unfold eT_h_up. destruct (k_up k); [apply J_nil|].
  eapply J_app; [apply J_each| |intros _; reflexivity].
  - intros i. split; [apply J_colour; [cbn; auto|apply J_in_h]|reflexivity].
  - eapply J_app; [lit| |joint]. eapply J_app; [apply J_free|lit_to|joint].
Qed.
Lemma J_h_down k : J inline (eT_h_down k) inline M M.
Proof.
  unfold eT_h_down. destruct (k_down k); [apply J_nil|].
  eapply J_app; [lit| |joint]. eapply J_app; [apply J_summed|lit_to|joint].
Qed.
Lemma J_z_up k : J inline (eT_z_up k) inline M M.
Proof.
  unfold eT_z_up. destruct (k_z k); [apply J_nil|].
  assert (X : J inline ("\red{" ++ free (k_hp k) (k_zp k) ++ "}") inline M M) by (apply J_colour; [cbn; auto|apply J_free]).
  eapply J_app; [apply J_each| |].
  - intros i. split; [apply J_colour; [cbn; auto|apply J_in_z]|reflexivity].
  - eapply J_app with (E := inline) (c2 := M); [|exact X|intros _; reflexivity].
    destruct (k_zh k); [apply J_nil|]. apply J_colour; [cbn; auto|apply J_summed].
  - intros _. apply first_letter_app; [destruct (k_zh k); reflexivity|reflexivity].
Qed.

Lemma J_derivative x : J anywhere x inline M M -> J anywhere (eT_derivative x) inline M M.
Proof.
  intros X. apply J_any_inline in X. unfold eT_derivative. eapply J_app; [lit| |joint]. inner X. lit_to.
Qed.

Lemma J_h s k : J anywhere (eT_h_text true s k) inline M M /\ first_letter (eT_h_text true s k) = false.
Proof.
  unfold eT_h_text. destruct s.
  - destruct (k_up k + k_down k); [split; [lit_to|reflexivity]|]. split; [|reflexivity]. apply J_derivative, J_operator; [cbn; auto|apply J_h_up|apply J_h_down].
  - split; [|apply operator_first; cbn; auto]. apply J_operator; [cbn; auto|apply J_h_up|apply J_h_down].
Qed.
Lemma J_z s k : J anywhere (eT_z_text true s k) inline M M /\ first_letter (eT_z_text true s k) = false.
Proof.
  assert (X : J anywhere (operator_text true "\bz" (k_z k) 0 (eT_z_up k) "") inline M M) by (apply J_operator; [cbn; auto|apply J_z_up|apply J_nil]).
  assert (F : first_letter (operator_text true "\bz" (k_z k) 0 (eT_z_up k) "") = false) by (apply operator_first; cbn; auto).
  unfold eT_z_text. cbv zeta. destruct s; [destruct (k_up k + k_down k)|]; auto. split; [now apply J_derivative|reflexivity].
Qed.

Lemma J_eT_term s k text : eT_term_text true s k text -> good text.
Proof.
  intros (pre & P & ->). apply J_eT_one_over in P as [Jp Fp]. destruct (J_ts s k) as [J1 F1]. destruct (J_h s k) as [J2 F2]. destruct (J_z s k) as [J3 F3].
  unfold good. eapply J_app; [apply J_power; auto| |].
  - eapply J_app; [exact Jp| |intros _; repeat (apply first_letter_app; [assumption|]); assumption].
    eapply J_app; [exact J1| |intros _; apply first_letter_app; assumption].
    eapply J_app; [apply J_any_inline, J2|apply J_any_inline, J3|intros _; assumption].
  - intros _. repeat (apply first_letter_app; [assumption|]); assumption.
Qed.

(** ** Equations *)
Lemma J_eT_sum ss text : Forall good ss -> eT_sum_text 4 ss text -> J inline text anywhere Sp Sp.
Proof.
  intros F [[_ ->]|(L & full & rest & -> & Ff & Lr & ->)].
  - apply J_inline_any, J_any_inline, J_lift, J_sum, F.
  - eapply J_app with (E := line_start) (c2 := Sp); [lit_to| |joint].
    eapply J_app with (E := inline) (c2 := Sp); [|lit_to|intros _; reflexivity].
    apply J_start. eapply J_concat with (S1 := line_start); [lit_to|reflexivity|reflexivity|discriminate|exact incl_start| |].
    + apply Forall_app in F as [F1 F2]. apply Forall_map. apply Forall_app. split.
      * rewrite Forall_forall in *. intros l Hl. apply J_lift, J_join; [|intros ->; specialize (Ff _ Hl); discriminate].
        apply Forall_forall. intros x Hx. apply F1, in_concat. eauto.
      * destruct rest as [|r rest]; [constructor|]. constructor; [|constructor]. apply J_lift, J_join; [exact F2|discriminate].
    + destruct full; [|discriminate]. destruct rest; [cbn in L; lia|discriminate].
Qed.

Lemma J_eT_equation s P H cc e text : eT_equation_text s P H cc e text -> J anywhere text inline Sp Sp.
Proof.
  intros (ks & ss & sum & _ & _ & F & _ & T & ->).
  assert (G : Forall good ss) by (clear - F; induction F; constructor; [eapply J_eT_term; eassumption|assumption]).
  apply J_eT_sum in T; [|exact G].
  assert (X : J anywhere ("\\&+\sum\Big(" ++ sum ++ "\Big)") inline Sp Sp).
  { eapply J_app with (E := inline) (c2 := Sp); [lit_to| |joint]. eapply J_app; [exact T|lit_to|intros _; reflexivity]. }
  destruct s.
  - exact X.
  - assert (Y : forall y, "\\&+\sum\Big(" ++ sum ++ "\Big)" ++ y = ("\\&+\sum\Big(" ++ sum ++ "\Big)") ++ y) by (intros y; rewrite !append_assoc_s; reflexivity).
    rewrite Y.
    eapply J_app; [apply J_lift, J_h_alone| |intros _; reflexivity].
    eapply J_app; [apply J_any_inline, X|apply J_dts|intros _; reflexivity].
Qed.

(** ** The file *)
Lemma JT_eT_align s P eqn : J anywhere eqn inline Sp Sp -> JT line_start (eT_align_text s P eqn) line_start D D.
Proof.
  intros X. assert (Y : JT line_start (eqn ++ (newline ++ "\end{split}\end{align}" ++ newline ++ newline)) line_start (Math, Env "split" Math true :: Al) D).
  { eapply JT_app with (E := inline) (c2 := (Math, Env "split" Math true :: Al));
      [apply (J_at _ _ _ _ Sp Sp Al); [apply J_start, X|reflexivity|reflexivity]|whole|intros _; reflexivity]. }
  unfold eT_align_text. destruct s.
  - change (JT line_start (("\begin{align}\begin{split}" ++ newline ++ "LHS &=" ++ newline ++ "%" ++ newline ++ "%" ++ newline)
      ++ (eqn ++ (newline ++ "\end{split}\end{align}" ++ newline ++ newline))) line_start D D).
    eapply JT_app; [|exact Y|joint]. whole.
  - replace (("    i\Big(\dv{\hat{\bz}^{" ++ letters 0 P ++ "}_{\gamma}}{\tau}\Big)" ++ newline ++ "\\ RHS &=" ++ newline)
      ++ ("%" ++ newline ++ "%" ++ newline ++ eqn ++ newline ++ "\end{split}\end{align}" ++ newline ++ newline))
      with ("    i\Big(\dv{\hat{\bz}^{" ++ (letters 0 P ++ (("}_{\gamma}}{\tau}\Big)" ++ newline ++ "\\ RHS &=" ++ newline ++ "%" ++ newline ++ "%" ++ newline)
        ++ (eqn ++ (newline ++ "\end{split}\end{align}" ++ newline ++ newline)))))
      by (rewrite !append_assoc_s; reflexivity).
    change (JT line_start (("\begin{align}\begin{split}" ++ newline ++ "LHS &=" ++ newline ++ "    i\Big(\dv{\hat{\bz}^{") ++ (letters 0 P
      ++ (("}_{\gamma}}{\tau}\Big)" ++ newline ++ "\\ RHS &=" ++ newline ++ "%" ++ newline ++ "%" ++ newline)
      ++ (eqn ++ (newline ++ "\end{split}\end{align}" ++ newline ++ newline))))) line_start D D).
    pose (B := snd (after z_env "i\Big(\dv{\hat{\bz}^{" M)).
    eapply JT_app with (E := inline) (c2 := (Math, B ++ Env "split" Math true :: Al)%list); [whole| |joint].
    eapply JT_app with (E := inline) (c2 := (Math, B ++ Env "split" Math true :: Al)%list);
      [apply (J_at _ _ _ _ M M (B ++ Env "split" Math true :: Al)%list); [apply J_summed_letters|reflexivity|reflexivity]| |joint].
    eapply JT_app; [|exact Y|joint]. whole.
Qed.

Lemma JT_eT_section s P eqn : J anywhere eqn inline Sp Sp ->
  JT line_start (eT_section_text s P eqn) line_start D D /\ first_letter (eT_section_text s P eqn) = false.
Proof.
  intros X. split; [|destruct P; reflexivity]. unfold eT_section_text. destruct P as [|P].
  - eapply JT_app with (E := inline) (c2 := D); [whole| |joint].
    eapply JT_app with (E := line_start) (c2 := D); [whole| |joint]. eapply JT_app; [apply JT_t_equation| |intros _; reflexivity].
    eapply JT_app with (E := line_start) (c2 := D); [whole|apply JT_eT_align, X|joint].
  - eapply JT_app; [apply JT_paragraph| |intros _; reflexivity].
    eapply JT_app with (E := line_start) (c2 := D); [whole| |joint]. eapply JT_app; [apply JT_t_equation| |intros _; reflexivity].
    eapply JT_app with (E := line_start) (c2 := D); [whole|apply JT_eT_align, X|joint].
Qed.

Lemma JT_concat l : Forall (fun x => JT line_start x line_start D D /\ first_letter x = false) l ->
  JT line_start (String.concat "" l) line_start D D.
Proof.
  induction 1 as [|s l [H F] Fl IH]; [apply JT_nil|]. destruct l as [|s' l]; [exact H|].
  change (String.concat "" (s :: s' :: l)) with (s ++ String.concat "" (s' :: l)).
  eapply JT_app; [exact H|exact IH|]. intros _. apply first_letter_concat; [reflexivity|].
  eapply Forall_impl; [|exact Fl]. now intros ? [].
Qed.

Lemma eT_processed s H cc P e rf text : eT_latex_text s H cc P e rf text -> processed (ground_state_z_t_symmetric_latex_header ++ text).
Proof.
  intros (eqns & F & ->).
  assert (G : Forall (fun x => JT line_start x line_start D D /\ first_letter x = false)
    (map (fun pe => eT_section_text s (fst pe) (snd pe)) (combine (seq 0 (S (Nat.min cc P))) eqns))).
  { revert F. generalize (seq 0 (S (Nat.min cc P))). intros ps F. induction F as [|p eqn ps eqns Q F IH]; [constructor|].
    cbn [combine map fst snd]. constructor; [|exact IH]. apply JT_eT_section. eapply J_eT_equation; eassumption. }
  apply z_document; [now apply JT_concat|]. apply first_letter_concat; [reflexivity|]. eapply Forall_impl; [|exact G]. now intros ? [].
Qed.
