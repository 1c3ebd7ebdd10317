(** The documents of the z t and e^T ansatz are processed. *)
From Coq Require Import List Ascii String Bool Arith Lia.
From Verif Require Import PyBase ModelFullCC ModelEt SpecFullCC SpecPrefactor SpecLatexW SpecFullCCLatex SpecZhz SpecEt SpecEtLatex ModelHeaders.
From Verif Require Import ModelTrunc ProofsTrunc SpecTex SpecTexDoc ProofsTex ProofsTexW ProofsTexDoc ProofsTexFullCC.
Import ListNotations.
Open Scope string_scope.

Definition z_env : list (string * signature) := Eval vm_compute in
  match preamble kernel (tokens ground_state_z_t_symmetric_latex_header) with Some (env, _) => env | None => [] end.

Local Notation J := (J z_env).
Local Notation JT := (JT z_env).

Ltac inner H := match goal with |- ProofsTexDoc.J _ _ _ _ ?c _ =>
  eapply J_app; [exact (J_under _ _ _ _ _ _ (snd c) H)| |intros _; reflexivity] end.

(** ** Operators with indices *)
Definition names : list string := ["\bz"; "\bh"; "\bt"; "\bs"; "\hat{\bt}"].

Lemma J_scripted tidied name up down : In name names -> J inline up inline M M -> J inline down inline M M ->
  J anywhere (name ++ braces_text tidied "^" up ++ braces_text tidied "_" down) inline M M.
Proof.
  intros N U Dn. unfold braces_text.
  destruct (tidied && String.eqb up "") eqn:E1; destruct (tidied && String.eqb down "") eqn:E2; cbn [append] in *.
  - rewrite append_nil. cbn in N. repeat destruct N as [<-|N]; [..|destruct N]; lit_to.
  - cbn in N. repeat destruct N as [<-|N]; [..|destruct N];
      match goal with |- ProofsTexDoc.J _ _ (?n ++ String ?a (String ?b ?x)) _ _ _ => change (n ++ String a (String b x)) with ((n ++ "_{") ++ x) end;
      (eapply J_app; [lit| |joint]); inner Dn; lit_to.
  - rewrite append_nil. cbn in N. repeat destruct N as [<-|N]; [..|destruct N];
      match goal with |- ProofsTexDoc.J _ _ (?n ++ String ?a (String ?b ?x)) _ _ _ => change (n ++ String a (String b x)) with ((n ++ "^{") ++ x) end;
      (eapply J_app; [lit| |joint]); inner U; lit_to.
  - cbn in N. rewrite append_assoc_s. cbn [append]. repeat destruct N as [<-|N]; [..|destruct N];
      match goal with |- ProofsTexDoc.J _ _ (?n ++ String ?a (String ?b (?x ++ ?y))) _ _ _ =>
        change (n ++ String a (String b (x ++ y))) with ((n ++ "^{") ++ (x ++ y)) end;
      (eapply J_app; [lit| |joint]); inner U;
      match goal with |- ProofsTexDoc.J _ _ (String ?a (String ?b (String ?c ?x))) _ _ _ =>
        change (String a (String b (String c x))) with ("}_{" ++ x) end;
      (eapply J_app; [lit| |joint]); inner Dn; lit_to.
Qed.

Lemma J_operator tidied name m n up down : In name names -> J inline up inline M M -> J inline down inline M M ->
  J anywhere (operator_text tidied name m n up down) inline M M.
Proof.
  intros N U Dn. unfold operator_text. destruct (m + n); [|now apply J_scripted].
  cbn in N. repeat destruct N as [<-|N]; [..|destruct N]; lit_to.
Qed.
Lemma operator_first tidied name m n up down : In name names -> first_letter (operator_text tidied name m n up down) = false.
Proof. intros N. unfold operator_text. cbn in N. destruct (m + n); repeat destruct N as [<-|N]; try reflexivity; destruct N. Qed.

(** ** Letters *)
Definition all_letters : list ascii := (summed_letters ++ inner_letters ++ outer_letters)%list.
Lemma J_letters l c : incl l all_letters -> J inline (string_of_list_ascii l) inline c c.
Proof.
  intros H. apply J_plain_inline. unfold plain. rewrite list_ascii_of_string_of_list_ascii. apply Forall_forall. intros c0 Hc. apply H in Hc.
  revert c0 Hc. apply Forall_forall. vm_compute. repeat constructor.
Qed.
Lemma inner_all k n : incl (letters_from inner_letters k n) all_letters.
Proof. eapply incl_tran; [apply incl_letters_from|]. apply incl_appr, incl_appl, incl_refl. Qed.
Lemma outer_all k n : incl (letters_from outer_letters k n) all_letters.
Proof. eapply incl_tran; [apply incl_letters_from|]. apply incl_appr, incl_appr, incl_refl. Qed.
Lemma ladder_all k n : incl (letters_from summed_letters k n) all_letters.
Proof. eapply incl_tran; [apply incl_letters_from|]. apply incl_appl, incl_refl. Qed.

Lemma J_summed_letters k n c : J inline (letters k n) inline c c.
Proof. apply J_letters, ladder_all. Qed.
Lemma J_summed k n c : J inline (summed k n) inline c c.
Proof. apply J_letters, inner_all. Qed.
Lemma J_free k n c : J inline (free k n) inline c c.
Proof. apply J_letters, outer_all. Qed.

(** A colour around letters. *)
Definition colours : list string := ["\blue{"; "\magenta{"; "\red{"].
Lemma J_colour color s : In color colours -> J inline s inline M M -> J inline (color ++ s ++ "}") inline M M.
Proof.
  intros N H. cbn in N. repeat destruct N as [<-|N]; [..|destruct N]; (eapply J_app; [lit| |joint]); inner H; lit_to.
Qed.
Lemma colour_first color s : In color colours -> first_letter (color ++ s) = false.
Proof. intros N. cbn in N. repeat destruct N as [<-|N]; try reflexivity. destruct N. Qed.

Lemma J_mark color l : In color ["\blue"; "\magenta"; "\red"] -> incl l all_letters ->
  J inline (mark_text color l) inline M M /\ first_letter (mark_text color l) = false.
Proof.
  intros N L. assert (X : In (color ++ "{") colours) by (cbn in *; intuition (subst; cbn; auto)).
  replace (mark_text color l) with ((color ++ "{") ++ string_of_list_ascii l ++ "}").
  - split; [apply J_colour; [exact X|now apply J_letters]|now apply colour_first].
  - cbn in N. repeat destruct N as [<-|N]; try reflexivity. destruct N.
Qed.
Lemma J_z_index n ca cb a b p : In ca [""; "\blue"; "\magenta"] -> In cb ["\blue"] -> incl a all_letters -> incl b all_letters -> incl p all_letters ->
  J inline (z_index_text n ca cb a b p) inline M M.
Proof.
  intros Na Nb A B P. destruct n; [apply J_nil|]. unfold z_index_text.
  destruct (J_mark cb b) as [J1 F1]; [cbn in *; intuition|exact B|]. destruct (J_mark "\red" p) as [J2 F2]; [cbn; auto|exact P|].
  eapply J_app with (E := inline) (c2 := M).
  - destruct Na as [<-|Na]; [now apply J_letters|]. apply J_mark; [cbn in *; intuition|exact A].
  - eapply J_app; [exact J1|exact J2|intros _; exact F2].
  - intros _. now apply first_letter_app.
Qed.

(** ** Prefactors *)
Lemma J_power x k : x = "f" \/ x = "\bar{f}" -> J anywhere (power_text x k) anywhere M M.
Proof.
  intros H. destruct k as [|[|k]]; [apply J_nil| |].
  - destruct H as [->| ->]; apply J_inline_any; lit_to.
  - unfold power_text. apply J_inline_any. destruct H as [->| ->].
    + change ("f" ++ "^{" ++ ?y) with ("f^{" ++ y). eapply J_app; [lit| |joint]. eapply J_app; [apply J_plain_inline, plain_number| |joint]. lit_to.
    + change ("\bar{f}" ++ "^{" ++ ?y) with ("\bar{f}^{" ++ y). eapply J_app; [lit| |joint]. eapply J_app; [apply J_plain_inline, plain_number| |joint]. lit_to.
Qed.
Lemma J_frac a b : plain a -> plain b -> J anywhere ("\frac{" ++ a ++ "}{" ++ b ++ "}") anywhere M M.
Proof.
  intros A B. apply J_inline_any. eapply J_app; [lit| |joint]. eapply J_app; [apply J_plain_inline, A| |joint].
  eapply J_app; [lit| |joint]. eapply J_app; [apply J_plain_inline, B| |joint]. lit_to.
Qed.
Lemma J_one_over d s : one_over d s -> J anywhere s anywhere M M /\ first_letter s = false.
Proof.
  intros (num & den & -> & _). assert (N : forall l, plain (String.concat "*" (map number_text l)) /\ plain (String.concat "" (map number_text l))).
  { intros l. assert (F : Forall plain (map number_text l)).
    { apply Forall_map, Forall_forall. intros [n b] _. apply plain_app; [apply plain_number|]. destruct b; apply plain_literal; reflexivity. }
    split; apply plain_concat; auto; apply plain_literal; reflexivity. }
  destruct num as [|x num], den as [|y den]; (split; [|reflexivity]); [apply J_nil|..]; apply J_frac;
    first [apply N|apply plain_literal; reflexivity].
Qed.
Lemma J_eT_one_over d s : eT_one_over d s -> J anywhere s anywhere M M /\ first_letter s = false.
Proof.
  intros (num & den & -> & _). assert (N : forall l, plain (String.concat "" (map eT_number_text l))).
  { intros l. assert (F : Forall plain (map eT_number_text l)).
    { apply Forall_map, Forall_forall. intros [n b] _. unfold eT_number_text. destruct b; cbn [fst snd].
      - apply plain_app; [apply plain_number|apply plain_literal; reflexivity].
      - apply plain_app; [apply plain_literal; reflexivity|]. apply plain_app; [apply plain_number|apply plain_literal; reflexivity]. }
    apply plain_concat; auto; apply plain_literal; reflexivity. }
  destruct num as [|x num], den as [|y den]; (split; [|reflexivity]); [apply J_nil|..]; apply J_frac;
    first [apply N|apply plain_literal; reflexivity].
Qed.

(** ** Terms of z t *)
Definition good (s : string) : Prop := J anywhere s inline M M.

Lemma J_z_term c s : z_term_text true right_only c s -> good s.
Proof.
  intros (w & pre & L & P & E). cbn [has_left has_right z_loose] in E. subst s.
  destruct L as (_ & _ & _ & _ & _ & _ & _ & _ & _ & _ & _ & _ & L1 & L2).
  assert (A : forall l, incl l (c_lh w ++ c_lr w ++ c_hl w ++ c_rl w ++ c_rh w ++ c_hr w)%list -> incl l all_letters).
  { intros l H. rewrite L1 in H. eapply incl_tran; [exact H|apply inner_all]. }
  assert (B : forall l, incl l (c_lp w ++ c_pl w ++ c_ph w ++ c_hp w ++ c_pr w ++ c_rp w)%list -> incl l all_letters).
  { intros l H. rewrite L2 in H. eapply incl_tran; [exact H|apply outer_all]. }
  assert (Hh : J anywhere (h_text true c w) inline M M /\ first_letter (h_text true c w) = false).
  { split; [|apply operator_first; cbn; auto]. apply J_operator; [cbn; auto| |]; apply J_z_index; try (cbn; auto; fail);
      first [apply A; intros x Hx; rewrite !in_app_iff; tauto|apply B; intros x Hx; rewrite !in_app_iff; tauto]. }
  assert (Hr : J anywhere (right_text true c w) inline M M /\ first_letter (right_text true c w) = false).
  { split; [|apply operator_first; cbn; auto]. apply J_operator; [cbn; auto| |]; apply J_z_index; try (cbn; auto; fail);
      first [apply A; intros x Hx; rewrite !in_app_iff; tauto|apply B; intros x Hx; rewrite !in_app_iff; tauto]. }
  destruct Hh as [Hh Fh]. destruct Hr as [Hr Fr]. apply J_one_over in P as [Hp Fp]. unfold good.
  assert (F0 : first_letter (pre ++ "" ++ h_text true c w ++ right_text true c w) = false)
    by (apply first_letter_app; [exact Fp|]; apply first_letter_app; [reflexivity|]; apply first_letter_app; assumption).
  eapply J_app; [apply J_power; auto| |].
  - eapply J_app; [apply J_power; auto| |intros _; exact F0].
    eapply J_app; [exact Hp| |].
    + eapply J_app; [apply J_nil| |joint]. eapply J_app; [exact Hh|apply J_any_inline, Hr|intros _; exact Fr].
    + intros _. apply first_letter_app; [reflexivity|]. apply first_letter_app; assumption.
  - intros _. apply first_letter_app; [destruct (fbar_pairs c) as [|[|k]]; reflexivity|exact F0].
Qed.

Lemma J_join ss : Forall good ss -> ss <> [] -> J anywhere (String.concat " + " ss) inline M M.
Proof.
  intros F N. eapply J_concat with (S1 := inline); [lit_to|reflexivity|reflexivity|discriminate| |exact F|exact N].
  intros ? [<-|[<-|[]]]; cbn; auto.
Qed.
Lemma J_sum ss : Forall good ss -> good (sum_text ss).
Proof.
  intros F. unfold sum_text, good. eapply J_app with (E := inline) (c2 := M); [lit_to| |joint]. destruct ss as [|s ss].
  - lit_to.
  - eapply J_app; [apply J_any_inline, J_join; [exact F|discriminate]|lit_to|]. joint.
Qed.

Lemma J_h_alone om on : J anywhere (h_alone_text om on) inline M M.
Proof.
  unfold h_alone_text. destruct (om + on); [lit_to|].
  eapply J_app with (E := inline) (c2 := M); [apply J_scripted; [cbn; auto|apply J_summed_letters|apply J_summed_letters]|lit_to|intros _; reflexivity].
Qed.

Lemma J_gamma om on sep : sep = "," \/ sep = ", " -> J inline ((match om with 0 => "" | _ => letters on om ++ sep end) ++ "\gamma") inline M M.
Proof.
  intros Hs. eapply J_app with (E := inline) (c2 := M); [|lit_to|intros _; reflexivity]. destruct om; [apply J_nil|].
  eapply J_app; [apply J_summed_letters| |]; destruct Hs as [->| ->]; try lit_to; intros _; reflexivity.
Qed.

Lemma J_dt_factor om m k : J anywhere ("\hat{\bt}" ++ (match (om + m)%nat with
      | 0 => "_{0, \gamma}"
      | _ => braces_text true "^" (letters 0 m) ++ "_{" ++ (match om with 0 => "" | _ => letters k om ++ ", " end) ++ "\gamma}"
      end)) inline M M.
Proof.
  destruct (om + m); [lit_to|].
  replace ("_{" ++ (match om with 0 => "" | _ => letters k om ++ ", " end) ++ "\gamma}")
    with (braces_text true "_" ((match om with 0 => "" | _ => letters k om ++ ", " end) ++ "\gamma")).
  - apply J_scripted; [cbn; auto 6|apply J_summed_letters|apply J_gamma; auto].
  - unfold braces_text. replace (String.eqb _ "") with false; [|destruct om; [reflexivity|]; destruct (letters k (S om)); reflexivity].
    cbn [andb]. rewrite append_assoc_s. reflexivity.
Qed.

Lemma J_dt om on k : good (dt_z_text om on k).
Proof.
  unfold dt_z_text, good. pose proof (J_dt_factor om (on - k) on) as X. revert X.
  generalize (match (om + (on - k))%nat with
      | 0 => "_{0, \gamma}"
      | _ => braces_text true "^" (letters 0 (on - k)) ++ "_{" ++ (match om with 0 => "" | _ => letters on om ++ ", " end) ++ "\gamma}"
      end) as y. intros y X.
  change (J anywhere ("\dv{" ++ (("\hat{\bt}" ++ y) ++ ("}{\tau}\,\hat{\bz}"
    ++ (match k with 0 => "_{0, \gamma}" | _ => "^{" ++ letters (om + on - k) k ++ "}_{\gamma}" end)))) inline M M).
  eapply J_app; [lit| |joint]. apply J_any_inline in X. inner X. destruct k as [|k]; [lit_to|].
  change ("}{\tau}\,\hat{\bz}" ++ "^{" ++ ?z) with ("}{\tau}\,\hat{\bz}^{" ++ z).
  eapply J_app; [lit| |joint]. eapply J_app; [apply J_summed_letters|lit_to|joint].
Qed.

(** ** Equations *)
Lemma J_lift S0 s E : J S0 s E M M -> J S0 s E Sp Sp.
Proof. intros H. exact (J_under _ _ _ _ _ _ [Env "split" Math true] H). Qed.

Lemma J_dts om on : J inline ("\\&-i\sum\Big(" ++ String.concat " + " (map (dt_z_text om on) (seq 0 (on + 1))) ++ "\Big)") inline Sp Sp.
Proof.
  eapply J_app with (E := inline) (c2 := Sp); [lit_to| |joint].
  eapply J_app with (E := inline) (c2 := Sp); [|lit_to|intros _; reflexivity].
  apply J_any_inline, J_lift, J_join; [apply Forall_map, Forall_forall; intros k _; apply J_dt|]. rewrite Nat.add_1_r. discriminate.
Qed.

Lemma J_z_equation om on H cc text : z_equation_text om on H cc text -> J anywhere text inline Sp Sp.
Proof.
  intros (cs & ss & _ & _ & F & ->).
  assert (G : Forall good ss) by (clear - F; induction F; constructor; [eapply J_z_term; eassumption|assumption]).
  eapply J_app; [apply J_lift, J_h_alone| |intros _; reflexivity].
  eapply J_app with (E := inline) (c2 := Sp); [lit_to| |joint].
  eapply J_app with (E := inline) (c2 := Sp); [|eapply J_app with (E := inline) (c2 := Sp); [lit_to|apply J_dts|joint]|intros _; reflexivity].
  destruct ss; [apply J_nil|]. apply J_any_inline, J_lift, J_sum, G.
Qed.

(** ** Sections *)
Lemma J_ladder cmd l : cmd = "\up{" \/ cmd = "\down{" -> incl l all_letters ->
  J inline (String.concat "" (map (fun c => cmd ++ String c "}") l)) inline M M.
Proof.
  intros Hc L. apply J_concat_nil, Forall_map, Forall_forall. intros c Hin. apply L in Hin. split.
  - apply J_any_inline. revert c Hin. apply Forall_forall.
    destruct Hc as [->| ->]; cbn [app summed_letters inner_letters outer_letters all_letters list_ascii_of_string]; repeat constructor; lit_to.
  - destruct Hc as [->| ->]; reflexivity.
Qed.
Lemma J_omega om on : J inline (omega_text om on) inline M M.
Proof.
  unfold omega_text. destruct (om + on); [lit_to|].
  eapply J_app; [apply J_ladder; [auto|apply ladder_all]|apply J_ladder; [auto|apply ladder_all]|].
  intros _. now apply ladder_first; right.
Qed.

Definition Eq : list frame := [Env "equation" Text false; Env "document" Text false].

Lemma J_t_line om on : J anywhere ("i\dv{\hat{\bt}^{" ++ letters 0 on ++ "}_{" ++ (match om with 0 => "" | _ => letters on om ++ "," end) ++ "\gamma}}{\tau}"
  ++ " = \hat{G}^{" ++ letters 0 on ++ "}_{" ++ (match om with 0 => "" | _ => letters on om ++ ", " end) ++ "\gamma\gamma}") inline M M.
Proof.
  assert (G : forall sep, sep = "," \/ sep = ", " -> J inline (match om with 0 => "" | _ => letters on om ++ sep end) inline M M).
  { intros sep Hs. destruct om; [apply J_nil|]. eapply J_app; [apply J_summed_letters| |]; destruct Hs as [->| ->]; try lit_to; joint. }
  eapply J_app; [lit| |joint]. eapply J_app; [apply J_summed_letters| |joint]. eapply J_app; [lit| |joint].
  inner (G "," (or_introl eq_refl)).
  change ("\gamma}}{\tau}" ++ " = \hat{G}^{" ++ ?x) with ("\gamma}}{\tau} = \hat{G}^{" ++ x).
  eapply J_app; [lit| |joint]. eapply J_app; [apply J_summed_letters| |joint]. eapply J_app; [lit| |joint].
  inner (G ", " (or_intror eq_refl)). lit_to.
Qed.

Ltac whole := apply checkT_ok; vm_compute; reflexivity.

Lemma JT_t_equation om on : JT line_start (t_equation_text om on) line_start D D.
Proof.
  pose proof (J_t_line om on) as X.
  replace (t_equation_text om on) with (("\begin{equation}" ++ newline ++ "    \hat{\Omega} = ") ++ (omega_text om on ++ ((newline ++ "\qquad\qquad" ++ newline ++ "    ") ++
    (("i\dv{\hat{\bt}^{" ++ letters 0 on ++ "}_{" ++ (match om with 0 => "" | _ => letters on om ++ "," end) ++ "\gamma}}{\tau}"
      ++ " = \hat{G}^{" ++ letters 0 on ++ "}_{" ++ (match om with 0 => "" | _ => letters on om ++ ", " end) ++ "\gamma\gamma}")
     ++ (newline ++ "\end{equation}" ++ newline ++ newline))))).
  - revert X. generalize ("i\dv{\hat{\bt}^{" ++ letters 0 on ++ "}_{" ++ (match om with 0 => "" | _ => letters on om ++ "," end) ++ "\gamma}}{\tau}"
      ++ " = \hat{G}^{" ++ letters 0 on ++ "}_{" ++ (match om with 0 => "" | _ => letters on om ++ ", " end) ++ "\gamma\gamma}") as y. intros y X.
    eapply JT_app with (E := inline) (c2 := (Math, Eq)); [whole| |joint].
    eapply JT_app with (E := inline) (c2 := (Math, Eq)); [apply (J_at _ _ _ _ M M Eq); [apply J_omega|reflexivity|reflexivity]| |joint].
    eapply JT_app with (E := line_start) (c2 := (Math, Eq)); [whole| |joint].
    eapply JT_app with (E := inline) (c2 := (Math, Eq)); [apply (J_at _ _ _ _ M M Eq); [apply J_start, X|reflexivity|reflexivity]|whole|intros _; reflexivity].
  - unfold t_equation_text. repeat (rewrite append_assoc_s). reflexivity.
Qed.

Lemma JT_z_align om on eqn : J anywhere eqn inline Sp Sp -> JT line_start (z_align_text om on eqn) line_start D D.
Proof.
  intros X. unfold z_align_text.
  change (JT line_start (("\begin{align}\begin{split}" ++ newline ++ "LHS &=" ++ newline ++ "    i\Big(\dv{\hat{\bz}^{") ++ (letters 0 (om + on) ++ (("}_{\gamma}}{\tau}\Big)" ++ newline
  ++ "\\ RHS &=" ++ newline ++ "%" ++ newline ++ "%" ++ newline) ++ (eqn ++ (newline ++ "\end{split}\end{align}" ++ newline ++ newline))))) line_start D D).
  pose (B := snd (after z_env "i\Big(\dv{\hat{\bz}^{" M)).
  eapply JT_app with (E := inline) (c2 := (Math, B ++ Env "split" Math true :: Al)%list); [whole| |joint].
  eapply JT_app with (E := inline) (c2 := (Math, B ++ Env "split" Math true :: Al)%list); [apply (J_at _ _ _ _ M M (B ++ Env "split" Math true :: Al)%list); [apply J_summed_letters|reflexivity|reflexivity]| |joint].
  eapply JT_app with (E := line_start) (c2 := (Math, Env "split" Math true :: Al)); [whole| |joint].
  eapply JT_app with (E := inline) (c2 := (Math, Env "split" Math true :: Al));
    [apply (J_at _ _ _ _ Sp Sp Al); [apply J_start, X|reflexivity|reflexivity]|whole|intros _; reflexivity].
Qed.

Lemma JT_paragraph k : JT line_start ("\paragraph{" ++ nth k order_names "" ++ " Equations}" ++ newline ++ newline) line_start D D.
Proof.
  do 9 (destruct k as [|k]; [whole|]).
  replace (nth _ order_names "") with ""; [whole|]. destruct k; reflexivity.
Qed.

Lemma JT_z_sections H cc p os text : z_sections H cc p os text -> JT line_start text line_start D D /\ first_letter text = false.
Proof.
  induction 1 as [p|p o r eqn text Q X [IH F]]; [split; [apply JT_nil|reflexivity]|]. apply J_z_equation in Q. split.
  - assert (Y : JT line_start (comment_lines ++ t_equation_text (g_m o) (g_n o) ++ comment_lines ++ z_align_text (g_m o) (g_n o) eqn ++ text) line_start D D).
    { eapply JT_app with (E := line_start) (c2 := D); [whole| |joint]. eapply JT_app; [apply JT_t_equation| |intros _; reflexivity].
      eapply JT_app with (E := line_start) (c2 := D); [whole| |joint]. eapply JT_app; [apply JT_z_align, Q|exact IH|intros _; exact F]. }
    assert (Z : JT inline (comment_lines ++ t_equation_text (g_m o) (g_n o) ++ comment_lines ++ z_align_text (g_m o) (g_n o) eqn ++ text) line_start D D).
    { eapply JT_app with (E := line_start) (c2 := D); [whole| |joint]. eapply JT_app; [apply JT_t_equation| |intros _; reflexivity].
      eapply JT_app with (E := line_start) (c2 := D); [whole| |joint]. eapply JT_app; [apply JT_z_align, Q|exact IH|intros _; exact F]. }
    destruct (match p with Some q => Nat.ltb q (g_rank o) | None => false end).
    + eapply JT_app; [apply JT_paragraph|exact Y|intros _; reflexivity].
    + eapply JT_app with (E := inline) (c2 := D); [whole|exact Z|joint].
  - destruct (match p with Some q => Nat.ltb q (g_rank o) | None => false end); reflexivity.
Qed.

Definition z_body : list token := Eval vm_compute in body_tokens ground_state_z_t_symmetric_latex_header.

Lemma z_document (rf : bool) body : JT line_start body line_start D D -> first_letter body = false ->
  processed (ground_state_z_t_symmetric_latex_header ++
    ((if rf then "\textbf{Note that all terms with a $f$ prefactor have been removed}" ++ newline else "") ++ body ++ "\end{document}")).
Proof.
  intros X F. rewrite <- (append_assoc_s _ body "\end{document}"). eapply (document_processed z_env) with (hb := z_body); [vm_compute; reflexivity| | |].
  - intros us. vm_compute. reflexivity.
  - eexists _, _. vm_compute. reflexivity.
  - destruct rf; [|exact X]. eapply JT_app with (E := line_start) (c2 := D); [whole|exact X|joint].
Qed.

Lemma z_processed H cc P rf text : z_latex_text H cc P rf text -> processed (ground_state_z_t_symmetric_latex_header ++ text).
Proof. intros (os & body & _ & _ & _ & Q & ->). apply JT_z_sections in Q as [Q F]. now apply z_document. Qed.
