(** The files of the W operators. *)
From Coq Require Import List Ascii String Bool Arith Lia.
From Verif Require Import PyBase PyStr ModelHelper ModelLatexW ModelHeaders ModelWFile.
From Verif Require Import ModelTrunc ProofsTrunc SpecTex SpecTexDoc ProofsTex ProofsTexW ProofsTexDoc ProofsTexFullCC SpecWFile.
Import ListNotations.
Open Scope string_scope.

(** ** Ground state *)
Definition w_env : list (string * signature) := Eval vm_compute in
  match preamble kernel (tokens w_equations_latex_header) with Some (env, _) => env | None => [] end.
Local Notation J := (J w_env).
Local Notation JT := (JT w_env).

Lemma join_is sep l : join sep l = String.concat sep l.
Proof. induction l as [|x [|y l] IH]; [reflexivity|reflexivity|]. cbn [join String.concat] in *. now rewrite IH. Qed.
Lemma concat_is l : concat_str l = String.concat "" l.
Proof.
  induction l as [|x [|y l] IH]; [reflexivity|cbn; apply append_nil|].
  change (concat_str (x :: y :: l)) with (x ++ concat_str (y :: l)). now rewrite IH.
Qed.

Lemma J_prefactor l : J inline (render_w_prefactor l) inline M M.
Proof.
  unfold render_w_prefactor. destruct l as [|x l]; [apply J_nil|]. eapply J_app; [lit| |joint].
  eapply J_app; [apply J_plain_inline|lit_to|joint]. rewrite join_is. apply plain_concat; [apply plain_literal; reflexivity|].
  apply Forall_map, Forall_forall. intros k _. apply plain_app; [apply plain_number|apply plain_literal; reflexivity].
Qed.
Lemma J_factor nk : J inline (render_ground_factor nk) inline M M /\ first_letter (render_ground_factor nk) = false.
Proof.
  destruct nk as [n k]. unfold render_ground_factor. destruct (Nat.eqb k 1); (split; [|reflexivity]).
  - eapply J_app; [lit| |joint]. eapply J_app; [apply J_plain_inline, plain_number|lit_to|joint].
  - eapply J_app; [lit| |joint]. eapply J_app; [apply J_plain_inline, plain_number| |joint].
    destruct (str_nat k) as [|c r] eqn:E; [now apply str_nat_ne in E|].
    assert (P : plain (String c r)) by (rewrite <- E; apply plain_number).
    assert (D : is_digit_char c = true) by (pose proof (str_nat_digits k) as X; rewrite E in X; cbn in X; now apply andb_prop in X).
    change ("})^" ++ String c r) with (("})^" ++ String c "") ++ r).
    eapply J_app with (E := inline) (c2 := M); [|apply J_plain_inline; unfold plain in *; now inversion P|].
    + apply digit_char_cases in D. cbn in D. repeat destruct D as [<-|D]; [..|destruct D]; lit_to.
    + apply digit_char_cases in D. cbn in D. repeat destruct D as [<-|D]; [..|destruct D]; joint.
Qed.
Lemma J_product d : J inline (render_ground_product d) inline M M.
Proof.
  unfold render_ground_product. rewrite concat_is. eapply J_app; [apply J_prefactor| |].
  - apply J_concat_nil, Forall_map, Forall_forall. intros x _. apply J_factor.
  - intros _. apply first_letter_concat; [reflexivity|]. apply Forall_map, Forall_forall. intros x _. apply J_factor.
Qed.
Lemma J_line ps : J inline (join " + " (map render_ground_product ps)) inline M M.
Proof.
  rewrite join_is. destruct ps as [|p ps]; [apply J_nil|].
  eapply J_concat with (S1 := inline); [lit_to|reflexivity|reflexivity|discriminate|apply incl_refl| |discriminate].
  apply Forall_map, Forall_forall. intros x _. apply J_product.
Qed.
Definition Row : mode * list frame := (Math, [Env "align" Text true]).
Lemma J_row n ps : J inline (nl ++ "\\" ++ nl ++ tab ++ "\bW^{" ++ str_nat n ++ "} &= "
       ++ (if Nat.ltb 1 n then "\hat{S}(" ++ join " + " (map render_ground_product ps) ++ ")" else join " + " (map render_ground_product ps))) inline Row Row.
Proof.
  change (J inline ((nl ++ "\\" ++ nl ++ tab ++ "\bW^{") ++ (str_nat n ++ ("} &= "
       ++ (if Nat.ltb 1 n then "\hat{S}(" ++ join " + " (map render_ground_product ps) ++ ")" else join " + " (map render_ground_product ps))))) inline Row Row).
  assert (L : J inline (join " + " (map render_ground_product ps)) inline Row Row)
    by exact (J_under _ _ _ _ _ _ [Env "align" Text true] (J_line ps)).
  eapply J_app; [lit| |joint]. eapply J_app; [apply J_plain_inline, plain_number| |joint].
  eapply J_app with (c2 := Row) (E := inline); [lit_to| |joint]. destruct (Nat.ltb 1 n); [|exact L].
  eapply J_app with (c2 := Row) (E := inline); [lit_to| |joint]. eapply J_app; [exact L|lit_to|intros _; reflexivity].
Qed.

Lemma JT_ground l : JT line_start (render_ground_state l) line_start D D.
Proof.
  unfold render_ground_state.
  change (JT line_start (("\begin{align}" ++ nl ++ tab ++ "\bW^{0} &= 1") ++ (concat_str (map (fun kt : nat * list (list (nat * nat)) =>
       let line := join " + " (map render_ground_product (snd kt)) in
       nl ++ "\\" ++ nl ++ tab ++ "\bW^{" ++ str_nat (fst kt) ++ "} &= "
       ++ (if Nat.ltb 1 (fst kt) then "\hat{S}(" ++ line ++ ")" else line)) l) ++ (nl ++ "\end{align}" ++ nl))) line_start D D).
  eapply JT_app with (E := inline) (c2 := (Math, [Env "align" Text true; Env "document" Text false])); [apply checkT_ok; vm_compute; reflexivity| |joint].
  eapply JT_app with (E := inline) (c2 := (Math, [Env "align" Text true; Env "document" Text false]));
    [|apply checkT_ok; vm_compute; reflexivity|intros _; reflexivity].
  apply (J_at _ _ _ _ Row Row [Env "document" Text false]); [|reflexivity|reflexivity].
  rewrite concat_is. apply J_concat_nil, Forall_map, Forall_forall. intros [n ps] _. split; [apply J_row|reflexivity].
Qed.

Definition w_body : list token := Eval vm_compute in body_tokens w_equations_latex_header.

Lemma ground_w_processed so old n : processed (ground_state_w_file so old n).
Proof.
  unfold ground_state_w_file. eapply (document_processed w_env) with (hb := w_body); [vm_compute; reflexivity| | |apply JT_ground].
  - intros us. vm_compute. reflexivity.
  - eexists _, _. vm_compute. reflexivity.
Qed.

(** ** Thermal *)
Lemma first_lines_spec k t : 1 <= k -> lines_of k t (first_lines k t).
Proof.
  revert k. induction t as [|c t IH]; intros k Hk; (destruct k as [|k]; [lia|]).
  - exists "". split; [reflexivity|]. right. cbn. split; [lia|reflexivity].
  - cbn [first_lines]. destruct (Nat.eqb (nat_of_ascii c) 10) eqn:E.
    + assert (c = ascii_of_nat 10) as -> by (apply Nat.eqb_eq in E; rewrite <- (ascii_nat_embedding c), E; reflexivity).
      destruct k as [|k].
      * exists t. cbn [first_lines]. destruct t; (split; [reflexivity|]); left; (split; [reflexivity|]); exists ""; reflexivity.
      * destruct (IH (S k) ltac:(lia)) as (rest & E1 & H). exists rest. split; [cbn [append]; now rewrite <- E1|].
        destruct H as [[N (s' & Es)]|[N ->]]; [left|right].
        -- split; [cbn [number_of_newlines]; rewrite Ascii.eqb_refl; cbn in *; lia|]. exists (String (ascii_of_nat 10) s'). cbn [append]. now rewrite <- Es.
        -- split; [|reflexivity]. cbn [number_of_newlines]. rewrite Ascii.eqb_refl. cbn in *; lia.
    + assert (Ascii.eqb c (ascii_of_nat 10) = false) as F.
      { apply Ascii.eqb_neq. intros ->. discriminate. }
      destruct (IH (S k) ltac:(lia)) as (rest & E1 & H). exists rest. split; [cbn [append]; now rewrite <- E1|].
      destruct H as [[N (s' & Es)]|[N ->]]; [left|right].
      * split; [cbn [number_of_newlines]; rewrite F; exact N|]. exists (String c s'). cbn [append]. now rewrite <- Es.
      * split; [|reflexivity]. cbn [number_of_newlines]. rewrite F. exact N.
Qed.

Definition no_begin (l : list token) : Prop := forall a b, l <> (a ++ begin_document ++ b)%list.

Lemma no_begin_app x y : no_begin x -> no_begin y -> (forall t r, y = t :: r -> ~ In t (tl begin_document)) -> no_begin (x ++ y).
Proof.
  intros X Y H a b E. apply app_eq_app in E as (l & [[E1 E2]|[E1 E2]]).
  - apply app_eq_app in E2 as (l' & [[E2 E3]|[E2 E3]]).
    + destruct l' as [|t l']; [apply (X a []); rewrite app_nil_r in E2; rewrite E1, E2, app_nil_r; reflexivity|].
      destruct l as [|t' l]; [apply (Y [] b); cbn [app]; rewrite E2; exact E3|].
      apply (H t (l' ++ b)%list); [exact E3|]. rewrite E2. cbn [app tl]. apply in_or_app. right. now left.
    + apply (X a l'). rewrite E1, E2. reflexivity.
  - apply (Y l b). exact E2.
Qed.
Lemma preamble_none ts : forall env, no_begin ts -> preamble env ts = None.
Proof.
  induction ts as [|t ts IH]; intros env H; [reflexivity|].
  cbn [preamble]. destruct (at_document (t :: ts)) eqn:A.
  - exfalso. unfold at_document in A. destruct (list_eq_dec token_eq_dec _ _) as [E|]; [|discriminate].
    apply (H [] (skipn (List.length begin_document) (t :: ts))).
    transitivity (firstn (List.length begin_document) (t :: ts) ++ skipn (List.length begin_document) (t :: ts))%list;
      [symmetry; apply firstn_skipn|]. rewrite E. reflexivity.
  - apply IH. intros a b E. apply (H (t :: a) b). rewrite E. reflexivity.
Qed.

(** Without the character d there is no token d. *)
Definition no_d (s : string) : Prop := Forall (fun c => c <> "d"%char) (list_ascii_of_string s).
Lemma step_char st c st' ts d : step st c = (st', ts) -> In (Char d) ts -> d = c.
Proof.
  intros E H. assert (P : forall st0 st1 us, plain_step st0 c = (st1, us) -> In (Char d) us -> d = c).
  { clear. intros st0 st1 us E H. unfold plain_step in E.
    repeat match type of E with (if ?b then _ else _) = _ => destruct b end; injection E as <- <-; cbn in H;
      try (destruct st0; cbn in H); intuition congruence. }
  unfold step in E. destruct st; try (eapply P; eassumption).
  - destruct (letter c); injection E as <- <-; cbn in H; intuition congruence.
  - destruct (letter c); [injection E as <- <-; destruct H|]. destruct (plain_step Skipping c) as [s1 t1] eqn:Ep.
    injection E as <- <-. destruct H as [H|H]; [discriminate|]. eapply P; eassumption.
  - destruct (end_of_line c); injection E as <- <-; destruct H.
Qed.
Lemma scan_no_d s : no_d s -> forall st, ~ In (Char "d") (snd (scan st s)).
Proof.
  induction s as [|c s IH]; intros N st H; [destruct H|]. unfold no_d in N. cbn in N. apply Forall_inv in N as Nc. apply Forall_inv_tail in N.
  cbn [scan] in H. destruct (step st c) as [s1 t1] eqn:E. destruct (scan s1 s) as [s2 t2] eqn:E2. cbn [snd] in H.
  apply in_app_or in H as [H|H]; [|apply (IH N s1); now rewrite E2]. apply Nc. symmetry. eapply step_char; eassumption.
Qed.
Lemma no_d_app a b : no_d a -> no_d b -> no_d (a ++ b).
Proof.
  intros A B. unfold no_d in *. assert (list_ascii_of_string (a ++ b) = list_ascii_of_string a ++ list_ascii_of_string b)%list as ->.
  { clear. induction a; cbn; congruence. }
  apply Forall_app. auto.
Qed.
Lemma no_d_literal s : forallb (fun c => negb (Ascii.eqb c "d")) (list_ascii_of_string s) = true -> no_d s.
Proof.
  intros H. apply Forall_forall. intros c Hc. rewrite forallb_forall in H. specialize (H c Hc). intros ->. discriminate.
Qed.
Ltac nod := apply no_d_literal; reflexivity.
Lemma no_d_number n : no_d (str_nat n).
Proof.
  unfold no_d. generalize (str_nat_digits n). generalize (str_nat n). induction s as [|c s IH]; cbn [all_digits list_ascii_of_string]; [constructor|].
  intros H. apply andb_prop in H as [Hc Hs]. constructor; [|now apply IH]. intros ->. discriminate.
Qed.
Lemma no_d_concat l : Forall no_d l -> no_d (concat_str l).
Proof. induction 1; [constructor|]. now apply no_d_app. Qed.
Lemma no_d_join sep l : no_d sep -> Forall no_d l -> no_d (join sep l).
Proof.
  intros Hs. induction 1 as [|x l H F IH]; [constructor|]. destruct l; [exact H|]. apply no_d_app; [exact H|]. now apply no_d_app.
Qed.
Lemma no_d_drop k s : no_d s -> no_d (sdrop_end k s).
Proof.
  unfold no_d, sdrop_end. intros H. apply Forall_forall. intros c Hc.
  assert (X : list_ascii_of_string (of_chars (rev (skipn k (rev (chars s))))) = rev (skipn k (rev (chars s)))) by apply list_ascii_of_string_of_list_ascii.
  rewrite X in Hc. apply in_rev in Hc.
  assert (In c (rev (chars s))) as Hi by (rewrite <- (firstn_skipn k (rev (chars s))); apply in_or_app; now right).
  apply in_rev in Hi. rewrite Forall_forall in H. now apply H.
Qed.

Ltac nods := repeat first [apply no_d_number | apply no_d_concat, Forall_map, Forall_forall; intros ? _ | nod | apply no_d_app].

Lemma no_d_factor nk : no_d (render_excited_factor nk).
Proof.
  destruct nk as [[a b] k]. unfold render_excited_factor. cbn [fst snd].
  destruct (Nat.eqb a 0), (Nat.eqb b 0), (Nat.eqb k 1); nods.
Qed.
Lemma no_d_product d : no_d (render_excited_product d).
Proof.
  unfold render_excited_product. apply no_d_app.
  - unfold render_w_prefactor. destruct (generate_w_prefactor d); [constructor|]. apply no_d_app; [nod|]. apply no_d_app; [|nod].
    apply no_d_join; [nod|]. apply Forall_map, Forall_forall. intros x _. nods.
  - apply no_d_concat, Forall_map, Forall_forall. intros x _. apply no_d_factor.
Qed.
Lemma no_d_line e : exists z, render_excited_line e = z ++ (nl ++ nl) /\ no_d z.
Proof.
  destruct e as [|w ps]; [exists (tab ++ "\textbf{W}^1 = \bt^1 \\"); split; [reflexivity|nod]|].
  unfold render_excited_line. eexists. split; [symmetry; apply append_assoc_s|]. apply no_d_app; [|nod]. apply no_d_drop, no_d_app.
  - destruct (Nat.eqb (snd w) 0); nods.
  - apply no_d_concat, Forall_map, Forall_forall. intros x _. apply no_d_app; [apply no_d_product|nod].
Qed.
Lemma concat_snoc l x : concat_str (l ++ [x])%list = concat_str l ++ x.
Proof.
  induction l as [|y l IH]; [cbn; apply append_nil|].
  change (concat_str ((y :: l) ++ [x])%list) with (y ++ concat_str (l ++ [x])%list). rewrite IH, <- append_assoc_s. reflexivity.
Qed.

(** The text of the equations: nothing with a d up to the last line, and two
    line ends before it. *)
Definition first_words : string := "These are the W operators in full VECC.\\" ++ nl ++ "%" ++ nl ++ "The ".
Lemma thermal_shape so n text : excited_state_w_equations_latex so n = Ok text ->
  exists y, text = first_words ++ (y ++ (nl ++ nl)) ++ ("\end{equation}" ++ nl) /\ no_d y.
Proof.
  unfold excited_state_w_equations_latex. destruct (excited_state_terms so n) as [ls|]; [|discriminate]. cbn [bind]. intros [= <-].
  assert (L : exists y, tab ++ "\textbf{W}^0 = 1 \\" ++ nl ++ nl ++ concat_str (map render_excited_line ls) = y ++ (nl ++ nl) /\ no_d y).
  { clear. induction ls as [|e ls IH] using rev_ind.
    - exists (tab ++ "\textbf{W}^0 = 1 \\"). split; [reflexivity|nod].
    - destruct IH as (y & E & Y). destruct (no_d_line e) as (z & Z1 & Z2).
      exists (y ++ (nl ++ nl) ++ z). split; [|apply no_d_app; [exact Y|]; apply no_d_app; [nod|exact Z2]].
      rewrite map_app. cbn [map]. rewrite concat_snoc, Z1.
      transitivity ((tab ++ "\textbf{W}^0 = 1 \\" ++ nl ++ nl ++ concat_str (map render_excited_line ls)) ++ (z ++ (nl ++ nl))).
      + rewrite !append_assoc_s. reflexivity.
      + rewrite E, !append_assoc_s. reflexivity. }
  destruct L as (y & E & Y).
  exists ("maximum rank of W operator is: " ++ str_nat n ++ "\\ " ++ nl ++ nl
      ++ "\begin{equation}" ++ nl ++ nl ++ y). split; [|nods; exact Y].
  transitivity (("These are the W operators in full VECC.\\" ++ nl ++ "%" ++ nl ++ "The maximum rank of W operator is: " ++ str_nat n ++ "\\ " ++ nl ++ nl
      ++ "\begin{equation}" ++ nl ++ nl) ++ ((tab ++ "\textbf{W}^0 = 1 \\" ++ nl ++ nl ++ concat_str (map render_excited_line ls)) ++ ("\end{equation}" ++ nl))).
  - rewrite !append_assoc_s. reflexivity.
  - rewrite E. unfold first_words. rewrite !append_assoc_s. reflexivity.
Qed.

Lemma two_line_ends st : fst (scan st (nl ++ nl)) = NewLine.
Proof. destruct st; reflexivity. Qed.

Definition end_document : list token := (Command "end" :: Open :: map Char (list_ascii_of_string "document") ++ [Close])%list.

Lemma no_begin_no_d ts : ~ In (Char "d") ts -> no_begin ts.
Proof.
  intros H a b ->. apply H. apply in_or_app. right. apply in_or_app. left. cbn. auto.
Qed.

Lemma thermal_tokens so n text st : excited_state_w_equations_latex so n = Ok text ->
  exists ts, scan st text = (NewLine, ts) /\ ~ In (Char "d") ts /\ (forall t r, ts = t :: r -> ~ In t (tl begin_document)).
Proof.
  intros E. destruct (thermal_shape _ _ _ E) as (y & -> & Y). clear E.
  set (e := "\end{equation}" ++ nl).
  assert (S1 : scan NewLine e = (NewLine, snd (scan NewLine e))) by reflexivity.
  assert (X : fst (scan st (first_words ++ (y ++ (nl ++ nl)))) = NewLine).
  { rewrite <- append_assoc_s, scan_app. cbn [fst]. destruct (scan st (first_words ++ y)) as [s1 t1]. cbn [fst snd].
    pose proof (two_line_ends s1) as Z. destruct (scan s1 (nl ++ nl)). exact Z. }
  rewrite <- append_assoc_s, scan_app. destruct (scan st (first_words ++ (y ++ (nl ++ nl)))) as [s1 t1] eqn:E1. cbn [fst snd] in *. subst s1.
  rewrite S1. cbn [fst snd]. eexists. split; [reflexivity|].
  assert (N1 : ~ In (Char "d") t1).
  { pose proof (scan_no_d (first_words ++ (y ++ (nl ++ nl))) ltac:(apply no_d_app; [nod|]; apply no_d_app; [exact Y|nod]) st) as Z. now rewrite E1 in Z. }
  split.
  - intros H. apply in_app_or in H as [H|H]; [exact (N1 H)|]. vm_compute in H. intuition discriminate.
  - intros t r Er Ht. rewrite scan_app in E1.
    assert (F : exists u us, snd (scan st first_words) = u :: us /\ ~ In u (tl begin_document)).
    { destruct st; try (eexists _, _; split; [vm_compute; reflexivity|vm_compute; intuition discriminate]). }
    destruct F as (u & us & F1 & F2). rewrite F1 in E1. injection E1 as _ E1. rewrite <- E1 in Er. cbn [app] in Er. injection Er as -> _. contradiction.
Qed.

Lemma no_begin_end : no_begin end_document.
Proof.
  intros a b E. assert (L : List.length a + List.length b = 0).
  { apply (f_equal (@List.length token)) in E. rewrite !app_length in E. vm_compute (List.length end_document) in E.
    vm_compute (List.length begin_document) in E. lia. }
  destruct a; [|cbn in L; lia]. destruct b; [|cbn in L; lia]. discriminate.
Qed.

(** A part of the tokens. *)
Lemma no_begin_part x y : no_begin (x ++ y) -> no_begin x.
Proof. intros H a b ->. apply (H a (b ++ y)%list). now rewrite <- !app_assoc. Qed.

Lemma no_begin_tokens s : no_begin (snd (scan NewLine s)) -> ~ begins_document s.
Proof.
  intros H (a & b & E). unfold tokens in E. destruct (scan NewLine s) as [st ts]. cbn [snd] in H.
  destruct st; try exact (H a b E).
  destruct b as [|t b] using rev_ind.
  - rewrite app_nil_r in E. change begin_document with ((Command "begin" :: Open :: map Char (list_ascii_of_string "document")) ++ [Close])%list in E.
    rewrite app_assoc in E. apply app_inj_tail in E as [_ E]. discriminate.
  - rewrite !app_assoc in E. apply app_inj_tail in E as [E _]. apply (H a b). rewrite E. now rewrite app_assoc.
Qed.
Lemma tokens_no_begin s : ~ begins_document s -> no_begin (snd (scan NewLine s)).
Proof.
  intros H a b E. apply H. unfold begins_document, tokens. destruct (scan NewLine s) as [st ts]. cbn [snd] in E. subst ts.
  destruct st; try (eexists _, _; reflexivity). exists a, (b ++ [Command name])%list. now rewrite <- !app_assoc.
Qed.

Definition kept_ok (old : option string) : Prop :=
  match old with None => True | Some t => no_begin (snd (scan NewLine (first_lines 29 t))) end.

Lemma lines_unique k t s s' : lines_of k t s -> lines_of k t s' -> s = s'.
Proof.
  intros (r & E & H) (r' & E' & H').
  assert (A : forall a b c d, a ++ b = c ++ d -> String.length a <= String.length c -> exists e, c = a ++ e /\ b = e ++ d).
  { induction a as [|x a IH]; intros b c d Ea L; [exists c; auto|]. destruct c as [|y c]; [cbn in L; lia|]. injection Ea as <- Ea.
    destruct (IH _ _ _ Ea ltac:(cbn in L; lia)) as (e & -> & ->). exists e. auto. }
  assert (Nn : forall a b, number_of_newlines (a ++ b) = number_of_newlines a + number_of_newlines b).
  { induction a as [|x a IH]; intros b; [reflexivity|]. cbn [append number_of_newlines]. rewrite IH. lia. }
  assert (B : forall s r s' r', t = s ++ r -> t = s' ++ r' ->
     ((number_of_newlines s = k /\ exists u, s = u ++ newline) \/ (number_of_newlines s < k /\ r = "")) ->
     ((number_of_newlines s' = k /\ exists u, s' = u ++ newline) \/ (number_of_newlines s' < k /\ r' = "")) ->
     String.length s <= String.length s' -> s = s').
  { clear - A Nn. intros s r s' r' E E' H H' L. rewrite E in E'. destruct (A _ _ _ _ E' L) as (e & -> & ->).
    destruct e as [|c e]; [now rewrite append_nil|]. exfalso. rewrite Nn in H'.
    destruct H as [[N [u U]]|[N X]]; [|discriminate X]. destruct H' as [[N' [u' U']]|[N' X]]; [|lia].
    assert (Z : number_of_newlines (String c e) = 0) by lia.
    assert (W : forall e s, s ++ e = u' ++ newline -> number_of_newlines e = 0 -> e = "").
    { clear. intros e s E N. destruct (String.length e) as [|n] eqn:L; [destruct e; [reflexivity|discriminate]|]. exfalso. revert s E N.
      assert (Q : exists e' c, e = e' ++ String c "").
      { clear - L. revert n L. induction e as [|x e IH]; intros n L; [discriminate|]. destruct e as [|y e]; [exists "", x; reflexivity|].
        destruct (IH (String.length e) eq_refl) as (e' & c & E). exists (String x e'), c. cbn. now rewrite <- E. }
      destruct Q as (e' & c & ->). intros s E N.
      assert (Nn : forall a b, number_of_newlines (a ++ b) = number_of_newlines a + number_of_newlines b).
      { induction a as [|x a IH]; intros b; [reflexivity|]. cbn [append number_of_newlines]. rewrite IH. lia. }
      rewrite Nn in N. rewrite <- append_assoc_s in E.
      apply (f_equal list_ascii_of_string) in E.
      assert (La : forall a b, list_ascii_of_string (a ++ b) = (list_ascii_of_string a ++ list_ascii_of_string b)%list) by (clear; induction a; intros; cbn; congruence).
      rewrite !La in E. apply app_inj_tail in E as [_ ->]. cbn in N. lia. }
    discriminate (W _ _ U' Z). }
  destruct (Nat.le_ge_cases (String.length s) (String.length s')) as [L|L]; [eapply B; eassumption|symmetry; eapply B; eassumption].
Qed.

Lemma kept_spec old : no_document_kept old <-> kept_ok old.
Proof.
  destruct old as [t|]; [|split; auto]. cbn [no_document_kept kept_ok]. split.
  - intros H. apply tokens_no_begin, H, first_lines_spec. lia.
  - intros H s L. rewrite (lines_unique _ _ _ _ L (first_lines_spec 29 t ltac:(lia))). now apply no_begin_tokens.
Qed.

Lemma first_lines_prefix k t : exists rest, t = first_lines k t ++ rest.
Proof.
  destruct k as [|k]; [exists t; destruct t; reflexivity|]. destruct (first_lines_spec (S k) t ltac:(lia)) as (rest & E & _). eauto.
Qed.
Lemma kept_of_file t : no_begin (snd (scan NewLine t)) -> kept_ok (Some t).
Proof.
  intros H. cbn [kept_ok]. destruct (first_lines_prefix 29 t) as (rest & E). rewrite E, scan_app in H. cbn [snd] in H. exact (no_begin_part _ _ H).
Qed.

Lemma file_no_begin so old n file : kept_ok old -> excited_state_w_file so old n = Ok file -> no_begin (snd (scan NewLine file)).
Proof.
  intros K. unfold excited_state_w_file. destruct (excited_state_w_equations_latex so n) as [code|] eqn:E; [|discriminate]. cbn [bind]. intros [= <-].
  destruct old as [t|].
  - cbn [kept_ok] in K. rewrite scan_app. cbn [snd]. destruct (scan NewLine (first_lines 29 t)) as [st ts]. cbn [fst snd] in *.
    rewrite scan_app. destruct (thermal_tokens _ _ _ st E) as (us & Es & Ns & Hs). rewrite Es. cbn [fst snd].
    change (snd (scan NewLine "\end{document}")) with end_document.
    apply no_begin_app; [exact K| |].
    + apply no_begin_app; [now apply no_begin_no_d|exact no_begin_end|]. intros t0 r [= <- _]. vm_compute. intuition discriminate.
    + intros t0 r Er. destruct us as [|u us]; [|cbn [app] in Er; injection Er as <- _; apply (Hs u us eq_refl)].
      cbn [app] in Er. injection Er as <- _. vm_compute. intuition discriminate.
  - destruct (thermal_tokens _ _ _ NewLine E) as (us & Es & Ns & _). rewrite Es. now apply no_begin_no_d.
Qed.

Lemma tokens_preamble s : no_begin (snd (scan NewLine s)) -> ~ processed s.
Proof.
  intros H (env & body & E & _). rewrite preamble_none in E; [discriminate|]. intros a b X. apply (no_begin_tokens s H). exists a, b. exact X.
Qed.

Lemma thermal_runs so orders : forall old file, orders <> [] -> no_document_kept old ->
  excited_state_w_files so old orders = Ok file -> exists text, file = Some text /\ ~ processed text /\ ~ begins_document text.
Proof.
  induction orders as [|n r IH]; intros old file N K E; [contradiction|]. cbn [excited_state_w_files] in E.
  destruct (excited_state_w_file so old n) as [f|] eqn:Ef; [|discriminate]. cbn [bind] in E.
  apply kept_spec in K. pose proof (file_no_begin _ _ _ _ K Ef) as B. destruct r as [|n' r].
  - injection E as <-. exists f. split; [reflexivity|]. split; [now apply tokens_preamble|now apply no_begin_tokens].
  - apply (IH (Some f) file); [discriminate|apply kept_spec, kept_of_file, B|exact E].
Qed.
