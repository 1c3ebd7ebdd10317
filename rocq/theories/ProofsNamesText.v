(** The names in a line that is put together from pieces. *)
From Coq Require Import List Arith Bool Ascii String Lia.
From Verif Require Import PyBase PyStr SpecPython SpecNames ProofsStr ProofsNames.
Import ListNotations.
Local Open Scope nat_scope.
Local Open Scope list_scope.

(** ** Names, an upper bound *)

(** Reading tokens, with whether a dot stands before: all names that are not
    attributes are in [N]. *)
Fixpoint within (N : list string) (dot : bool) (ts : list token) : bool :=
  match ts with
  | [] => true
  | t :: r => match t with Word w => dot || negb (is_name w) || member w N | Sign _ => true end && within N (is_sign "." t) r
  end.
Fixpoint dot_after (dot : bool) (ts : list token) : bool :=
  match ts with [] => dot | t :: r => dot_after (is_sign "." t) r end.

Lemma within_app N a : forall dot b, within N dot (a ++ b) = within N dot a && within N (dot_after dot a) b.
Proof. induction a as [|t a IH]; intros dot b; [reflexivity|]. cbn [within dot_after app]. rewrite IH. now rewrite andb_assoc. Qed.
Lemma dot_after_app a : forall dot b, dot_after dot (a ++ b) = dot_after (dot_after dot a) b.
Proof. induction a as [|t a IH]; intros dot b; [reflexivity|]. cbn [dot_after app]. apply IH. Qed.
Lemma within_more N M ts : incl N M -> forall dot, within N dot ts = true -> within M dot ts = true.
Proof.
  intros H. induction ts as [|t ts IH]; intros dot W; [reflexivity|]. cbn [within] in *. apply andb_prop in W as [A B]. rewrite (IH _ B), andb_true_r.
  destruct t as [w|c]; [|reflexivity]. apply orb_prop in A as [A|A]; [now rewrite A|]. apply member_in in A. apply H in A. apply member_in in A. rewrite A. apply orb_true_r.
Qed.

Lemma names_within N ts : forall d dot, within N dot ts = true -> incl (names_in d dot ts) N.
Proof.
  induction ts as [|t ts IH]; intros d dot W; [intros x []|]. cbn [within names_in] in *. apply andb_prop in W as [A B]. destruct t as [w|c]; [|exact (IH _ _ B)].
  destruct (is_name w && negb dot && _) eqn:E; [|exact (IH _ _ B)]. apply andb_prop in E as [E _]. apply andb_prop in E as [E1 E2].
  rewrite E1 in A. destruct dot; [discriminate|]. cbn in A. intros x [<-|Hx]; [now apply member_in|exact (IH _ _ B x Hx)].
Qed.
Lemma within_split N d ts : forall dot a b, within N dot ts = true -> assignment d ts = Some (a, b) -> within N dot a = true /\ within N false b = true.
Proof.
  revert d. induction ts as [|t ts IH]; intros d dot a b W E; [discriminate|]. cbn [within assignment] in *. apply andb_prop in W as [A B].
  destruct (Nat.eqb d 0 && is_sign "=" t) eqn:Q.
  - destruct (next_is _ ts); [discriminate|]. injection E as <- <-. split; [reflexivity|]. apply andb_prop in Q as [_ Q]. destruct t as [w|c]; [discriminate|].
    unfold is_sign in Q. apply Ascii.eqb_eq in Q. subst c. exact B.
  - destruct (assignment (deeper t d) ts) as [[a' b']|] eqn:E'; [|discriminate]. injection E as <- <-. destruct (IH _ _ _ _ B E') as [H1 H2]. split; [|exact H2]. cbn [within]. now rewrite A, H1.
Qed.

(** A line whose second token is neither an equals sign nor part of a list of
    names binds nothing. *)
Lemma read_within N t t1 t2 ts : String.prefix triple t = false -> tokens_of t = t1 :: t2 :: ts ->
  (forall w, t1 = Word w -> String.eqb w "import" || String.eqb w "from" = false) ->
  is_sign "=" t1 = false -> is_sign "=" t2 = false -> plain_target t2 = false ->
  within N false (tokens_of t) = true ->
  incl (names_read t) N /\ names_bound t = [].
Proof.
  intros P E K Q1 Q2 T W. unfold names_read, names_bound, effect. rewrite P. rewrite E in *. set (l := t1 :: t2 :: ts) in *.
  assert (NB : forall a b, assignment 0 l = Some (a, b) -> forallb plain_target a = false).
  { intros a b. unfold l. cbn [assignment]. rewrite Q1, andb_false_r. destruct (Nat.eqb (deeper t1 0) 0 && is_sign "=" t2) eqn:X; [apply andb_prop in X as [_ X]; congruence|].
    destruct (assignment _ ts) as [[a' b']|]; [|discriminate]. intros Y. injection Y as <- <-. cbn [forallb]. rewrite T. now rewrite andb_false_l, andb_false_r. }
  assert (R : forall a b, assignment 0 l = Some (a, b) -> incl (names_in 0 false a ++ names_in 0 false b) N).
  { intros a b Y. destruct (within_split N 0 l false a b W Y) as [W1 W2]. apply incl_app; now apply names_within. }
  destruct t1 as [w|c].
  - unfold l. cbv iota. fold l. rewrite (K w eq_refl). destruct (assignment 0 l) as [[a b]|].
    + rewrite (NB a b eq_refl). cbn [fst snd]. split; [now apply R|reflexivity].
    + cbn [fst snd]. split; [now apply names_within|reflexivity].
  - cbn [fst snd]. unfold l. cbv iota. cbn [fst snd]. split; [now apply names_within|reflexivity].
Qed.

(** The functions a line calls. *)
Lemma calls_within N ts : forall before, within N (next_is (is_sign ".") before) ts = true -> forall f n, In (f, n) (calls_in None before ts) -> In f N.
Proof.
  induction ts as [|t ts IH]; intros before W f n H; [destruct H|]. cbn [within calls_in] in *. apply andb_prop in W as [A B].
  specialize (IH (t :: before) B f n). destruct t as [w|c]; [|now apply IH].
  destruct (is_name w && _ && _) eqn:E; [|now apply IH]. destruct H as [H|H]; [|now apply IH]. injection H as <- <-.
  apply andb_prop in E as [E _]. apply andb_prop in E as [E1 E2]. rewrite E1 in A. apply negb_true_iff in E2. rewrite E2 in A. now apply member_in.
Qed.
Lemma calls_of_line N t : within N false (tokens_of t) = true -> forall f n, In (f, n) (calls t) -> In f N.
Proof. intros W f n. unfold calls. destruct (String.prefix triple t); [intros []|]. exact (calls_within N _ [] W f n). Qed.

(** ** Tokens of pieces *)

(** The piece [s] leads from the state [st] to [st'] and gives tokens with
    names in [N], none of them an attribute of something before, and no dot at
    the end. *)
Definition moves (N : list string) (st : token_state) (s : string) (st' : token_state) : Prop :=
  exists ts, (forall b, tokens st (s ++ b)%string = ts ++ tokens st' b) /\ within N false ts = true /\ dot_after false ts = false.

Lemma moves_nil N st : moves N st "" st.
Proof. exists []. repeat split. Qed.
Lemma moves_app N st a st1 b st2 : moves N st a st1 -> moves N st1 b st2 -> moves N st (a ++ b) st2.
Proof.
  intros (ts & E & W & D) (us & F & V & Q). exists (ts ++ us). split; [|split].
  - intros c. rewrite append_assoc, E, F. apply app_assoc.
  - rewrite within_app, W, D. exact V.
  - rewrite dot_after_app, D. exact Q.
Qed.
Lemma moves_more N M st s st' : incl N M -> moves N st s st' -> moves M st s st'.
Proof. intros H (ts & E & W & D). exists ts. split; [exact E|]. split; [now apply (within_more N)|exact D]. Qed.

(** fixed pieces *)
Fixpoint run (st : token_state) (s : string) : token_state * list token :=
  match s with
  | ""%string => (st, [])
  | String c r =>
      match st with
      | Code w =>
          if word_char c then run (Code (w ++ String c "")) r
          else if Ascii.eqb c quote1 || Ascii.eqb c quote2 then
            (if String.eqb w "f" then run (Literal c true) r else let (st', ts) := run (Literal c false) r in (st', word_end w ++ ts))
          else let (st', ts) := run (Code "") r in (st', word_end w ++ sign c ++ ts)
      | Literal q fields =>
          if Ascii.eqb c q then run (Code "") r
          else if (fields && Ascii.eqb c "{")%bool then run (Field q "") r
          else run (Literal q fields) r
      | Field q w =>
          if word_char c then run (Field q (w ++ String c "")) r
          else if Ascii.eqb c "}" then let (st', ts) := run (Literal q true) r in (st', word_end w ++ ts)
          else let (st', ts) := run (Field q "") r in (st', word_end w ++ sign c ++ ts)
      end
  end.
Lemma run_tokens s : forall st b, tokens st (s ++ b)%string = snd (run st s) ++ tokens (fst (run st s)) b.
Proof.
  induction s as [|c s IH]; intros st b; [reflexivity|]. cbn [String.append tokens run]. destruct st as [w|q fields|q w].
  - destruct (word_char c); [apply IH|]. destruct (Ascii.eqb c quote1 || Ascii.eqb c quote2).
    + destruct (String.eqb w "f"); [apply IH|]. rewrite IH. destruct (run _ s) as [st' ts]. cbn [fst snd]. apply app_assoc.
    + rewrite IH. destruct (run _ s) as [st' ts]. cbn [fst snd]. now rewrite !app_assoc.
  - destruct (Ascii.eqb c q); [apply IH|]. destruct (fields && Ascii.eqb c "{"); apply IH.
  - destruct (word_char c); [apply IH|]. destruct (Ascii.eqb c "}").
    + rewrite IH. destruct (run _ s) as [st' ts]. cbn [fst snd]. apply app_assoc.
    + rewrite IH. destruct (run _ s) as [st' ts]. cbn [fst snd]. now rewrite !app_assoc.
Qed.
Lemma moves_run N st s st' ts : run st s = (st', ts) -> within N false ts && negb (dot_after false ts) = true -> moves N st s st'.
Proof.
  intros E W. apply andb_prop in W as [W D]. apply negb_true_iff in D. exists ts. split; [|split; assumption]. intros b. rewrite run_tokens, E. reflexivity.
Qed.

(** numbers and other words *)
Fixpoint all_word (s : string) : bool := match s with ""%string => true | String c r => word_char c && all_word r end.
Lemma all_word_app a b : all_word (a ++ b) = all_word a && all_word b.
Proof. induction a as [|c a IH]; [reflexivity|]. cbn [String.append all_word]. rewrite IH. apply andb_assoc. Qed.
Lemma word_tokens s : forall w b, all_word s = true -> tokens (Code w) (s ++ b) = tokens (Code (w ++ s)) b.
Proof.
  induction s as [|c s IH]; intros w b A; [now rewrite append_nil_r|]. cbn [all_word] in A. apply andb_prop in A as [A1 A2]. cbn [String.append tokens]. rewrite A1, IH by exact A2.
  f_equal. f_equal. rewrite append_assoc. reflexivity.
Qed.
Lemma moves_word N w s : all_word s = true -> moves N (Code w) s (Code (w ++ s)).
Proof. intros A. exists []. split; [|now split]. intros b. cbn [app]. now apply word_tokens. Qed.

(** behind a word that is no name, or one of [N] *)
Lemma moves_after N w c : word_char c = false -> Ascii.eqb c quote1 || Ascii.eqb c quote2 = false -> Ascii.eqb c "." = false ->
  negb (is_name w) || member w N = true -> moves N (Code w) (String c "") (Code "").
Proof.
  intros A B D W. exists (word_end w ++ sign c). split; [|split].
  - intros b. cbn [String.append tokens]. rewrite A, B. apply app_assoc.
  - rewrite within_app. apply andb_true_intro. split.
    + unfold word_end. destruct w as [|x w]; [reflexivity|]. cbn [within orb]. rewrite W. reflexivity.
    + unfold sign. destruct (Ascii.eqb c " "); reflexivity.
  - rewrite dot_after_app. unfold sign. destruct (Ascii.eqb c " ").
    + cbn [dot_after]. destruct w; reflexivity.
    + cbn [dot_after]. unfold is_sign. rewrite Ascii.eqb_sym. exact D.
Qed.

Lemma number_word n : all_word (str_nat n) = true.
Proof.
  unfold str_nat. generalize (Nat.to_uint n). intros d.
  induction d; cbn [DecimalString.NilEmpty.string_of_uint all_word]; [reflexivity|..]; rewrite ?IHd; reflexivity.
Qed.
Lemma number_no_name n : is_name (str_nat n) = false.
Proof. unfold str_nat. generalize (Nat.to_uint n). intros []; reflexivity. Qed.
Lemma moves_number N n c : word_char c = false -> Ascii.eqb c quote1 || Ascii.eqb c quote2 = false -> Ascii.eqb c "." = false ->
  moves N (Code "") (str_nat n ++ String c "") (Code "").
Proof.
  intros A B D. apply (moves_app N _ _ (Code (str_nat n))); [exact (moves_word N "" (str_nat n) (number_word n))|].
  apply moves_after; try assumption. now rewrite number_no_name.
Qed.

(** quoted text without quotes inside *)
Lemma moves_literal N s : has_char quote1 s = false -> moves N (Code "") (String quote1 (s ++ String quote1 "")) (Code "").
Proof.
  intros H. exists []. split; [|now split]. intros b. cbn [app String.append tokens]. change (word_char quote1) with false. cbv iota.
  change (Ascii.eqb quote1 quote1 || Ascii.eqb quote1 quote2) with true. cbv iota. cbn [String.eqb word_end app].
  induction s as [|c s IH]; cbn [String.append tokens].
  - rewrite Ascii.eqb_refl. reflexivity.
  - cbn [has_char] in H. apply orb_false_iff in H as [H1 H2]. rewrite Ascii.eqb_sym in H1. rewrite H1. cbn [andb]. exact (IH H2).
Qed.

(** lists with a separator *)
Lemma moves_concat N st sep l : Forall (fun s => moves N st s st) l -> moves N st sep st -> moves N st (String.concat sep l) st.
Proof.
  intros F S. induction F as [|s l H F IH]; [apply moves_nil|]. destruct l as [|s' l]; [exact H|].
  change (String.concat sep (s :: s' :: l)) with (s ++ sep ++ String.concat sep (s' :: l))%string. apply (moves_app N _ _ st); [exact H|]. now apply (moves_app N _ _ st).
Qed.

(** ** Lines *)

(** A line made of pieces: [moves] from the start to a state in which nothing
    is pending. *)
Lemma moves_tokens N s : moves N (Code "") s (Code "") -> within N false (tokens_of s) = true.
Proof. intros (ts & E & W & _). unfold tokens_of. specialize (E ""%string). rewrite append_nil_r in E. rewrite E. cbn [tokens word_end]. now rewrite app_nil_r. Qed.

(** What is asked of the lines of a body: they read names of [N], bind none and
    call functions of [N] only. *)
Definition reads_only (N : list string) (t : string) : Prop :=
  incl (names_read t) N /\ names_bound t = [] /\ forall f n, In (f, n) (calls t) -> In f N.

Lemma reads_only_more N M t : incl N M -> reads_only N t -> reads_only M t.
Proof. intros H (A & B & C). split; [now apply (incl_tran A)|]. split; [exact B|]. intros f n X. apply H. now apply (C f n). Qed.

Lemma line_reads N start s t1 t2 ts : String.prefix triple (start ++ s) = false ->
  (forall b, tokens (Code "") (start ++ b)%string = t1 :: t2 :: ts ++ tokens (Code "") b) ->
  (forall w, t1 = Word w -> String.eqb w "import" || String.eqb w "from" = false) ->
  is_sign "=" t1 = false -> is_sign "=" t2 = false -> plain_target t2 = false ->
  within N false (t1 :: t2 :: ts) = true -> dot_after false (t1 :: t2 :: ts) = false ->
  moves N (Code "") s (Code "") -> reads_only N (start ++ s).
Proof.
  intros P E K Q1 Q2 T W D M. assert (X : within N false (tokens_of (start ++ s)) = true).
  { apply moves_tokens. apply (moves_app N _ _ (Code "")); [|exact M]. exists (t1 :: t2 :: ts). split; [exact E|]. now split. }
  destruct (read_within N (start ++ s) t1 t2 (ts ++ tokens (Code "") s) P (E s) K Q1 Q2 T X) as [R B].
  split; [exact R|]. split; [exact B|]. exact (calls_of_line N _ X).
Qed.

Lemma line_reads_run N start s t1 t2 ts : run (Code "") start = (Code "", t1 :: t2 :: ts) -> String.prefix triple (start ++ s) = false ->
  (forall w, t1 = Word w -> String.eqb w "import" || String.eqb w "from" = false) ->
  is_sign "=" t1 = false -> is_sign "=" t2 = false -> plain_target t2 = false ->
  within N false (t1 :: t2 :: ts) = true -> dot_after false (t1 :: t2 :: ts) = false ->
  moves N (Code "") s (Code "") -> reads_only N (start ++ s).
Proof.
  intros E P K Q1 Q2 T W D M. apply (line_reads N start s t1 t2 ts); try assumption. intros b. rewrite run_tokens, E. reflexivity.
Qed.

Definition reads_ok (N : list string) (t : string) : bool :=
  all_in (names_read t) N && match names_bound t with [] => true | _ => false end && all_in (map fst (calls t)) N.
Lemma reads_checked N t : reads_ok N t = true -> reads_only N t.
Proof.
  unfold reads_ok. intros H. apply andb_prop in H as [H C]. apply andb_prop in H as [A B]. split; [apply (all_in_incl _ N N A), incl_refl|]. split; [now destruct (names_bound t)|].
  intros f n X. apply (all_in_incl _ N N C); [apply incl_refl|]. change f with (fst (f, n)). now apply in_map.
Qed.

(** ** Bodies *)

Definition body_reads (N : list string) (b : list stmt) : Prop := Forall (reads_only N) (flat_map lines1 b).
Lemma body_reads_app N a b : body_reads N a -> body_reads N b -> body_reads N (a ++ b).
Proof. intros A B. unfold body_reads. rewrite flat_map_app. now apply Forall_app. Qed.

Lemma visited_lines flag b : incl (flat_map (visited1 flag) b) (flat_map lines1 b).
Proof.
  assert (X : forall s, incl (visited1 flag s) (lines1 s)).
  { induction s as [t|c yes no Hy Hn|h body] using stmt_induct; [apply incl_refl| |intros x []].
    cbn [visited1 lines1]. assert (G : forall l, Forall (fun s => incl (visited1 flag s) (lines1 s)) l -> incl (flat_map (visited1 flag) l) (flat_map lines1 l)).
    { intros l F x Hx. apply in_flat_map in Hx as (s & Hs & Hx). apply in_flat_map. exists s. split; [exact Hs|]. rewrite Forall_forall in F. now apply (F s Hs). }
    intros x [<-|Hx]; [now left|]. right. apply in_or_app. destruct (flag c); [left|right]; now apply G. }
  intros x Hx. apply in_flat_map in Hx as (s & Hs & Hx). apply in_flat_map. exists s. split; [exact Hs|]. now apply X.
Qed.

Lemma bound_until e ts : bound_when_read e ts -> bound_when_read e (until_left ts).
Proof.
  revert e. induction ts as [|t ts IH]; intros e H; [exact H|]. cbn [until_left bound_when_read] in *. destruct H as [A B]. destruct (leaves t); cbn [bound_when_read]; auto.
Qed.
Fixpoint after_lines (e : env) (ts : list string) : env := match ts with [] => e | t :: r => after_lines (names_bound t ++ e) r end.
Lemma bound_app a : forall e b, bound_when_read e a -> bound_when_read (after_lines e a) b -> bound_when_read e (a ++ b).
Proof. induction a as [|t a IH]; intros e b A B; [exact B|]. cbn [bound_when_read after_lines app] in *. destruct A as [A1 A2]. split; [exact A1|]. now apply IH. Qed.
Lemma static_bound N e ts : Forall (reads_only N) ts -> incl N e -> bound_when_read e ts /\ after_lines e ts = e.
Proof.
  intros F H. induction F as [|t ts (A & B & _) F IH]; [split; [exact I|reflexivity]|]. cbn [bound_when_read after_lines]. rewrite B. destruct IH as [X Y]. split; [|exact Y]. split; [now apply (incl_tran A)|exact X].
Qed.
Lemma body_bound N e flag b : body_reads N b -> incl N e -> bound_when_read e (flat_map (visited1 flag) b) /\ after_lines e (flat_map (visited1 flag) b) = e.
Proof.
  intros R H. apply (static_bound N); [|exact H]. apply Forall_forall. intros x Hx. apply visited_lines in Hx. unfold body_reads in R. rewrite Forall_forall in R. now apply R.
Qed.

(** ** Any program *)

Lemma doc_effect t : String.prefix triple t = true -> names_read t = [] /\ names_bound t = [] /\ calls t = [].
Proof. intros H. unfold names_read, names_bound, effect, calls. rewrite H. repeat split. Qed.

Lemma block_name prog h b : In (Block h b) prog -> In (head_name h) (module_names prog).
Proof. intros H. apply in_flat_map. exists (Block h b). split; [exact H|now left]. Qed.
Lemma block_signature prog h b : In (Block h b) prog -> In (head_name h, List.length (parameters h)) (signatures prog).
Proof. intros H. apply in_flat_map. exists (Block h b). split; [exact H|now left]. Qed.
Lemma import_name prog t x : In (Simple t) prog -> In x (names_bound t) -> In x (module_names prog).
Proof. intros H Hx. apply in_flat_map. exists (Simple t). split; [exact H|exact Hx]. Qed.

(** names of functions of the module *)
Definition local_name (s : string) : bool := String.prefix "add_" s || String.prefix "compute_" s.
Definition fits (prog : list stmt) (t : string) : Prop :=
  forall f n, In (f, n) (calls t) -> In f (map fst (signatures prog)) -> In (f, n) (signatures prog).
Lemma fits_other prog t : (forall f, In f (map fst (signatures prog)) -> local_name f = true) -> (forall f n, In (f, n) (calls t) -> local_name f = false) -> fits prog t.
Proof. intros L C f n H K. specialize (L f K). rewrite (C f n H) in L. discriminate. Qed.
Lemma reads_local N t : reads_only N t -> forallb (fun x => negb (local_name x)) N = true -> forall f n, In (f, n) (calls t) -> local_name f = false.
Proof. intros (_ & _ & C) H f n X. apply C in X. rewrite forallb_forall in H. apply H in X. now apply negb_true_iff in X. Qed.
Definition foreign_calls (t : string) : bool := forallb (fun c => negb (local_name (fst c))) (calls t).
Lemma foreign_ok t : foreign_calls t = true -> forall f n, In (f, n) (calls t) -> local_name f = false.
Proof. unfold foreign_calls. rewrite forallb_forall. intros H f n X. apply H in X. now apply negb_true_iff in X. Qed.

Lemma bound_doc e t ts : String.prefix triple t = true -> bound_when_read e ts -> bound_when_read e (t :: ts).
Proof. intros H B. destruct (doc_effect t H) as (R & Bd & _). cbn [bound_when_read]. rewrite R, Bd. split; [intros x []|exact B]. Qed.
Lemma visited_bound e flag b : bound_when_read e (flat_map (visited1 flag) b) -> bound_when_read e (visited flag b).
Proof. apply bound_until. Qed.

Lemma prefix_rest t : forall s, String.prefix t s = true -> exists r, s = (t ++ r)%string.
Proof.
  induction t as [|c t IH]; intros s H; [now exists s|]. destruct s as [|d s]; [discriminate|]. cbn in H. destruct (ascii_dec c d) as [->|]; [|discriminate]. destruct (IH s H) as [r ->]. now exists r.
Qed.
Definition flows (e : env) (b : list stmt) : bool := match flow e b with None => false | Some _ => true end.
(** A fixed body after a documentation string. *)
Lemma fixed_body e e' doc b flag : String.prefix triple doc = true -> flows e b = true -> incl e e' ->
  bound_when_read e' (visited flag (Simple doc :: b)).
Proof.
  intros D F I. unfold visited. cbn [flat_map visited1 app until_left].
  assert (L : leaves doc = false).
  { destruct (prefix_rest _ _ D) as [r ->]. reflexivity. }
  rewrite L. apply bound_doc; [exact D|]. apply (bound_more _ e); [exact I|]. apply flow_bound. unfold flows in F. destruct (flow e b); [discriminate|discriminate].
Qed.

Definition strings_eqb (a b : list string) : bool := if list_eq_dec String.string_dec a b then true else false.
Lemma strings_eqb_eq a b : strings_eqb a b = true -> a = b.
Proof. unfold strings_eqb. destruct (list_eq_dec _ a b); [auto|discriminate]. Qed.

Definition head_ok (h name : string) (ps : list string) : bool := String.eqb (head_name h) name && strings_eqb (parameters h) ps && local_name name.
(** every function called is one of [sigs] or not of the module *)
Definition calls_known (sigs : list (string * nat)) (b : list stmt) : bool :=
  forallb (fun t => forallb (fun c => negb (local_name (fst c)) || known sigs c) (calls t)) (flat_map lines1 b).
Lemma calls_known_fits prog sigs b : (forall f, In f (map fst (signatures prog)) -> local_name f = true) -> incl sigs (signatures prog) -> calls_known sigs b = true ->
  Forall (fits prog) (flat_map lines1 b).
Proof.
  intros L I K. unfold calls_known in K. rewrite forallb_forall in K. apply Forall_forall. intros t Ht f n H F. specialize (K t Ht). rewrite forallb_forall in K. specialize (K (f, n) H). cbn [fst] in K.
  rewrite (L f F) in K. cbn [negb orb] in K. apply I, known_in, K.
Qed.

Lemma head_ok_all h name ps : head_ok h name ps = true -> head_name h = name /\ parameters h = ps /\ local_name name = true.
Proof.
  unfold head_ok. intros C. apply andb_prop in C as [C C3]. apply andb_prop in C as [C1 C2]. split; [now apply String.eqb_eq|]. split; [now apply strings_eqb_eq|exact C3].
Qed.

Lemma return_reads : names_read "return" = [] /\ names_bound "return" = [].
Proof. vm_compute. auto. Qed.
Lemma return_bound e : bound_when_read e ["return"%string].
Proof. cbn [bound_when_read]. rewrite (proj1 return_reads). split; [intros x []|exact Logic.I]. Qed.
Lemma lines1_block h b : lines1 (Block h b) = flat_map lines1 b.
Proof. reflexivity. Qed.
Lemma in_cons_lines t x b : In t (flat_map lines1 (x :: b)) -> In t (lines1 x) \/ In t (flat_map lines1 b).
Proof. cbn [flat_map]. apply in_app_or. Qed.
Lemma in_simple t s : In t (lines1 (Simple s)) -> t = s.
Proof. intros [<-|[]]. reflexivity. Qed.
