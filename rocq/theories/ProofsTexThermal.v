(** What TeX reads in the LaTeX of the thermal W operators. *)
From Coq Require Import Permutation Lia.
From Verif Require Import PyBase PyStr ProofsStr ProofsTrunc ModelHelper ModelTrunc ModelLatexW.
From Verif Require Import SpecPartitions SpecW SpecLatexW SpecTex SpecTexW ProofsTex ProofsLatexW ProofsTexW ProofsTexGround.
Open Scope string_scope.

Definition loose (st : state) (s : string) (st' : state) (l : list atom) : Prop :=
  exists ts, scan st s = (st', ts) /\ list_text (filter not_empty_line ts) l.

Lemma loose_app st a st1 l b st2 m :
  loose st a st1 l -> loose st1 b st2 m -> loose st (a ++ b) st2 (l ++ m)%list.
Proof.
  intros [ts [E H]] [us [F K]]. exists (ts ++ us)%list. split.
  - exact (scan_two _ _ _ _ _ _ _ E F).
  - rewrite filter_app. exact (list_text_app _ _ _ _ H K).
Qed.

Lemma filter_same ts : ~ In Paragraph ts -> filter not_empty_line ts = ts.
Proof.
  induction ts as [|t ts IH]; intros H; [reflexivity|]. cbn [filter].
  rewrite IH by (intros K; apply H; now right). destruct t; try reflexivity. elim H. now left.
Qed.

Lemma reads_loose st s st' l : reads st s st' l -> loose st s st' l.
Proof.
  intros [ts [E H]]. exists ts. split; [exact E|]. rewrite filter_same; [exact H|].
  exact (proj2 (proj2 no_paragraph) _ _ H).
Qed.

Lemma loose_nil st : loose st "" st [].
Proof. apply reads_loose, reads_nil. Qed.

(** ** The rows *)

Definition label_atom (m n : option field) : list atom :=
  [cmd "textbf"; Atom (Group [ch "W"]) m n; ch "="].

Definition trow (e : excited_line) : list atom :=
  match e with
  | EOne => (label_atom (Some (One (Char "1"))) None ++ [Atom (One (Command "bt")) (Some (One (Char "1"))) None])%list
  | ESum w ps =>
      (label_atom (Some (num (fst w))) (if Nat.eqb (snd w) 0 then None else Some (num (snd w))) ++ sym_atoms ps)%list
  end.

Definition line_good (e : excited_line) : Prop :=
  match e with EOne => True | ESum w ps => good ps end.

Lemma label_reads m n :
  reads NewLine ((if Nat.eqb n 0 then tab ++ "\textbf{W}^{" ++ str_nat m ++ "} = "
                  else tab ++ "\textbf{W}^{" ++ str_nat m ++ "}_{" ++ str_nat n ++ "} = "))
        Skipping
        (label_atom (Some (num m)) (if Nat.eqb n 0 then None else Some (num n))).
Proof.
  unfold label_atom. destruct (Nat.eqb_spec n 0) as [->|Hn].
  - exists ([Command "textbf"] ++ (([Open; Char "W"; Close] ++ Sup :: (Open :: map Char (chars (str_nat m)) ++ [Close])) ++ [Char "="]))%list.
    split.
    + replace ([Command "textbf"] ++ (([Open; Char "W"; Close] ++ Sup :: (Open :: map Char (chars (str_nat m)) ++ [Close])) ++ [Char "="]))%list
        with ([Command "textbf"; Open; Char "W"; Close; Sup; Open] ++ map Char (chars (str_nat m)) ++ [Close; Char "="])%list
        by (cbn [app]; now rewrite <- app_assoc).
      rewrite <- (append_assoc tab).
      apply scan_two with (st1 := Middle); [reflexivity|].
      apply scan_two with (st1 := Middle); [apply scan_number, middle_fresh|reflexivity].
    + apply one_more; [apply no_script, one_token; exact I|].
      apply one_more; [|apply (list_text_chars ["="%char])].
      apply sup_only; [apply (group [Char "W"]), (list_text_chars ["W"%char])|apply field_num].
  - exists ([Command "textbf"] ++ (([Open; Char "W"; Close] ++ Sup :: (Open :: map Char (chars (str_nat m)) ++ [Close])
                ++ Sub :: (Open :: map Char (chars (str_nat n)) ++ [Close])) ++ [Char "="]))%list.
    split.
    + replace ([Command "textbf"] ++ (([Open; Char "W"; Close] ++ Sup :: (Open :: map Char (chars (str_nat m)) ++ [Close])
                ++ Sub :: (Open :: map Char (chars (str_nat n)) ++ [Close])) ++ [Char "="]))%list
        with ([Command "textbf"; Open; Char "W"; Close; Sup; Open] ++ map Char (chars (str_nat m))
                ++ [Close; Sub; Open] ++ map Char (chars (str_nat n)) ++ [Close; Char "="])%list
        by (cbn [app]; rewrite <- !app_assoc; cbn [app]; now rewrite <- !app_assoc).
      rewrite <- (append_assoc tab).
      apply scan_two with (st1 := Middle); [reflexivity|].
      apply scan_two with (st1 := Middle); [apply scan_number, middle_fresh|].
      apply scan_two with (st1 := Middle); [reflexivity|].
      apply scan_two with (st1 := Middle); [apply scan_number, middle_fresh|reflexivity].
    + apply one_more; [apply no_script, one_token; exact I|].
      apply one_more; [|apply (list_text_chars ["="%char])].
      apply sup_sub; [apply (group [Char "W"]), (list_text_chars ["W"%char])|apply field_num|apply field_num].
Qed.

Lemma concat_plus ps : ps <> [] ->
  concat_str (map (fun p => render_excited_product p ++ " + ") ps)
  = join " + " (map render_excited_product ps) ++ " + ".
Proof.
  intros H. induction ps as [|d ps IH]; [now elim H|]. destruct ps as [|d' ps].
  - cbn [map concat_str fold_right join]. now rewrite append_nil_r.
  - change (map (fun p => render_excited_product p ++ " + ") (d :: d' :: ps))
      with ((render_excited_product d ++ " + ") :: map (fun p => render_excited_product p ++ " + ") (d' :: ps)).
    change (concat_str ((render_excited_product d ++ " + ") :: map (fun p => render_excited_product p ++ " + ") (d' :: ps)))
      with ((render_excited_product d ++ " + ") ++ concat_str (map (fun p => render_excited_product p ++ " + ") (d' :: ps))).
    rewrite IH by discriminate.
    change (join " + " (map render_excited_product (d :: d' :: ps)))
      with (render_excited_product d ++ " + " ++ join " + " (map render_excited_product (d' :: ps))).
    now rewrite !append_assoc.
Qed.

Lemma line_text w ps : ps <> [] ->
  render_excited_line (ESum w ps)
  = (if Nat.eqb (snd w) 0 then tab ++ "\textbf{W}^{" ++ str_nat (fst w) ++ "} = "
     else tab ++ "\textbf{W}^{" ++ str_nat (fst w) ++ "}_{" ++ str_nat (snd w) ++ "} = ")
    ++ (("\hat{S}(" ++ join " + " (map render_excited_product ps) ++ ")") ++ "\\ " ++ nl ++ nl).
Proof.
  intros H. unfold render_excited_line. rewrite (concat_plus ps H).
  assert (D : forall a b, sdrop_end 3 (a ++ b ++ " + ") = a ++ b).
  { intros a b. rewrite <- append_assoc. apply (sdrop_end_app (a ++ b) " + "). }
  rewrite D. destruct (Nat.eqb (snd w) 0); rewrite !append_assoc; reflexivity.
Qed.

Lemma line_loose e : line_good e -> loose NewLine (render_excited_line e) NewLine (trow e ++ [cmd "\"]).
Proof.
  destruct e as [|w ps]; intros H.
  - eexists. split; [reflexivity|]. cbn [filter not_empty_line].
    match goal with |- list_text ?ts _ => change ts
      with ([Command "textbf"] ++ (([Open; Char "W"; Close] ++ Sup :: [Char "1"]) ++ ([Char "="] ++ (([Command "bt"] ++ Sup :: [Char "1"]) ++ [Command "\"]))))%list end.
    apply one_more; [apply no_script, one_token; exact I|].
    apply one_more; [apply sup_only; [apply (group [Char "W"]), (list_text_chars ["W"%char])|apply one_token; exact I]|].
    apply one_more; [apply no_script, one_token; exact I|].
    apply one_more; [apply sup_only; apply one_token; exact I|].
    apply list_text_one, no_script, one_token. exact I.
  - destruct H as [Hne H]. rewrite (line_text w ps Hne). cbn [trow]. rewrite <- app_assoc.
    eapply loose_app; [apply reads_loose, label_reads|].
    eapply loose_app; [apply reads_loose, sym_reads; [right; right; reflexivity|exact Hne|exact H]|].
    eexists. split; [reflexivity|]. apply list_text_one, no_script, one_token. exact I.
Qed.

Lemma lines_loose lines : Forall line_good lines ->
  loose NewLine (concat_str (map render_excited_line lines)) NewLine (flat_map (fun e => trow e ++ [cmd "\"])%list lines).
Proof.
  induction 1 as [|e lines He _ IH]; [apply loose_nil|].
  cbn [map concat_str flat_map]. eapply loose_app; [apply line_loose, He|exact IH].
Qed.

Lemma list_text_plain ts : Forall stands_for_itself ts -> list_text ts (map (fun t => Atom (One t) None None) ts).
Proof.
  induction 1 as [|t ts Ht _ IH]; [constructor|].
  change (t :: ts) with ([t] ++ ts)%list. cbn [map]. apply one_more; [|exact IH].
  apply no_script, one_token, Ht.
Qed.

(** ** The whole text *)

Definition first_trow : list atom := (label_atom (Some (One (Char "0"))) None ++ [ch "1"])%list.

Definition prose : string := "These are the W operators in full VECC.\\" ++ nl ++ "%"
      ++ nl ++ "The maximum rank of W operator is: ".

Definition thermal_text (max : nat) (lines : list excited_line) : string :=
  prose ++ str_nat max ++ ("\\ " ++ nl ++ nl ++ "\begin{equation}" ++ nl ++ nl ++ tab ++ "\textbf{W}^0 = 1 \\" ++ nl ++ nl)
  ++ concat_str (map render_excited_line lines) ++ ("\end{equation}" ++ nl).

Definition plain_atoms (ts : list token) : list atom := map (fun t => Atom (One t) None None) ts.

Definition eqn : atom := Atom (Group (map ch (chars "equation"))) None None.

Definition thermal_atoms (max : nat) (lines : list excited_line) : list atom :=
  (plain_atoms (snd (scan NewLine prose)) ++ digits (str_nat max) ++ ([cmd "\"; cmd "begin"; eqn] ++ first_trow ++ [cmd "\"])
  ++ flat_map (fun e => trow e ++ [cmd "\"]) lines ++ [cmd "end"; eqn])%list.

Lemma eqn_text : atom_text (Open :: map Char (chars "equation") ++ [Close]) eqn.
Proof. apply no_script, group, list_text_chars. Qed.

Lemma thermal_loose max lines : Forall line_good lines ->
  loose NewLine (thermal_text max lines) NewLine (thermal_atoms max lines).
Proof.
  intros H. unfold thermal_text, thermal_atoms.
  eapply loose_app with (st1 := Skipping).
  { apply reads_loose. exists (snd (scan NewLine prose)). split; [reflexivity|]. apply list_text_plain.
    unfold prose. vm_compute. repeat constructor. }
  eapply loose_app with (st1 := Middle).
  { apply reads_loose. exists (map Char (chars (str_nat max))).
    split; [apply scan_number; right; right; reflexivity|apply list_text_chars]. }
  eapply loose_app with (st1 := NewLine).
  { eexists. split; [reflexivity|]. cbn [filter not_empty_line].
    match goal with |- list_text ?ts _ =>
      change ts with ([Command "\"] ++ ([Command "begin"] ++ ((Open :: map Char (chars "equation") ++ [Close])
        ++ (([Command "textbf"] ++ (([Open; Char "W"; Close] ++ Sup :: [Char "0"]) ++ ([Char "="] ++ [Char "1"]))) ++ [Command "\"]))))%list end.
    apply one_more; [apply no_script, one_token; exact I|].
    apply one_more; [apply no_script, one_token; exact I|].
    apply one_more; [apply eqn_text|].
    apply list_text_app; [|apply list_text_one, no_script, one_token; exact I].
    apply one_more; [apply no_script, one_token; exact I|].
    apply one_more; [apply sup_only; [apply (group [Char "W"]), (list_text_chars ["W"%char])|apply one_token; exact I]|].
    apply (list_text_chars ["="; "1"]%char). }
  eapply loose_app; [apply lines_loose, H|].
  eexists. split; [reflexivity|]. cbn [filter not_empty_line].
  match goal with |- list_text ?ts _ =>
      change ts with ([Command "end"] ++ (Open :: map Char (chars "equation") ++ [Close]))%list end.
  apply one_more; [apply no_script, one_token; exact I|]. apply list_text_one, eqn_text.
Qed.

Lemma loose_formula s st l : loose NewLine s st l -> (forall w, st <> Word w) -> formula_without_empty_lines s l.
Proof.
  intros [ts [E H]] Hst. unfold formula_without_empty_lines, tokens. rewrite E. destruct st; try exact H.
  now elim (Hst name).
Qed.

Lemma thermal_formula max lines : Forall line_good lines ->
  formula_without_empty_lines (thermal_text max lines) (thermal_atoms max lines).
Proof. intros H. eapply loose_formula; [apply thermal_loose, H|discriminate]. Qed.

Lemma behind_app {A} (p : A -> bool) a x b : forallb (fun y => negb (p y)) a = true -> p x = true ->
  behind p (a ++ x :: b) = b.
Proof.
  induction a as [|y a IH]; intros H Hx; cbn [app behind]; [now rewrite Hx|].
  cbn [forallb] in H. apply andb_true_iff in H as [Hy Ha]. apply negb_true_iff in Hy. rewrite Hy. auto.
Qed.
Lemma before_app {A} (p : A -> bool) a x b : forallb (fun y => negb (p y)) a = true -> p x = true ->
  before p (a ++ x :: b) = a.
Proof.
  induction a as [|y a IH]; intros H Hx; cbn [app before]; [now rewrite Hx|].
  cbn [forallb] in H. apply andb_true_iff in H as [Hy Ha]. apply negb_true_iff in Hy. rewrite Hy. f_equal. auto.
Qed.

Lemma trow_no_command c e : (forall a, is_command c a = true -> top a = true) -> c <> "textbf" -> c <> "hat" -> c <> "bt" ->
  no_atom (is_command c) (trow e).
Proof.
  intros Hc H1 H2 H3.
  assert (E1 : String.eqb c "textbf" = false) by (apply String.eqb_neq, H1).
  assert (E2 : String.eqb c "hat" = false) by (apply String.eqb_neq, H2).
  destruct e as [|w ps]; cbn [trow].
  - unfold no_atom. cbn. now rewrite E1.
  - apply no_atom_app; [unfold no_atom; cbn; now rewrite E1|].
    unfold sym_atoms. apply no_atom_app; [unfold no_atom; cbn; now rewrite E2|].
    apply no_atom_app; [apply sum_no_command, Hc|reflexivity].
Qed.

Lemma lines_no_end lines : no_atom (is_command "end") (flat_map (fun e => trow e ++ [cmd "\"])%list lines).
Proof.
  induction lines as [|e lines IH]; [reflexivity|]. cbn [flat_map]. apply no_atom_app; [|exact IH].
  apply no_atom_app; [|reflexivity]. apply trow_no_command; [apply end_top|discriminate|discriminate|discriminate].
Qed.

Lemma thermal_inside max lines :
  before (is_command "end") (behind (is_command "begin") (thermal_atoms max lines))
  = eqn :: (first_trow ++ [cmd "\"] ++ flat_map (fun e => trow e ++ [cmd "\"]) lines)%list.
Proof.
  unfold thermal_atoms.
  replace (plain_atoms (snd (scan NewLine prose)) ++ digits (str_nat max)
           ++ ([cmd "\"; cmd "begin"; eqn] ++ first_trow ++ [cmd "\"])
           ++ flat_map (fun e => trow e ++ [cmd "\"]) lines ++ [cmd "end"; eqn])%list
    with (((plain_atoms (snd (scan NewLine prose)) ++ digits (str_nat max)) ++ [cmd "\"])
          ++ cmd "begin" :: (eqn :: first_trow ++ [cmd "\"] ++ flat_map (fun e => trow e ++ [cmd "\"]) lines) ++ cmd "end" :: [eqn])%list
    by (rewrite <- !app_assoc; cbn [app]; rewrite <- !app_assoc; reflexivity).
  rewrite behind_app.
  - apply before_app; [|reflexivity].
    change (no_atom (is_command "end") ([eqn] ++ first_trow ++ [cmd "\"] ++ flat_map (fun e => trow e ++ [cmd "\"])%list lines)%list).
    apply no_atom_app; [reflexivity|]. apply no_atom_app; [reflexivity|]. apply no_atom_app; [reflexivity|apply lines_no_end].
  - change (no_atom (is_command "begin") (((plain_atoms (snd (scan NewLine prose)) ++ digits (str_nat max)) ++ [cmd "\"]))%list).
    apply no_atom_app; [|reflexivity]. apply no_atom_app; [reflexivity|].
    apply (no_top_weaken _ _ begin_top), digits_no_top, str_nat_digits.
  - reflexivity.
Qed.

Lemma flat_glue (s : atom) (rows : list (list atom)) :
  flat_map (fun r => r ++ [s])%list rows = glue [s] (rows ++ [[]])%list.
Proof.
  induction rows as [|r rows IH]; [reflexivity|]. cbn [flat_map app]. rewrite IH.
  destruct (rows ++ [[]])%list as [|y ys] eqn:E; [destruct rows; discriminate|].
  change (glue [s] (r :: y :: ys)) with (r ++ [s] ++ glue [s] (y :: ys))%list. now rewrite <- app_assoc.
Qed.

Lemma thermal_rows lines :
  separated (is_command "\") (first_trow ++ [cmd "\"] ++ flat_map (fun e => trow e ++ [cmd "\"]) lines)%list
  = ((first_trow :: map trow lines) ++ [[]])%list.
Proof.
  replace (first_trow ++ [cmd "\"] ++ flat_map (fun e => trow e ++ [cmd "\"]) lines)%list
    with (flat_map (fun r => r ++ [cmd "\"])%list (first_trow :: map trow lines)).
  - rewrite flat_glue. apply separated_glue; [reflexivity| |destruct lines; discriminate].
    apply Forall_app. split; [|constructor; [reflexivity|constructor]].
    constructor; [reflexivity|]. apply Forall_map, Forall_forall. intros e _.
    apply trow_no_command; [apply row_top|discriminate|discriminate|discriminate].
  - cbn [flat_map]. rewrite <- app_assoc. do 2 f_equal.
    induction lines as [|e lines IH]; [reflexivity|]. cbn [map flat_map]. now rewrite IH.
Qed.

Definition line_read (e : excited_line) : (nat * nat) * right_side :=
  match e with
  | EOne => ((1, 0), Sum [([], [((1, 0), 1)])])
  | ESum w ps => (w, Symmetrised (map printed ps))
  end.

Lemma script_num n : script (if Nat.eqb n 0 then None else Some (num n)) = Some n.
Proof. destruct (Nat.eqb_spec n 0) as [->|H]; [reflexivity|]. cbn [script]. apply number_num. Qed.

Lemma trow_sum_read w ps :
  thermal_row_read (trow (ESum w ps))
  = match right_side_read (sym_atoms ps) with Some s => Some (w, s) | None => None end.
Proof.
  destruct w as [m n].
  assert (P : forall a b r, thermal_row_read (label_atom a b ++ r)
     = match script a, script b, right_side_read r with Some m, Some n, Some s => Some ((m, n), s) | _, _, _ => None end)
    by reflexivity.
  cbn [trow fst snd]. rewrite P, script_num. cbn [script]. now rewrite number_num.
Qed.

Lemma trow_read_small e : line_good e -> (match e with EOne => True | ESum _ ps => Forall small ps end) ->
  thermal_row_read (trow e) = Some (line_read e).
Proof.
  destruct e as [|w ps]; intros H Hs; [reflexivity|]. destruct H as [Hne H].
  rewrite trow_sum_read, right_side_sym, (sum_read_small ps Hne H Hs). reflexivity.
Qed.

Lemma trow_read_large w ps : Exists large ps -> thermal_row_read (trow (ESum w ps)) = None.
Proof. intros H. now rewrite trow_sum_read, right_side_sym, (sum_read_large ps H). Qed.

Lemma thermal_match max lines text rows :
  text = thermal_text max lines -> Forall line_good lines ->
  (thermal_equations text rows <-> every thermal_row_read (first_trow :: map trow lines) = Some rows).
Proof.
  intros -> H. split.
  - intros [l [name [ls [F [E [_ M]]]]]].
    rewrite (list_text_unique _ _ _ F (thermal_formula max lines H)), thermal_inside in E.
    assert (E' : ls = (first_trow ++ [cmd "\"] ++ flat_map (fun e => trow e ++ [cmd "\"]) lines)%list) by congruence.
    rewrite E', thermal_rows, rev_app_distr in M. cbn [rev app] in M.
    change (rev (map trow lines) ++ [first_trow])%list with (rev (first_trow :: map trow lines)) in M.
    now rewrite rev_involutive in M.
  - intros E. exists (thermal_atoms max lines), (map ch (chars "equation")).
    eexists. split; [apply thermal_formula, H|]. split; [apply thermal_inside|]. split; [reflexivity|].
    rewrite thermal_rows, rev_app_distr. cbn [rev app].
    change (rev (map trow lines) ++ [first_trow])%list with (rev (first_trow :: map trow lines)).
    now rewrite rev_involutive.
Qed.

(** ** An empty line stands inside the environment *)

Lemma behind_tokens_app {A} (p : A -> bool) a b : forallb (fun y => negb (p y)) a = true ->
  behind p (a ++ b) = behind p b.
Proof.
  induction a as [|y a IH]; intros H; [reflexivity|]. cbn [app behind forallb] in *.
  apply andb_true_iff in H as [Hy Ha]. apply negb_true_iff in Hy. rewrite Hy. auto.
Qed.

Lemma thermal_empty_line max lines : In Paragraph (first_environment (thermal_text max lines)).
Proof.
  unfold first_environment, tokens, thermal_text.
  assert (E : forall rest, exists st ts,
    scan NewLine (prose ++ str_nat max ++ ("\\ " ++ nl ++ nl ++ "\begin{equation}" ++ nl ++ nl ++ tab ++ "\textbf{W}^0 = 1 \\" ++ nl ++ nl) ++ rest)
    = (st, (snd (scan NewLine prose) ++ map Char (chars (str_nat max))) ++
           [Command "\"; Paragraph] ++ [Command "begin"] ++ ((Open :: map Char (chars "equation") ++ [Close]) ++ [Paragraph]) ++ ts)%list).
  { intros rest. destruct (scan NewLine rest) as [st ts] eqn:Er.
    exists st, ([Command "textbf"; Open; Char "W"; Close; Sup; Char "0"; Char "="; Char "1"; Command "\"; Paragraph] ++ ts)%list.
    rewrite <- !(app_assoc _ (map Char (chars (str_nat max)))).
    apply scan_two with (st1 := Skipping); [reflexivity|].
    apply scan_two with (st1 := Middle); [apply scan_number; right; right; reflexivity|].
    set (k := ("\\ " ++ nl ++ nl ++ "\begin{equation}" ++ nl ++ nl ++ tab ++ "\textbf{W}^0 = 1 \\" ++ nl ++ nl)).
    assert (K : scan Middle k = (NewLine, ([Command "\"; Paragraph] ++ [Command "begin"] ++ (Open :: map Char (chars "equation") ++ [Close]) ++ [Paragraph])
         ++ [Command "textbf"; Open; Char "W"; Close; Sup; Char "0"; Char "="; Char "1"; Command "\"; Paragraph])%list)
      by (vm_compute; reflexivity).
    rewrite (scan_two _ _ _ _ _ _ _ K Er). rewrite <- !app_assoc. reflexivity. }
  match goal with |- context [scan NewLine ?s] =>
    destruct (E (concat_str (map render_excited_line lines) ++ "\end{equation}" ++ nl)) as [st [ts Es]]; rewrite Es end.
  set (pre := (snd (scan NewLine prose) ++ map Char (chars (str_nat max)))%list).
  assert (Hpre : forallb (fun y => negb (command_token "begin" y)) pre = true).
  { unfold pre. rewrite forallb_app. apply andb_true_iff. split; [reflexivity|].
    apply forallb_forall. intros t Ht. apply in_map_iff in Ht. destruct Ht as [c [<- _]]. reflexivity. }
  assert (K : forall ts', In Paragraph (before (command_token "end") (behind (command_token "begin")
     ((pre ++ [Command "\"; Paragraph] ++ [Command "begin"] ++ ((Open :: map Char (chars "equation") ++ [Close]) ++ [Paragraph]) ++ ts) ++ ts')%list))).
  { intros ts'. rewrite <- app_assoc. rewrite (behind_tokens_app _ pre _ Hpre). cbn. tauto. }
  pose proof (K []) as K0. rewrite app_nil_r in K0. destruct st; first [exact K0 | apply K].
Qed.

(** ** The printed text *)

Definition line_for (w : nat * nat) (e : excited_line) : Prop :=
  (w = (1, 0) /\ e = EOne) \/
  (w <> (1, 0) /\ exists products gs,
     e = ESum w products /\ NoDup gs /\
     (forall g, In g gs <-> contributes (fst w) (snd w) g /\ canonical g /\ ~ (g = [w] /\ 1 <= snd w)) /\
     Forall2 (fun g d => written_with_powers g d /\
               orderings_over_factorial g (product_of_factorials (generate_w_prefactor d))) gs products).

Lemma thermal_lines so max : set_order so ->
  exists lines, excited_state_w_equations_latex so max = Ok (thermal_text max lines) /\
    Forall2 line_for (generate_labels_on_w max true) lines.
Proof.
  intros Hso. destruct (excited_state_lines so max Hso) as [lines [E H]]. exists lines. split.
  - unfold excited_state_w_equations_latex. rewrite E. cbn [bind]. unfold thermal_text, prose.
    rewrite !append_assoc. reflexivity.
  - assert (K : forall w, In w (generate_labels_on_w max true) -> 1 <= fst w).
    { intros [m n] Hin. apply (proj1 (proj2 (labels_exact max))) in Hin as [Hm _]. exact Hm. }
    clear E. induction H as [|w e ws es Hwe _ IH]; constructor.
    + specialize (K w (or_introl eq_refl)). destruct w as [m n]. cbn [fst] in K.
      destruct (Nat.eq_dec m 1) as [->|Hm]; [destruct (Nat.eq_dec n 0) as [->|Hn]|].
      * left. split; [reflexivity|]. unfold excited_line_of in Hwe.
        destruct (generate_t_terms_group so (1, 0)); [discriminate|]. cbn in Hwe. congruence.
      * right. split; [congruence|]. destruct (excited_line_exact so 1 n Hso K) as [ps [gs [E R]]]; [congruence|].
        rewrite E in Hwe. injection Hwe as <-. eauto.
      * right. split; [congruence|]. destruct (excited_line_exact so m n Hso K) as [ps [gs [E R]]]; [congruence|].
        rewrite E in Hwe. injection Hwe as <-. eauto.
    + apply IH. intros w' Hw'. apply K. now right.
Qed.

Lemma pair_nonempty_powers (g : list (nat * nat)) d : g <> [] -> written_with_powers g d -> d <> [].
Proof.
  intros Hg [_ [_ HP]] ->. cbn in HP. apply Permutation_nil in HP. congruence.
Qed.

Lemma some_product m n : 1 <= m -> (m, n) <> (1, 0) ->
  exists g, contributes m n g /\ canonical g /\ ~ (g = [(m, n)] /\ 1 <= n).
Proof.
  intros Hm Hmn. destruct n as [|n].
  - exists [(m, 0)]. split; [|split].
    + split; [discriminate|]. split; [|cbn; lia]. repeat constructor. intros E; injection E; lia.
    + repeat constructor.
    + intros [_ H]. lia.
  - exists [(m, 0); (0, S n)]. split; [|split].
    + split; [discriminate|]. split; [|cbn; lia]. repeat constructor; intros E; injection E; lia.
    + repeat constructor. cbn. lia.
    + intros [H _]. discriminate.
Qed.

Lemma line_for_good w e : 1 <= fst w -> line_for w e -> line_good e.
Proof.
  intros Hw [[_ ->]|[Hne [ps [gs [-> [_ [Hgs HF]]]]]]]; [exact I|]. destruct w as [m n]. cbn [fst snd] in *. split.
  - destruct (some_product m n Hw Hne) as [g Hg]. apply Hgs in Hg.
    destruct (Forall2_In_l _ _ _ _ HF Hg) as [d [Hd _]]. destruct ps; [destruct Hd|discriminate].
  - apply Forall_forall. intros d Hd. destruct (Forall2_In_r _ _ _ _ HF Hd) as [g [Hg [Hp _]]].
    apply Hgs in Hg. destruct Hg as [[Hne' _] _]. exact (pair_nonempty_powers g d Hne' Hp).
Qed.

Lemma line_for_small w e : fst w + snd w <= 9 -> line_for w e ->
  match e with EOne => True | ESum _ ps => Forall small ps end.
Proof.
  intros Hw [[_ ->]|[Hne [ps [gs [-> [_ [Hgs HF]]]]]]]; [exact I|].
  apply Forall_forall. intros d Hd. destruct (Forall2_In_r _ _ _ _ HF Hd) as [g [Hg [Hp _]]].
  apply Hgs in Hg. destruct Hg as [Hc _]. pose proof (proj1 (contributes_bounds _ _ _ Hc)) as Hl.
  refine (Forall_impl _ _ (powers_bound g d Hp)). intros a Ha. lia.
Qed.

Lemma Forall2_Forall_r {A B} (R : A -> B -> Prop) (P : B -> Prop) l m :
  Forall2 R l m -> (forall a b, In a l -> R a b -> P b) -> Forall P m.
Proof.
  intros H K. induction H as [|a b l m Hab _ IH]; constructor.
  - apply (K a); [now left|exact Hab].
  - apply IH. intros x y Hx. apply K. now right.
Qed.

Lemma lines_good max lines : Forall2 line_for (generate_labels_on_w max true) lines -> Forall line_good lines.
Proof.
  intros H. apply (Forall2_Forall_r _ _ _ _ H). intros [m n] e Hin. apply line_for_good.
  apply (proj1 (proj2 (labels_exact max))) in Hin. cbn. lia.
Qed.

Lemma ten_ones : contributes 10 0 (repeat (1, 0) 10) /\ canonical (repeat (1, 0) 10) /\
  ~ (repeat (1, 0) 10 = [(10, 0)] /\ 1 <= 0).
Proof.
  split; [|split].
  - split; [discriminate|]. split; [|split; reflexivity]. apply Forall_forall. intros x Hx.
    apply repeat_spec in Hx. subst x. discriminate.
  - unfold canonical. cbn [repeat]. repeat (constructor; [|repeat (constructor; [right; cbn; lia|]); constructor]). constructor.
  - intros [_ H]. lia.
Qed.

Lemma powers_of_same {A} (a : A) n d : 1 <= n -> written_with_powers (repeat a n) d -> d = [(a, n)].
Proof.
  intros Hn [Hnd [Hpos HP]].
  assert (H1 : Forall (fun xk : A * nat => fst xk = a) d).
  { apply Forall_forall. intros [x k] Hin. cbn. rewrite Forall_forall in Hpos. specialize (Hpos _ Hin). cbn in Hpos.
    apply (repeat_spec n a). apply (Permutation_in _ HP). unfold multiply_out. apply in_flat_map.
    exists (x, k). split; [exact Hin|]. cbn. destruct k; [lia|now left]. }
  destruct d as [|[x k] [|[y j] d]].
  - cbn in HP. apply Permutation_length in HP. rewrite repeat_length in HP. cbn in HP. lia.
  - inversion H1 as [|? ? E _]; subst. cbn in *.
    apply Permutation_length in HP. unfold multiply_out in HP. cbn in HP.
    rewrite app_length, !repeat_length in HP. cbn in HP. repeat f_equal. lia.
  - inversion H1 as [|? ? E H2]; subst. inversion H2 as [|? ? F _]; subst. cbn in *. subst.
    inversion Hnd as [|? ? Hni _]; subst. elim Hni. now left.
Qed.

Theorem thermal_not_formula so max : set_order so ->
  exists text, excited_state_w_equations_latex so max = Ok text /\
    forall l, ~ list_text (first_environment text) l.
Proof.
  intros Hso. destruct (thermal_lines so max Hso) as [lines [E _]]. exists (thermal_text max lines).
  split; [exact E|]. intros l H. exact (proj2 (proj2 no_paragraph) _ _ H (thermal_empty_line max lines)).
Qed.

Theorem thermal_typeset so max : set_order so -> max <= 9 ->
  exists text rows,
    excited_state_w_equations_latex so max = Ok text /\
    thermal_equations text (((0, 0), Unit) :: rows) /\
    Forall2 (fun w row =>
       (w = (1, 0) /\ row = (w, Sum [([], [((1, 0), 1)])])) \/
       (w <> (1, 0) /\ exists products gs,
          row = (w, Symmetrised products) /\ NoDup gs /\
          (forall g, In g gs <-> contributes (fst w) (snd w) g /\ canonical g /\ ~ (g = [w] /\ 1 <= snd w)) /\
          Forall2 (fun g pr => written_with_powers g (snd pr) /\
                     orderings_over_factorial g (product_of_factorials (fst pr))) gs products))
      (generate_labels_on_w max true) rows.
Proof.
  intros Hso Hmax. destruct (thermal_lines so max Hso) as [lines [E H]].
  exists (thermal_text max lines), (map line_read lines). split; [exact E|].
  pose proof (lines_good max lines H) as Hg. split.
  - apply (thermal_match max lines _ _ eq_refl Hg). cbn [every].
    change (thermal_row_read first_trow) with (Some ((0, 0), Unit)). cbv iota beta.
    rewrite every_map, (every_some _ line_read); [reflexivity|].
    apply Forall_forall. intros e He. apply trow_read_small.
    + rewrite Forall_forall in Hg. apply Hg, He.
    + destruct (Forall2_In_r _ _ _ _ H He) as [[m n] [Hw Hl]]. 
      apply (proj1 (proj2 (labels_exact max))) in Hw.
      apply (line_for_small (m, n)); [cbn; lia|exact Hl].
  - apply Forall2_map_r. refine (Forall2_imp _ _ _ _ _ H). intros w e [[-> ->]|[Hne [ps [gs [-> [Hnd [Hgs HF]]]]]]].
    + left. split; reflexivity.
    + right. split; [exact Hne|]. exists (map printed ps), gs. split; [reflexivity|]. split; [exact Hnd|].
      split; [exact Hgs|]. apply Forall2_map_r. exact HF.
Qed.

Theorem thermal_typeset_iff so max : set_order so ->
  forall text, excited_state_w_equations_latex so max = Ok text ->
  ((exists eqs, thermal_equations text eqs) <-> max <= 9).
Proof.
  intros Hso text Et. split.
  - intros [eqs H]. destruct (le_lt_dec max 9) as [|Hl]; [assumption|]. exfalso.
    destruct (thermal_lines so max Hso) as [lines [E HL]]. rewrite E in Et. injection Et as <-.
    apply (thermal_match max lines _ _ eq_refl (lines_good max lines HL)) in H.
    cbn [every] in H. rewrite every_map, every_none in H.
    + destruct (thermal_row_read first_trow); discriminate.
    + assert (Hin : In (10, 0) (generate_labels_on_w max true))
        by (apply (proj1 (proj2 (labels_exact max))); lia).
      destruct (Forall2_In_l _ _ _ _ HL Hin) as [e [He [[Hbad _]|[_ [ps [gs [-> [_ [Hgs HF]]]]]]]]]; [discriminate|].
      apply Exists_exists. exists (ESum (10, 0) ps). split; [exact He|]. apply trow_read_large.
      destruct (Forall2_In_l _ _ _ _ HF (proj2 (Hgs _) ten_ones)) as [d [Hd [Hw _]]].
      apply powers_of_same in Hw; [|lia]. subst d. apply Exists_exists. eexists. split; [exact Hd|].
      apply Exists_cons_hd. cbn. lia.
  - intros H. destruct (thermal_typeset so max Hso H) as [text' [rows [E [Hr _]]]].
    rewrite Et in E. injection E as <-. eauto.
Qed.

Lemma thermal_unique text r r' : thermal_equations text r -> thermal_equations text r' -> r = r'.
Proof.
  intros [l [name [ls [F [E [_ M]]]]]] [l' [name' [ls' [F' [E' [_ M']]]]]].
  rewrite (list_text_unique _ _ _ F F') in E. rewrite E in E'. injection E' as <- <-.
  destruct (rev (separated _ _)) as [|[|a x] y]; try contradiction. congruence.
Qed.
