(** Options joined in one word mean the same as apart. *)
From Coq Require Import List Arith ZArith Lia Ascii String Bool.
From Verif Require Import PyBase PyStr ModelTrunc ModelCommandLine SpecCommandLine SpecJoined ProofsCommandLine.
From Verif Require ModelMain.
Import ListNotations.
Local Open Scope string_scope.

Definition groupn (ss : list setting) (ws : list string) (ks : list (string * kind_of_word)) : Prop :=
  (forall rest, classify (ws ++ rest) = match classify rest with Done l => Done (ks ++ l)%list | Stop e => Stop e end) /\
  (forall l, starts (ks ++ l)) /\
  (forall l fuel ns ex, starts l -> List.length (ks ++ l) <= fuel ->
     exists fuel', List.length l <= fuel' /\ consume fuel ns ex (ks ++ l) = consume fuel' (fold_left apply_setting ss ns) ex l).

(** ** One word *)
Definition flag_name (f : setting) (c : ascii) : Prop := (f = SStd /\ c = "s"%char) \/ (f = SCode /\ c = "c"%char).

Lemma flags_cons fs t : flags fs t -> fs <> [] -> exists f c fs' t', fs = f :: fs' /\ t = String c t' /\ flag_name f c /\ flags fs' t'.
Proof. intros F N. destruct F; [congruence| |]; repeat eexists; try eassumption; [left|right]; now split. Qed.

Lemma flags_snoc fs t : flags fs t -> fs <> [] -> exists f c fs' t', fs = (fs' ++ [f])%list /\ t = t' ++ String c "" /\ flag_name f c /\ flags fs' t'.
Proof.
  induction 1 as [|ss t F IH|ss t F IH]; intros N; [congruence| |].
  - destruct ss as [|x ss]; [inversion F; subst; exists SStd, "s"%char, [], ""; repeat split; [left; now split|constructor]|].
    destruct IH as (f & c & fs' & t' & E & -> & Fn & F'); [discriminate|]. exists f, c, (SStd :: fs'), (String "s" t').
    split; [cbn; now rewrite E|]. split; [reflexivity|]. split; [exact Fn|now constructor].
  - destruct ss as [|x ss]; [inversion F; subst; exists SCode, "c"%char, [], ""; repeat split; [right; now split|constructor]|].
    destruct IH as (f & c & fs' & t' & E & -> & Fn & F'); [discriminate|]. exists f, c, (SCode :: fs'), (String "c" t').
    split; [cbn; now rewrite E|]. split; [reflexivity|]. split; [exact Fn|now constructor].
Qed.

Lemma flag_option f c : flag_name f c -> find_option (String "-" (String c "")) = Some (dest_of f) /\ nargs_of (dest_of f) = NZero /\
  needs_of f = Nothing /\ c <> "-"%char /\ c <> "="%char.
Proof. intros [[-> ->]|[-> ->]]; repeat split; discriminate. Qed.

Lemma parse_flag f c c2 r : flag_name f c -> c2 <> "="%char ->
  String "-" (String c (String c2 r)) <> "--" /\
  parse_optional (String "-" (String c (String c2 r))) = WOption (dest_of f) (String "-" (String c "")) (Some (String c2 r)).
Proof.
  intros Fn N. assert (Ec : Ascii.eqb c2 "=" = false) by now apply Ascii.eqb_neq.
  destruct Fn as [[-> ->]|[-> ->]]; (split; [discriminate|]); unfold parse_optional; cbn [Ascii.eqb negb Bool.eqb].
  all: cbn; rewrite ?Ec; destruct (split_equals r) as [[x y]|]; cbn; reflexivity.
Qed.

(** the last option of the word: with values in the words after it, or joined to it *)
Definition last_part (dl : dest) (tail : string) : dest * option (list string) :=
  (dl, match tail with EmptyString => None | _ => Some [tail] end).

Lemma joined_flags : forall fs t, flags fs t -> forall d c0 rest0 c dl tail, nargs_of d = NZero -> c0 <> "-"%char ->
  find_option (String "-" (String c "")) = Some dl -> (tail = "" \/ nargs_of dl <> NZero) ->
  joined d (String "-" (String c0 rest0)) (t ++ String c tail) =
  Done ((d, Some []) :: map (fun f => (dest_of f, Some [])) fs ++ [last_part dl tail])%list.
Proof.
  induction 1 as [|ss t F IH|ss t F IH]; intros d c0 rest0 c dl tail Nd N0 Fo T; cbn [String.append joined map List.app]; rewrite Nd;
    rewrite (proj2 (Ascii.eqb_neq c0 "-") N0).
  - rewrite Fo. destruct tail as [|x tail]; [reflexivity|]. destruct T as [T|T]; [discriminate T|].
    destruct dl; cbn in T; try congruence; reflexivity.
  - specialize (IH DStd "s"%char "" c dl tail eq_refl ltac:(discriminate) Fo T).
    change (find_option (String "-" (String "s" ""))) with (Some DStd). cbv iota beta.
    destruct (t ++ String c tail) as [|x y] eqn:Et; [destruct t; discriminate Et|]. fold joined. rewrite IH. reflexivity.
  - specialize (IH DCode "c"%char "" c dl tail eq_refl ltac:(discriminate) Fo T).
    change (find_option (String "-" (String "c" ""))) with (Some DCode). cbv iota beta.
    destruct (t ++ String c tail) as [|x y] eqn:Et; [destruct t; discriminate Et|]. fold joined. rewrite IH. reflexivity.
Qed.

Lemma take_flags fs t : flags fs t -> forall ns more,
  take_actions ns (map (fun f => (dest_of f, [])) fs ++ more) = take_actions (fold_left apply_setting fs ns) more.
Proof. induction 1 as [|ss t F IH|ss t F IH]; intros ns more; [reflexivity| |]; cbn [map List.app take_actions fold_left dest_of]; apply IH. Qed.

Lemma some_map fs : map (fun p : dest * option (list string) => (fst p, match snd p with Some v => v | None => [] end))
  (map (fun f => (dest_of f, Some [])) fs) = map (fun f => (dest_of f, [])) fs.
Proof. rewrite map_map. reflexivity. Qed.

Section Word.
  Variables (fs : list setting) (t : string) (c : ascii) (s : setting) (tail : string).
  Hypothesis some : fs <> [].
  Hypothesis written : flags fs t.
  Hypothesis option : find_option (String "-" (String c "")) = Some (dest_of s).
  Hypothesis not_equals : c <> "="%char.
  Hypothesis tail_ok : tail = "" \/ nargs_of (dest_of s) <> NZero.

  Lemma parse_word : exists d n e, String "-" (t ++ String c tail) <> "--" /\
    parse_optional (String "-" (t ++ String c tail)) = WOption d n (Some e) /\
    joined d n e = Done (map (fun f => (dest_of f, Some [])) fs ++ [last_part (dest_of s) tail])%list.
  Proof.
    destruct (flags_cons _ _ written some) as (f & c1 & fs' & t' & -> & -> & Fn & F'). cbn [String.append].
    destruct (flag_option _ _ Fn) as (O & N & _ & D & _).
    assert (exists c2 r, t' ++ String c tail = String c2 r /\ c2 <> "="%char) as (c2 & r & E & Ne).
    { destruct F'; cbn; eexists _, _; (split; [reflexivity|]); [exact not_equals|discriminate|discriminate]. }
    rewrite E. destruct (parse_flag f c1 c2 r Fn Ne) as [A B]. do 3 eexists. split; [exact A|]. split; [exact B|].
    rewrite <- E. cbn [map List.app]. now apply joined_flags.
  Qed.

  Definition word_group (ws : list string) (ks : list (string * kind_of_word)) : Prop :=
    forall ns l, starts l -> exists vs, (match tail with EmptyString => values_of (dest_of s) (ks ++ l) = Done (vs, l) | _ => ks = [] /\ vs = [tail] end) /\
      take_action ns (dest_of s) vs = Done (apply_setting ns s).

  Lemma word_is ws ks :
    (forall rest, classify (ws ++ rest) = match classify rest with Done l => Done (ks ++ l)%list | Stop e => Stop e end) ->
    word_group ws ks -> exists ks', groupn (fs ++ [s])%list (String "-" (t ++ String c tail) :: ws) ks'.
  Proof.
    intros C G. destruct parse_word as (d & n & e & A & B & J). exists ((String "-" (t ++ String c tail), KOption d n (Some e)) :: ks).
    split; [|split].
    - intros rest. cbn [List.app]. rewrite (classify_option _ _ _ _ _ A B), C. destruct (classify rest); reflexivity.
    - intros l. exact Logic.I.
    - intros l fuel ns ex S L. exists (fuel - 1). cbn [List.app] in *. split; [cbn in L; rewrite app_length in L; lia|].
      destruct (G (fold_left apply_setting fs ns) l S) as (vs & V & T).
      rewrite (consume_step _ _ _ _ _ _ _ _ (map (fun f => (dest_of f, [])) fs ++ [(dest_of s, vs)])%list l L).
      + rewrite (take_flags _ _ written). cbn [take_actions]. rewrite T, fold_left_app. reflexivity.
      + unfold consume_optional. rewrite J. rewrite rev_app_distr. cbn [rev List.app]. unfold last_part in *. destruct tail as [|x y].
        * rewrite V, rev_involutive, some_map. reflexivity.
        * destruct V as [-> ->]. rewrite map_app, some_map. reflexivity.
  Qed.
End Word.

Lemma classify_nothing : forall rest, classify ([] ++ rest) = match classify rest with Done l => Done ([] ++ l)%list | Stop e => Stop e end.
Proof. intros rest. cbn. destruct (classify rest); reflexivity. Qed.

Lemma text_option s v c : needs_of s = Text v -> short_name s = String "-" (String c "") ->
  find_option (String "-" (String c "")) = Some (dest_of s) /\ c <> "="%char.
Proof. intros N E. destruct s; try discriminate N; cbn in E; try discriminate E; injection E as <-; split; (reflexivity || discriminate). Qed.

Lemma joins_group ss ws : joins ss ws -> exists ks, groupn ss ws ks.
Proof.
  intros W. destruct W as [s ws W|fs t N F|fs t s c v N F Ns E P|fs t s c v N F Ns E V V'|fs t zs ws N F Z Fw|fs t z w N F Nw].
  - destruct (writes_group s ws W) as (ks & A & B & C). exists ks. split; [exact A|]. split; [exact B|exact C].
  - destruct (flags_snoc _ _ F N) as (f & c & fs' & t' & -> & -> & Fn & F'). destruct (flag_option _ _ Fn) as (O & Nz & Nf & D & Ne).
    destruct fs' as [|x fs'].
    + inversion F'; subst. cbn [String.append List.app].
      destruct (writes_group f [String "-" (String c "")]) as (ks & A & B & C); [|exists ks; split; [exact A|split; [exact B|exact C]]].
      apply write_flag; [exact Nf|]. left. now destruct Fn as [[-> ->]|[-> ->]].
    + eapply (word_is (x :: fs') t' c f "" ltac:(discriminate) F' O Ne (or_introl eq_refl) [] []); [exact classify_nothing|].
      intros ns l S. exists []. split; [exact (values_none _ l Nz)|exact (proj2 (take_flag ns f Nf))].
  - destruct (text_option s v c Ns E) as [O Ne]. destruct (parse_plain v P) as [V Ev].
    eapply (word_is fs t c s "" N F O Ne (or_introl eq_refl) [v] [(v, KValue)]).
    + intros rest. cbn [List.app]. now apply classify_value.
    + intros ns l S. exists [v]. destruct (take_text ns s v Ns V) as [A T]. split; [exact (values_one _ v l A)|exact T].
  - destruct (text_option s v c Ns E) as [O Ne]. destruct (take_text nothing_asked s v Ns V') as [A _].
    eapply (word_is fs t c s v N F O Ne (or_intror _) [] []); [exact classify_nothing|].
    intros ns l S. exists [v]. split; [destruct v; [congruence|now split]|exact (proj2 (take_text ns s v Ns V'))].
    Unshelve. rewrite A. discriminate.
  - eapply (word_is fs t "t"%char (STrunc zs) "" N F eq_refl ltac:(discriminate) (or_introl eq_refl) ws (map (fun w => (w, KValue)) ws)).
    + intros rest. clear Z. induction Fw as [|z w zs ws H Fw IH]; [apply classify_nothing|]. cbn [List.app map].
      destruct (parse_number _ _ H) as [A B]. rewrite (classify_value _ _ A B), IH. destruct (classify rest); reflexivity.
    + intros ns l S. exists ws. split; [apply values_plus; [|exact S]; intros ->; inversion Fw; subst; congruence|].
      cbn [dest_of take_action]. rewrite (no_dashes_numbers _ _ Fw), (all_ints_are _ _ Fw). reflexivity.
  - eapply (word_is fs t "t"%char (STrunc [z]) w N F eq_refl ltac:(discriminate) (or_intror _) [] []); [exact classify_nothing|].
    assert (Fw : Forall2 number_text [z] [w]) by now repeat constructor.
    intros ns l S. exists [w]. split.
    + destruct w; [|now split]. destruct Nw as ([|a b] & Nn & _ & [[Ew _]|[Ew _]]); try discriminate Ew; congruence.
    + cbn [dest_of take_action]. rewrite (no_dashes_numbers _ _ Fw), (all_ints_are _ _ Fw). reflexivity.
    Unshelve. discriminate.
Qed.

Lemma joined_groups sss wss : Forall2 joins sss wss -> exists ks,
  (forall rest, classify (List.concat wss ++ rest) = match classify rest with Done l => Done (ks ++ l)%list | Stop e => Stop e end) /\
  (forall l, starts l -> starts (ks ++ l)) /\
  (forall l fuel ns ex, starts l -> List.length (ks ++ l) <= fuel ->
     exists fuel', List.length l <= fuel' /\ consume fuel ns ex (ks ++ l) = consume fuel' (fold_left apply_setting (List.concat sss) ns) ex l).
Proof.
  induction 1 as [|ss ws sss wss W F (ks & A & B & C)].
  - exists []. split; [|split].
    + intros rest. cbn. destruct (classify rest); reflexivity.
    + intros l S. exact S.
    + intros l fuel ns ex S L. exists fuel. split; [exact L|reflexivity].
  - destruct (joins_group ss ws W) as (k1 & A1 & B1 & C1). exists (k1 ++ ks)%list. split; [|split].
    + intros rest. cbn [List.concat]. rewrite <- app_assoc, A1, A. destruct (classify rest); [|reflexivity]. now rewrite app_assoc.
    + intros l S. rewrite <- app_assoc. apply B1.
    + intros l fuel ns ex S L. rewrite <- app_assoc in *. destruct (C1 (ks ++ l)%list fuel ns ex (B l S) L) as (f1 & L1 & E1).
      destruct (C l f1 (fold_left apply_setting ss ns) ex S L1) as (f2 & L2 & E2). exists f2. split; [exact L2|].
      cbn [List.concat]. rewrite fold_left_app, E1, E2. reflexivity.
Qed.

Theorem joined_command_line sss wss : Forall2 joins sss wss -> parse_args (List.concat wss) = Done (asked (List.concat sss)).
Proof.
  intros F. destruct (joined_groups sss wss F) as (ks & A & _ & C). specialize (A []). rewrite app_nil_r in A. cbn in A.
  unfold parse_args. rewrite A. destruct (C [] (List.length (ks ++ [])%list) defaults false) as (f & _ & E); [exact Logic.I|lia|].
  rewrite E. destruct f; reflexivity.
Qed.

Theorem same_run lt ln lp pt pn pl pc messages fs sss wss wss' : Forall2 joins sss wss -> Forall2 writes (List.concat sss) wss' ->
  ModelMain.main lt ln lp pt pn pl pc messages fs (List.concat wss) = ModelMain.main lt ln lp pt pn pl pc messages fs (List.concat wss').
Proof. intros J W. unfold ModelMain.main. now rewrite (joined_command_line _ _ J), (command_line _ _ W). Qed.
