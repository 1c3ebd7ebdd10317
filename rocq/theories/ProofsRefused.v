(** Words that are no options and values that nothing takes end the program in
    the parser. *)
From Coq Require Import List Arith ZArith Lia Ascii String Bool.
From Verif Require Import PyBase PyStr ModelTrunc ModelRun ModelCommandLine ModelMain SpecCommandLine SpecRefused ProofsCommandLine.
Import ListNotations.
Local Open Scope string_scope.

Lemma names_are s d : In (s, d) option_strings -> In s names.
Proof. intros I. apply (in_map fst) in I. exact I. Qed.

Lemma split_equals_is s : forall a b, split_equals s = Some (a, b) -> s = a ++ "=" ++ b.
Proof.
  induction s as [|c s IH]; intros a b; cbn [split_equals]; [discriminate|].
  destruct (Ascii.eqb c "=") eqn:E; [apply Ascii.eqb_eq in E as ->; now intros [= <- <-]|].
  destruct (split_equals s) as [[x y]|]; [|discriminate]. intros [= <- <-]. now rewrite (IH x y eq_refl).
Qed.
Lemma prefix_is a : forall s, String.prefix a s = true -> exists r, s = a ++ r.
Proof.
  induction a as [|c a IH]; intros s H; [now exists s|]. destruct s as [|x s]; cbn in H; [discriminate|].
  destruct (ascii_dec c x) as [->|]; [|discriminate]. destruct (IH s H) as (r & ->). now exists r.
Qed.

Lemma long_tuples p (e : option string) d n x : p <> "--" -> (exists r, p = "--" ++ r) ->
  flat_map (fun q : string * dest => if String.prefix p (fst q) then [(snd q, fst q, e)] else []) option_strings = [(d, n, x)] ->
  name_or_beginning p.
Proof.
  intros N (r & ->) E. assert (I : In (d, n, x) (flat_map (fun q : string * dest => if String.prefix ("--" ++ r) (fst q) then [(snd q, fst q, e)] else []) option_strings)).
  { rewrite E. now left. }
  apply in_flat_map in I as ([m k] & J & I). cbn [fst snd] in I. destruct (String.prefix _ m) eqn:P; [|contradiction].
  apply prefix_is in P as (rest & ->). right. destruct r as [|c r]; [now destruct N|]. exists c, r, rest. split; [reflexivity|].
  exact (names_are _ _ J).
Qed.

Lemma options_only w d n e : parse_optional w = WOption d n e -> option_word w.
Proof.
  unfold parse_optional. destruct w as [|c r]; [discriminate|]. destruct (negb (Ascii.eqb c "-")) eqn:C; [discriminate|].
  apply negb_false_iff, Ascii.eqb_eq in C as ->.
  destruct (find_option (String "-" r)) as [d1|] eqn:F.
  { intros _. left. exists (String "-" r). split; [left; exact (names_are _ _ (find_option_in _ _ F))|now left]. }
  destruct r as [|c2 r]; [discriminate|].
  destruct (match split_equals (String "-" (String c2 r)) with Some (a, b) => match find_option a with Some d => Some (WOption d a (Some b)) | None => None end | None => None end) as [w|] eqn:S.
  { intros _. destruct (split_equals _) as [[a b]|] eqn:Q; [|discriminate S]. destruct (find_option a) as [d1|] eqn:G; [|discriminate S].
    left. exists a. split; [left; exact (names_are _ _ (find_option_in _ _ G))|]. right. exists b. exact (split_equals_is _ _ _ Q). }
  clear S. unfold option_tuples. destruct (Ascii.eqb c2 "-") eqn:C.
  - apply Ascii.eqb_eq in C as ->.
    assert (X : forall p (x : option string) q, (exists r', p = "--" ++ r') -> p <> "--" ->
      match flat_map (fun q : string * dest => if String.prefix p (fst q) then [(snd q, fst q, x)] else []) option_strings with
      | [] => q | [(d, name, explicit)] => WOption d name explicit | _ :: _ :: _ => WAmbiguous end = WOption d n e ->
      (forall a b c, q <> WOption a b c) -> name_or_beginning p).
    { intros p x q B N E Q. destruct (flat_map _ _) as [|[[d1 n1] e1] [|? ?]] eqn:T; [now apply Q in E| |discriminate].
      exact (long_tuples _ _ _ _ _ N B T). }
    assert (Q : forall b : bool, forall a x c, (if b then WValue else if has_char " " (String "-" (String "-" r)) then WValue else WUnknown) <> WOption a x c)
      by (intros []; [discriminate|]; destruct (has_char _ _); discriminate).
    destruct (split_equals (String "-" (String "-" r))) as [[a b]|] eqn:S.
    + intros E. pose proof (split_equals_is _ _ _ S) as W. left. exists a. split; [|right; now exists b].
      assert (B : exists r', a = "--" ++ r').
      { cbn [split_equals] in S. cbn in S. destruct (split_equals r) as [[x y]|]; [|discriminate S]. injection S as <- <-. now exists x. }
      destruct (String.eqb a "--") eqn:D.
      * apply String.eqb_eq in D as ->. cbn in E. discriminate E.
      * apply String.eqb_neq in D. exact (X a (Some b) _ B D E (Q _)).
    + intros E. left. exists (String "-" (String "-" r)). split; [|now left].
      destruct r as [|c r]; [cbn in E; discriminate E|].
      refine (X _ None _ _ _ E (Q _)); [now eexists|discriminate].
  - intros E.
    destruct (flat_map _ _) as [|[[d1 n1] e1] [|? ?]] eqn:T; [destruct (negative_number _); [|destruct (has_char _ _)]; discriminate E| |discriminate E].
    clear E. assert (I : In (d1, n1, e1) (flat_map (fun p : string * dest => if String.eqb (fst p) (String "-" (String c2 "")) then [(snd p, fst p, Some r)]
       else if String.prefix (String "-" (String c2 r)) (fst p) then [(snd p, fst p, None)] else []) option_strings)) by (rewrite T; now left).
    apply in_flat_map in I as ([m k] & J & I). cbn [fst snd] in I. destruct (String.eqb m _) eqn:M.
    + apply String.eqb_eq in M as ->. right. right. right. exists c2, r. split; [|split; [reflexivity|]].
      * clear -J. cbn in J. repeat (destruct J as [J|J]; [first [discriminate J|injection J as <- <-; cbn; tauto]|]). contradiction.
      * intros W. injection W as -> ->. discriminate T.
    + destruct (String.prefix _ m) eqn:P; [|contradiction]. apply prefix_is in P as (rest & ->).
      assert (K : In (String "-" (String c2 r)) (flat_map prefixes names)).
      { apply in_flat_map. exists (String "-" (String c2 r) ++ rest). split; [exact (names_are _ _ J)|apply prefixes_in]. }
      revert F T C. clear -K. cbn in K. intros F T C.
      repeat (destruct K as [K|K]; [try discriminate K; injection K as <- <-; first [discriminate F|discriminate C|discriminate T|unfold option_word; tauto]|]).
      contradiction.
Qed.

(** ** Nothing is accepted after a word that is not read *)
Lemma consume_extras fuel : forall ns l ns', consume fuel ns true l <> Done ns'.
Proof.
  induction fuel as [|fuel IH]; intros ns [|[w k] l] ns'; cbn [consume]; try discriminate.
  destruct k; try apply IH. destruct (consume_optional _ _ _ _) as [[actions rest]|]; [|discriminate].
  destruct (take_actions _ _); [apply IH|discriminate].
Qed.

Lemma values_keep d l vs rest w : values_of d l = Done (vs, rest) -> In (w, KUnknown) l -> In (w, KUnknown) rest.
Proof.
  unfold values_of. destruct (nargs_of d).
  - now intros [= <- <-].
  - destruct l as [|[x []] l]; try discriminate. intros [= <- <-] [E|I]; [discriminate E|exact I].
  - set (span := fix span (l0 : list (string * kind_of_word)) : list string * list (string * kind_of_word) :=
      match l0 with
      | [] => ([], l0)
      | (w, KValue) :: r => (w :: fst (span r), snd (span r))
      | (w, KDashes) :: r => ([], l0)
      | (w, KOption d n e) :: r => ([], l0)
      | (w, KUnknown) :: r => ([], l0)
      end).
    assert (S : forall l, In (w, KUnknown) l -> In (w, KUnknown) (snd (span l))).
    { clear. induction l as [|[x k] l IH]; [intros []|]. destruct k; cbn [span]; fold span; cbn [snd]; try (intros I; exact I).
      intros [E|I]; [discriminate E|now apply IH]. }
    destruct l as [|[x []] l]; try discriminate. intros E I. injection E as <- <-. apply (S ((x, KValue) :: l)). exact I.
Qed.
Lemma optional_keep d n e l actions rest w : consume_optional d n e l = Done (actions, rest) -> In (w, KUnknown) l -> In (w, KUnknown) rest.
Proof.
  unfold consume_optional. destruct (match e with Some e => joined d n e | None => Done [(d, None)] end) as [ds|]; [|discriminate].
  destruct (rev ds) as [|[dl [v|]] before]; try (now intros [= <- <-]).
  destruct (values_of dl l) as [[vs r]|] eqn:V; [|discriminate]. intros [= <- <-]. exact (values_keep _ _ _ _ _ V).
Qed.
Lemma consume_unknown fuel : forall ns ex l w ns', In (w, KUnknown) l -> consume fuel ns ex l <> Done ns'.
Proof.
  induction fuel as [|fuel IH]; intros ns ex [|[x k] l] w ns' I; cbn [consume]; try discriminate; try contradiction.
  destruct k as [| |d n e|]; try apply consume_extras.
  destruct (consume_optional _ _ _ _) as [[actions rest]|] eqn:E; [|discriminate].
  destruct (take_actions _ _) as [n1|]; [|discriminate]. apply (IH _ _ _ w). destruct I as [I|I]; [discriminate I|].
  exact (optional_keep _ _ _ _ _ _ _ E I).
Qed.

Lemma classify_in w : w <> "--" -> forall before after l, ~ In "--" before -> classify (before ++ w :: after) = Done l ->
  parse_optional w <> WAmbiguous /\ (parse_optional w = WUnknown -> In (w, KUnknown) l).
Proof.
  intros N before after. induction before as [|x before IH]; intros l B; cbn [app classify].
  - rewrite (proj2 (String.eqb_neq w "--") N). destruct (parse_optional w) eqn:P; try discriminate;
      (destruct (classify after); [|discriminate]); intros [= <-]; (split; [discriminate|]); try discriminate. intros _. now left.
  - rewrite (proj2 (String.eqb_neq x "--")) by (intros ->; apply B; now left).
    assert (B' : ~ In "--" before) by (intros I; apply B; now right).
    destruct (parse_optional x); try discriminate; (destruct (classify (before ++ w :: after)) as [l'|]; [|discriminate]);
      intros [= <-]; destruct (IH l' B' eq_refl) as [P U]; (split; [exact P|]); intros Q; right; exact (U Q).
Qed.

Lemma accepted_words before w after ns : parse_args (before ++ w :: after)%list = Done ns -> ~ In "--" before -> dashed w -> w <> "--" ->
  option_word w.
Proof.
  unfold parse_args. destruct (classify _) as [l|] eqn:C; [|discriminate]. intros E B D N.
  destruct (classify_in w N before after l B C) as [A U].
  destruct (parse_optional w) as [|d n e| |] eqn:P.
  - destruct (dashed_kind w [] D) as [K|(k & l' & K & Z)]; cbn [classify] in K; rewrite (proj2 (String.eqb_neq w "--") N), P in K;
      [discriminate K|]. injection K as <- _. congruence.
  - exact (options_only _ _ _ _ P).
  - now apply (consume_unknown _ _ _ _ w) in E; [|apply U].
  - congruence.
Qed.

(** The other way round: words of other kinds are refused, with the files as
    they were. *)
Lemma refused lt ln lp pt pn pl pc messages fs words :
  (forall ns, parse_args words <> Done ns) <-> exists s, main lt ln lp pt pn pl pc messages fs words = (fs, Parser s).
Proof.
  unfold main. destruct (parse_args words) as [ns|s].
  - split; [intros H; now destruct (H ns)|]. intros (s & E).
    destruct (run _ _ _ _ _ _ _ _ _) as [fs2 r]. discriminate E.
  - split; [intros _; now exists s|discriminate].
Qed.

(** ** Values that nothing takes *)
Lemma writes_loose s ws : writes s ws -> (forall zs, needs_of s <> Numbers zs) -> exists ks,
  (forall rest, classify (ws ++ rest) = match classify rest with Done l => Done (ks ++ l)%list | Stop e => Stop e end) /\
  (forall l, starts (ks ++ l)) /\
  (forall l fuel ns ex, List.length (ks ++ l) <= fuel ->
     exists fuel', List.length l <= fuel' /\ consume fuel ns ex (ks ++ l) = consume fuel' (apply_setting ns s) ex l).
Proof.
  intros W NN. destruct W as [n N I|n v N I P|n v N I V O|c v N O Ec V|zs ws N Z F].
  - destruct (parse_name s n I) as (X & full & E). destruct (take_flag nothing_asked s N) as [A _].
    exists [(n, KOption (dest_of s) full None)]. split; [|split].
    + intros rest. cbn [app]. now apply classify_option.
    + intros l. exact Logic.I.
    + intros l fuel ns ex L. exists (fuel - 1). cbn [app] in *. split; [cbn in L; lia|].
      rewrite (consume_step _ _ _ _ _ _ _ _ [(dest_of s, [])] l L).
      * cbn [take_actions]. rewrite (proj2 (take_flag ns s N)). reflexivity.
      * unfold consume_optional. cbn [rev app]. rewrite (values_none _ l A). reflexivity.
  - destruct (parse_name s n I) as (X & full & E). destruct (parse_plain v P) as [V Ev]. destruct (take_text nothing_asked s v N V) as [A _].
    exists [(n, KOption (dest_of s) full None); (v, KValue)]. split; [|split].
    + intros rest. cbn [app]. rewrite (classify_option _ _ _ _ _ X E), (classify_value _ _ V Ev). destruct (classify rest); reflexivity.
    + intros l. exact Logic.I.
    + intros l fuel ns ex L. exists (fuel - 1). cbn [app] in *. split; [cbn in L; lia|].
      rewrite (consume_step _ _ _ _ _ _ _ _ [(dest_of s, [v])] l L).
      * cbn [take_actions]. rewrite (proj2 (take_text ns s v N V)). reflexivity.
      * unfold consume_optional. cbn [rev app]. rewrite (values_one _ v l A). reflexivity.
  - destruct (parse_equals s n v N I O) as (X & full & E). destruct (take_text nothing_asked s v N V) as [A _].
    exists [(n ++ "=" ++ v, KOption (dest_of s) full (Some v))]. split; [|split].
    + intros rest. cbn [List.app]. now apply classify_option.
    + intros l. exact Logic.I.
    + intros l fuel ns ex L. exists (fuel - 1). cbn [List.app] in *. split; [cbn in L; lia|].
      rewrite (consume_step _ _ _ _ _ _ _ _ [(dest_of s, [v])] l L).
      * cbn [take_actions]. rewrite (proj2 (take_text ns s v N V)). reflexivity.
      * unfold consume_optional. destruct v; cbn [joined]; rewrite A; reflexivity.
  - destruct (parse_joined s c v O Ec) as (X & E). destruct (take_text nothing_asked s (String c v) N V) as [A _].
    exists [(short_name s ++ String c v, KOption (dest_of s) (short_name s) (Some (String c v)))]. split; [|split].
    + intros rest. cbn [List.app]. now apply classify_option.
    + intros l. exact Logic.I.
    + intros l fuel ns ex L. exists (fuel - 1). cbn [List.app] in *. split; [cbn in L; lia|].
      rewrite (consume_step _ _ _ _ _ _ _ _ [(dest_of s, [String c v])] l L).
      * cbn [take_actions]. rewrite (proj2 (take_text ns s (String c v) N V)). reflexivity.
      * unfold consume_optional. cbn [joined]. rewrite A. reflexivity.
  - now destruct (NN zs).
Qed.

Lemma consume_loose w l fuel ns ex ns' : consume fuel ns ex ((w, KValue) :: l) <> Done ns'.
Proof. destruct fuel as [|fuel]; cbn [consume]; [discriminate|]. apply consume_extras. Qed.

Lemma loose_first w rest ns : plain w -> parse_args (w :: rest) <> Done ns.
Proof.
  intros P. destruct (parse_plain w P) as [N V]. unfold parse_args. rewrite (classify_value _ _ N V).
  destruct (classify rest) as [l|]; [|discriminate]. apply consume_loose.
Qed.
Lemma loose_values ss wss s ws w rest ns : Forall2 writes ss wss -> writes s ws -> (forall zs, needs_of s <> Numbers zs) -> plain w ->
  parse_args (List.concat wss ++ ws ++ w :: rest)%list <> Done ns.
Proof.
  intros F W NN P. destruct (groups ss wss F) as (ks & A & _ & C). destruct (writes_loose s ws W NN) as (k1 & A1 & B1 & C1).
  destruct (parse_plain w P) as [N V]. unfold parse_args. rewrite A, A1, (classify_value _ _ N V).
  destruct (classify rest) as [l|]; [|discriminate].
  match goal with |- consume ?f ?n ?e (_ ++ ?l) <> _ => destruct (C l f n e) as (f' & L & ->) end; [apply B1|lia|].
  match goal with |- consume ?f ?n ?e (_ ++ ?l) <> _ => destruct (C1 l f n e) as (f'' & L' & ->) end; [exact L|].
  apply consume_loose.
Qed.

Lemma unknown_words_refused lt ln lp pt pn pl pc messages fs before w after :
  ~ In "--" before -> dashed w -> w <> "--" -> ~ option_word w ->
  exists s, main lt ln lp pt pn pl pc messages fs (before ++ w :: after)%list = (fs, Parser s).
Proof.
  intros B D N O. apply refused. intros ns E. exact (O (accepted_words _ _ _ _ E B D N)).
Qed.

Lemma last_pair {A B} (R : A -> B -> Prop) l m : Forall2 R l m -> l = [] \/
  exists l' x m' y, l = (l' ++ [x])%list /\ m = (m' ++ [y])%list /\ Forall2 R l' m' /\ R x y.
Proof.
  induction 1 as [|x y l m H F IH]; [now left|]. right. destruct IH as [->|(l' & a & m' & b & -> & -> & F' & H')].
  - inversion F. exists [], x, [], y. repeat split; auto.
  - exists (x :: l'), a, (y :: m'), b. repeat split; auto.
Qed.
Lemma loose_values_refused lt ln lp pt pn pl pc messages fs ss wss w rest :
  Forall2 writes ss wss -> (forall before zs, ss <> (before ++ [STrunc zs])%list) -> plain w ->
  exists s, main lt ln lp pt pn pl pc messages fs (List.concat wss ++ w :: rest)%list = (fs, Parser s).
Proof.
  intros F T P. apply refused. intros ns. destruct (last_pair _ _ _ F) as [->|(ss' & s & wss' & ws & -> & -> & F' & W)].
  - inversion F. now apply loose_first.
  - rewrite concat_app. cbn [List.concat]. rewrite app_nil_r, <- app_assoc. apply (loose_values ss' wss' s ws w rest ns F' W); [|exact P].
    intros zs E. destruct s; try discriminate E. exact (T ss' zs0 eq_refl).
Qed.

Lemma letter_not_int c r : letter_or_dot c -> int_of_string (String c r) = None.
Proof.
  intros L. assert (X : blank_char c = false /\ digit_char c = false /\ Ascii.eqb c "-" = false /\ Ascii.eqb c "+" = false /\ Ascii.eqb c "_" = false).
  { assert (Y : forall x, (nat_of_ascii x <> nat_of_ascii c) -> Ascii.eqb c x = false) by (intros x H; apply Ascii.eqb_neq; now intros ->).
    assert (N : 65 <= nat_of_ascii c <= 90 \/ 97 <= nat_of_ascii c <= 122 \/ nat_of_ascii c = 46) by (destruct L as [->|L]; [right; right; reflexivity|tauto]).
    split; [|split; [|repeat split; apply Y; cbn; lia]].
    - unfold blank_char. apply not_true_iff_false. intros E. apply existsb_exists in E as (x & I & E). apply Nat.eqb_eq in E. cbn in I. lia.
    - unfold digit_char. apply not_true_iff_false. intros E. apply andb_true_iff in E as [A B]. apply Nat.leb_le in A, B. lia. }
  destruct X as (B & D & M & Q & U). unfold int_of_string. cbn [list_ascii_of_string drop_blanks]. rewrite B.
  assert (R : exists t, rev (drop_blanks (rev (c :: list_ascii_of_string r))) = c :: t).
  { assert (G : forall l, exists t, rev (drop_blanks (l ++ [c])) = c :: t).
    { induction l as [|x l IH]; cbn [List.app drop_blanks]; [rewrite B; now exists []|]. destruct (blank_char x); [exact IH|].
      cbn [rev]. rewrite rev_app_distr. cbn. now eexists. }
    cbn [rev]. apply G. }
  destruct R as (t & ->). rewrite M, Q. cbn [digits_value]. rewrite D, U. reflexivity.
Qed.
Lemma all_ints_none l w : In w l -> int_of_string w = None -> all_ints l = None.
Proof.
  induction l as [|x l IH]; [intros []|]. intros [->|I] E; cbn [all_ints]; [now rewrite E|]. rewrite (IH I E). now destruct (int_of_string x).
Qed.
Lemma classify_plains ws rest : Forall plain ws -> classify (ws ++ rest)%list =
  match classify rest with Done l => Done (map (fun w => (w, KValue)) ws ++ l)%list | Stop e => Stop e end.
Proof.
  induction 1 as [|w ws P F IH]; [cbn; destruct (classify rest); reflexivity|]. cbn [List.app map]. destruct (parse_plain w P) as [N V].
  rewrite (classify_value _ _ N V), IH. destruct (classify rest); reflexivity.
Qed.
Lemma values_all ws l vs rest : values_of DT (map (fun w => (w, KValue)) ws ++ l)%list = Done (vs, rest) -> exists more, vs = (ws ++ more)%list.
Proof.
  unfold values_of. cbn [nargs_of].
  set (span := fix span (l0 : list (string * kind_of_word)) : list string * list (string * kind_of_word) :=
    match l0 with
    | [] => ([], l0)
    | (w, KValue) :: r => (w :: fst (span r), snd (span r))
    | (w, KDashes) :: r => ([], l0)
    | (w, KOption d n e) :: r => ([], l0)
    | (w, KUnknown) :: r => ([], l0)
    end).
  assert (S : forall ws, fst (span (map (fun w => (w, KValue)) ws ++ l)%list) = (ws ++ fst (span l))%list).
  { clear. induction ws as [|w ws IH]; [reflexivity|]. cbn [map List.app span]. fold span. cbn [fst]. now rewrite IH. }
  specialize (S ws). revert S. generalize (map (fun w : string => (w, KValue)) ws ++ l)%list. intros q S E.
  destruct q as [|[x []] q]; try discriminate E. exists (fst (span l)). rewrite <- S. injection E as <- <-. reflexivity.
Qed.
Lemma dashes_keep w l : w <> "--" -> In w l -> In w (remove_dashes l).
Proof.
  intros N. induction l as [|x l IH]; [intros []|]. cbn [remove_dashes]. destruct (String.eqb x "--") eqn:E.
  - apply String.eqb_eq in E as ->. intros [E|I]; [now destruct N|exact I].
  - intros [->|I]; [now left|right; now apply IH].
Qed.
Lemma not_a_number_refused lt ln lp pt pn pl pc messages fs ss wss ws c r rest :
  Forall2 writes ss wss -> Forall plain ws -> In (String c r) ws -> letter_or_dot c ->
  exists s, main lt ln lp pt pn pl pc messages fs (List.concat wss ++ "-t" :: ws ++ rest)%list = (fs, Parser s).
Proof.
  intros F P I L. apply refused. intros ns. destruct (groups ss wss F) as (ks & A & _ & C). unfold parse_args. rewrite A.
  rewrite (classify_option "-t" DT "-t" None) by (discriminate || reflexivity). rewrite (classify_plains ws rest P).
  destruct (classify rest) as [l|]; [|discriminate].
  match goal with |- consume ?f ?n ?e (_ ++ ?l) <> _ => destruct (C l f n e) as (f' & Lf & ->) end; [exact Logic.I|lia|].
  destruct f' as [|f']; [discriminate|]. cbn [consume].
  destruct (consume_optional DT "-t" None _) as [[actions rst]|] eqn:E; [|discriminate].
  unfold consume_optional in E. cbn [rev List.app] in E. destruct (values_of DT _) as [[vs rs]|] eqn:V; [|discriminate E].
  destruct (values_all _ _ _ _ V) as (more & ->). cbn [map List.app] in E. injection E as <- <-. cbn [take_actions take_action].
  rewrite (all_ints_none _ (String c r)); [discriminate| |exact (letter_not_int c r L)].
  apply dashes_keep; [|apply in_or_app; now left]. intros [= -> ->]. destruct L as [L|L]; [discriminate L|cbn in L; lia].
Qed.

Lemma stops_usage words : forall s, classify words = Stop s -> s = Usage.
Proof.
  induction words as [|w words IH]; intros s; cbn [classify]; [discriminate|]. destruct (String.eqb w "--"); [discriminate|].
  destruct (parse_optional w); try (now intros [= <-]); (destruct (classify words); [discriminate|]); intros [= <-]; now apply IH.
Qed.
Lemma ambiguous_words_refused lt ln lp pt pn pl pc messages fs before w after :
  ~ In "--" before -> w = "-lh" \/ (exists v, w = "--=" ++ v) ->
  main lt ln lp pt pn pl pc messages fs (before ++ w :: after)%list = (fs, Parser Usage).
Proof.
  intros B W. assert (N : w <> "--") by (destruct W as [->|(v & ->)]; discriminate).
  assert (P : parse_optional w = WAmbiguous).
  { destruct W as [->|(v & ->)]; [vm_compute; reflexivity|]. cbn. reflexivity. }
  unfold main, parse_args. destruct (classify _) as [l|s] eqn:E; [now destruct (classify_in w N before after l B E)|].
  rewrite (stops_usage _ _ E). reflexivity.
Qed.

(** A check for words that are no options. *)
Definition read_as_option (w : string) : bool := match parse_optional w with WOption _ _ _ => true | _ => false end.
Lemma beginnings n : name_or_beginning n -> In n (filter (fun n => Nat.leb 2 (String.length n)) (flat_map prefixes names)).
Proof.
  intros [I|(c & r & rest & -> & I)]; apply filter_In.
  - split; [|cbn in I; repeat (destruct I as [<-|I]; [reflexivity|]); contradiction]. apply in_flat_map. exists n. split; [exact I|].
    assert (E : n ++ "" = n) by (clear; induction n as [|c n IH]; [reflexivity|]; cbn; now rewrite IH).
    rewrite <- E at 2. apply prefixes_in.
  - split; [|reflexivity]. apply in_flat_map. exists (("--" ++ String c r) ++ rest). split; [exact I|apply prefixes_in].
Qed.
Lemma option_word_read w : option_word w -> read_as_option w = true.
Proof.
  intros [(n & I & W)|[->|[->|(c & v & I & -> & N)]]]; try reflexivity.
  - assert (X : n <> "--") by (destruct I as [I|(c & r & rest & -> & _)]; [intros ->; cbn in I; repeat (destruct I as [I|I]; [discriminate I|]); contradiction|discriminate]).
    assert (Y : In n names \/ exists r, n = "--" ++ r) by (destruct I as [I|(c & r & rest & -> & _)]; [now left|right; now eexists]).
    apply beginnings in I. vm_compute in I. destruct W as [->|(v & ->)].
    + repeat (destruct I as [<-|I]; [first [vm_compute; reflexivity|now destruct X|
        exfalso; destruct Y as [Y|(r & Y)]; [cbn in Y; repeat (destruct Y as [Y|Y]; [discriminate Y|]); contradiction|discriminate Y]]|]). contradiction.
    + repeat (destruct I as [<-|I]; [first [cbn; reflexivity|now destruct X|
        exfalso; destruct Y as [Y|(r & Y)]; [cbn in Y; repeat (destruct Y as [Y|Y]; [discriminate Y|]); contradiction|discriminate Y]]|]). contradiction.
  - cbn in I.
    assert (Z : forall c0, String "-" (String c0 v) <> "-lh" -> In c0 ["h"; "l"; "s"; "t"; "a"; "c"; "p"]%char -> read_as_option (String "-" (String c0 v)) = true); [|apply Z; [exact N|exact I]].
    clear. intros c N I. unfold read_as_option, parse_optional. cbn [Ascii.eqb Bool.eqb negb].
    destruct (find_option (String "-" (String c v))) eqn:F; [reflexivity|].
    destruct (match split_equals (String "-" (String c v)) with Some (a, b) => match find_option a with Some d => Some (WOption d a (Some b)) | None => None end | None => None end) as [w|] eqn:S.
    { destruct (split_equals _) as [[a b]|]; [|discriminate S]. destruct (find_option a); [|discriminate S]. now injection S as <-. }
    assert (T : exists d e, option_tuples (String "-" (String c v)) = [(d, String "-" (String c ""), Some e)]); [|destruct T as (d & e & ->); reflexivity].
    clear S. cbn in I. repeat (destruct I as [<-|I]; [|]); try contradiction; try (do 2 eexists; cbn; reflexivity).
    destruct v as [|x v]; [discriminate F|]. exists DLog, (String x v). cbn.
    destruct (ascii_dec x "h") as [->|]; [|reflexivity]. destruct v as [|y v]; [now destruct N|].
    destruct (ascii_dec y "s") as [->|]; [|reflexivity]. destruct v; [discriminate F|reflexivity].
Qed.
Lemma not_option_word w : read_as_option w = false -> ~ option_word w.
Proof. intros E O. apply option_word_read in O. congruence. Qed.

(** ** The help text *)
Lemma help_refused lt ln lp pt pn pl pc messages fs ss wss ss' wss' n :
  Forall2 writes ss wss -> Forall2 writes ss' wss' -> In n ["-h"; "--h"; "--he"; "--hel"; "--help"] ->
  main lt ln lp pt pn pl pc messages fs (List.concat wss ++ n :: List.concat wss')%list = (fs, Parser Help).
Proof.
  intros F F' I. unfold main, parse_args.
  destruct (groups ss wss F) as (ks & A & _ & C). destruct (groups ss' wss' F') as (ks' & A' & _ & _).
  assert (X : n <> "--" /\ exists f, parse_optional n = WOption DHelp f None).
  { cbn in I. repeat (destruct I as [<-|I]; [split; [discriminate|eexists; vm_compute; reflexivity]|]). contradiction. }
  destruct X as (N & f & P). rewrite A, (classify_option _ _ _ _ _ N P).
  specialize (A' []). rewrite app_nil_r in A'. cbn in A'. rewrite A'.
  match goal with |- context [consume ?f ?n ?e (ks ++ ?l)] => destruct (C l f n e) as (f' & L & ->) end; [exact Logic.I|lia|].
  destruct f' as [|f']; [cbn in L; lia|]. cbn [consume]. unfold consume_optional. cbn [rev List.app values_of nargs_of map take_actions take_action]. reflexivity.
Qed.
