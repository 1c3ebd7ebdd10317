(** The command line means what its options say. *)
From Coq Require Import List Arith ZArith Lia Ascii String Permutation Bool.
From Verif Require Import PyBase PyStr ModelTrunc ModelCommandLine SpecCommandLine.
Import ListNotations.
Local Open Scope string_scope.

Definition dest_of (s : setting) : dest :=
  match s with
  | SLog _ => DLog | SStd => DStd | STrunc _ => DT | SAnsatz _ => DAnsatz | SExcited => DExcited
  | SRemoveF _ => DRemoveF | SCode => DCode | SLhs => DLhs | SPath _ => DPath
  end.

Lemma find_option_in s d : find_option s = Some d -> In (s, d) option_strings.
Proof.
  unfold find_option. destruct (find _ option_strings) as [[x e]|] eqn:E; [|discriminate]. intros [= <-].
  apply find_some in E as [I E]. cbn in E. apply String.eqb_eq in E as ->. exact I.
Qed.

(** ** Names *)
Fixpoint prefixes (s : string) : list string :=
  match s with EmptyString => [""] | String c r => "" :: map (String c) (prefixes r) end.
Lemma prefixes_in a b : In a (prefixes (a ++ b)).
Proof. induction a as [|c a IH]; cbn; [destruct b; now left|]. right. now apply in_map. Qed.
Definition spellings (s : setting) : list string :=
  (short_name s :: (if String.eqb (short_name s) "-es" then ["-e"] else []) ++ (if String.eqb (short_name s) "-rf" then ["-r"] else [])
   ++ match long_name s with Some l => filter (fun n => Nat.leb 3 (String.length n)) (prefixes l) | None => [] end)%list.

Lemma name_in s n : name_of s n -> In n (spellings s).
Proof.
  intros [->|[[E ->]|[[E ->]|(l & c & r & rest & L & -> & ->)]]]; unfold spellings.
  - now left.
  - rewrite E. right. apply in_or_app. left. now left.
  - rewrite E. right. apply in_or_app. right. apply in_or_app. left. now left.
  - right. apply in_or_app. right. apply in_or_app. right. rewrite L. apply filter_In. split; [apply prefixes_in|].
    apply Nat.leb_le. cbn. lia.
Qed.

Ltac cases I := cbn in I; repeat (destruct I as [<-|I]; [|]); try contradiction.

Lemma parse_name s n : name_of s n -> n <> "--" /\ exists full, parse_optional n = WOption (dest_of s) full None.
Proof.
  intros I. apply name_in in I.
  destruct s; cases I; (split; [discriminate|eexists; vm_compute; reflexivity]).
Qed.

Lemma parse_equals s n v : needs_of s = Text v -> name_of s n -> (n = short_name s \/ exists r, n = "--" ++ r) ->
  n ++ "=" ++ v <> "--" /\ exists full, parse_optional (n ++ "=" ++ v) = WOption (dest_of s) full (Some v).
Proof.
  intros N I O. apply name_in in I.
  destruct s; try discriminate N; cbn in N; injection N as ->; cases I;
    try (destruct O as [O|[r O]]; discriminate O);
    (split; [discriminate|eexists; cbn; reflexivity]).
Qed.

Lemma parse_joined s c v : short_name s = "-a" \/ short_name s = "-p" -> c <> "="%char ->
  short_name s ++ String c v <> "--" /\ parse_optional (short_name s ++ String c v) = WOption (dest_of s) (short_name s) (Some (String c v)).
Proof.
  intros O N. assert (Ec : Ascii.eqb c "=" = false) by now apply Ascii.eqb_neq.
  destruct s; cbn in O; destruct O as [O|O]; try discriminate O; cbn [short_name dest_of append].
  all: split; [discriminate|]; unfold parse_optional; cbn [Ascii.eqb negb Bool.eqb].
  all: cbn; rewrite ?Ec; destruct (split_equals v) as [[x y]|]; cbn; reflexivity.
Qed.

Lemma parse_plain v : plain v -> v <> "--" /\ parse_optional v = WValue.
Proof.
  intros P. split; [exact (P "-")|]. destruct v as [|c v]; [reflexivity|]. cbn.
  destruct (Ascii.eqb c "-") eqn:E; [|reflexivity]. apply Ascii.eqb_eq in E as ->. now destruct (P v).
Qed.

(** ** Numbers *)
Lemma digit_is c : is_digit c <-> digit_char c = true.
Proof. unfold is_digit, digit_char. rewrite andb_true_iff, !Nat.leb_le. tauto. Qed.

Lemma not_digit c : digit_char c = false -> ~ is_digit c.
Proof. intros E D. apply digit_is in D. congruence. Qed.

Lemma digits_are l acc : Forall is_digit l ->
  digits_value true acc l = Some (fold_left (fun acc c => (10 * acc + Z.of_nat (digit_value c))%Z) l acc).
Proof.
  intros F. revert acc. induction F as [|c l D F IH]; intros acc; [reflexivity|]. cbn [digits_value fold_left].
  rewrite (proj1 (digit_is c) D), IH. reflexivity.
Qed.
Lemma digits_start l : l <> [] -> Forall is_digit l -> digits_value false 0 l = Some (decimal_value l).
Proof.
  intros N F. destruct F as [|c l D F]; [congruence|]. cbn [digits_value]. rewrite (proj1 (digit_is c) D).
  now rewrite digits_are.
Qed.

Lemma digit_not_blank c : is_digit c -> blank_char c = false.
Proof.
  intros [A B]. unfold blank_char. cbn. repeat (rewrite (proj2 (Nat.eqb_neq (nat_of_ascii c) _)) by lia; cbn). reflexivity.
Qed.
Lemma drop_none l : (forall c, In c l -> blank_char c = false) -> drop_blanks l = l.
Proof. destruct l as [|c l]; intros H; [reflexivity|]. cbn [drop_blanks]. rewrite (H c); [reflexivity|now left]. Qed.

Lemma strip_none l : (forall c, In c l -> blank_char c = false) -> rev (drop_blanks (rev (drop_blanks l))) = l.
Proof.
  intros H. rewrite (drop_none l H). rewrite (drop_none (rev l)); [apply rev_involutive|]. intros c I. apply H. now apply in_rev.
Qed.

Lemma chars_of l : list_ascii_of_string (string_of_list_ascii l) = l.
Proof. apply list_ascii_of_string_of_list_ascii. Qed.

Lemma digit_ne c x : is_digit c -> (nat_of_ascii x < 48 \/ 57 < nat_of_ascii x) -> Ascii.eqb c x = false.
Proof. intros [A B] C. apply Ascii.eqb_neq. intros ->. lia. Qed.

Lemma number_int z w : number_text z w -> int_of_string w = Some z.
Proof.
  intros (l & N & F & [[-> ->]|[-> ->]]); unfold int_of_string.
  - rewrite chars_of, strip_none.
    + destruct l as [|c l]; [congruence|]. assert (D : is_digit c) by now inversion F.
      rewrite !(digit_ne c) by (assumption || (cbn; lia)). now apply digits_start.
    + intros c I. apply digit_not_blank. rewrite Forall_forall in F. auto.
  - cbn [list_ascii_of_string]. rewrite chars_of, strip_none.
    + cbn. now rewrite (digits_start l N F).
    + intros c [<-|I]; [reflexivity|]. apply digit_not_blank. rewrite Forall_forall in F. auto.
Qed.

Lemma all_ints_are zs ws : Forall2 number_text zs ws -> all_ints ws = Some zs.
Proof. induction 1 as [|z w zs ws H _ IH]; [reflexivity|]. cbn. now rewrite (number_int _ _ H), IH. Qed.

Lemma no_equals l : Forall is_digit l -> split_equals (string_of_list_ascii l) = None.
Proof.
  induction 1 as [|c l D F IH]; [reflexivity|]. cbn. rewrite (digit_ne c "=") by (assumption || (cbn; lia)). now rewrite IH.
Qed.

Lemma no_option c r : is_digit c -> find_option (String "-" (String c r)) = None.
Proof.
  intros D. destruct (find_option _) as [d|] eqn:E; [|reflexivity]. exfalso.
  apply find_option_in in E. cbn in E.
  repeat (destruct E as [E|E]; [injection E; intros; subst; destruct D as [D1 D2]; cbn in D1, D2; lia|]). exact E.
Qed.
Lemma no_tuples c r : is_digit c -> option_tuples (String "-" (String c r)) = [].
Proof.
  intros D. unfold option_tuples. rewrite (digit_ne c "-") by (assumption || (cbn; lia)).
  assert (X : forall p, In p option_strings -> forall r, String.prefix (String "-" (String c r)) (fst p) = false /\ String.eqb (fst p) (String "-" (String c "")) = false).
  { intros p I r'. cbn in I.
    repeat (destruct I as [<-|I]; [cbn [fst]; split;
      [cbn; destruct (ascii_dec c _) as [->|]; [destruct D as [D1 D2]; cbn in D1, D2; lia|reflexivity]
      |apply String.eqb_neq; intros X; injection X; intros; subst; destruct D as [D1 D2]; cbn in D1, D2; lia]|]). contradiction. }
  induction option_strings as [|p l IH]; [reflexivity|]. cbn [flat_map].
  destruct (X p (or_introl eq_refl) r) as [A B]. rewrite A, B. cbn [app]. apply IH. intros q I. apply X. now right.
Qed.

Lemma parse_number z w : number_text z w -> w <> "--" /\ parse_optional w = WValue.
Proof.
  intros (l & N & F & [[-> _]|[-> _]]); destruct l as [|c l]; try congruence; assert (D : is_digit c) by now inversion F.
  - apply parse_plain. intros r [= -> _]. destruct D as [D1 D2]; cbn in D1, D2; lia.
  - split; [intros [= -> _]; destruct D as [D1 D2]; cbn in D1, D2; lia|].
    assert (X : negative_number (String "-" (string_of_list_ascii (c :: l))) = true).
    { unfold negative_number. cbn [list_ascii_of_string]. rewrite chars_of. unfold without_line_break.
      assert (R : match rev ("-"%char :: c :: l) with
                  | x :: r => if Nat.eqb (nat_of_ascii x) 10 then rev r else "-"%char :: c :: l
                  | [] => []
                  end = "-"%char :: c :: l).
      { destruct (rev ("-"%char :: c :: l)) as [|x r] eqn:E.
        - apply (f_equal (@List.length ascii)) in E. rewrite rev_length in E. discriminate.
        - assert (I : In x ("-"%char :: c :: l)) by (apply in_rev; rewrite E; now left).
          rewrite (proj2 (Nat.eqb_neq _ _)); [reflexivity|]. destruct I as [<-|I]; [cbn; lia|].
          rewrite Forall_forall in F. destruct (F x I) as [D1 D2]. lia. }
      rewrite R. cbn [Ascii.eqb Bool.eqb]. rewrite andb_true_iff. split; [reflexivity|]. apply orb_true_iff. left.
      unfold some_digits. cbn [List.length Nat.eqb negb]. rewrite andb_true_l. apply forallb_forall. intros x I.
      apply digit_is. rewrite Forall_forall in F. auto. }
    cbn [string_of_list_ascii] in *. unfold parse_optional. rewrite (no_option _ _ D). cbn [negb Ascii.eqb Bool.eqb].
    change (split_equals (String "-" (String c (string_of_list_ascii l)))) with
      (match split_equals (string_of_list_ascii (c :: l)) with Some (a, b) => Some (String "-" a, b) | None => None end).
    rewrite (no_equals _ F), (no_tuples _ _ D), X. reflexivity.
Qed.

(** ** Groups of words *)
Definition starts (l : list (string * kind_of_word)) : Prop :=
  match l with [] => True | (_, KOption _ _ _) :: _ => True | _ => False end.

Lemma classify_value w rest : w <> "--" -> parse_optional w = WValue ->
  classify (w :: rest) = match classify rest with Done l => Done ((w, KValue) :: l) | Stop e => Stop e end.
Proof. intros N P. cbn. rewrite (proj2 (String.eqb_neq w "--") N), P. reflexivity. Qed.
Lemma classify_option w d n e rest : w <> "--" -> parse_optional w = WOption d n e ->
  classify (w :: rest) = match classify rest with Done l => Done ((w, KOption d n e) :: l) | Stop s => Stop s end.
Proof. intros N P. cbn. rewrite (proj2 (String.eqb_neq w "--") N), P. reflexivity. Qed.

Definition group (s : setting) (ws : list string) (ks : list (string * kind_of_word)) : Prop :=
  (forall rest, classify (ws ++ rest) = match classify rest with Done l => Done (ks ++ l)%list | Stop e => Stop e end) /\
  (forall l, starts (ks ++ l)) /\
  (forall l fuel ns ex, starts l -> List.length (ks ++ l) <= fuel ->
     exists fuel', List.length l <= fuel' /\ consume fuel ns ex (ks ++ l) = consume fuel' (apply_setting ns s) ex l).

Lemma values_none d l : nargs_of d = NZero -> values_of d l = Done ([], l).
Proof. intros E. unfold values_of. now rewrite E. Qed.
Lemma values_one d w l : nargs_of d = NOne -> values_of d ((w, KValue) :: l) = Done ([w], l).
Proof. intros E. unfold values_of. now rewrite E. Qed.
Lemma values_plus ws l : ws <> [] -> starts l -> values_of DT (map (fun w => (w, KValue)) ws ++ l) = Done (ws, l).
Proof.
  intros N S. unfold values_of. cbn [nargs_of].
  set (span := fix span (l0 : list (string * kind_of_word)) : list string * list (string * kind_of_word) :=
    match l0 with
    | [] => ([], l0)
    | (w, KValue) :: r => (w :: fst (span r), snd (span r))
    | (w, KDashes) :: r => ([], l0)
    | (w, KOption d n e) :: r => ([], l0)
    | (w, KUnknown) :: r => ([], l0)
    end).
  assert (E : span (map (fun w => (w, KValue)) ws ++ l)%list = (ws, l)).
  { clear N. induction ws as [|w ws IH]; cbn [map app].
    - destruct l as [|[w k] l]; [reflexivity|]. destruct k; try contradiction. reflexivity.
    - cbn [span]. fold span. rewrite IH. reflexivity. }
  destruct ws as [|w ws]; [congruence|]. cbn [map app] in *. rewrite <- E. reflexivity.
Qed.

Lemma not_dashes v : v <> "--" -> remove_dashes [v] = [v].
Proof. intros N. cbn. now rewrite (proj2 (String.eqb_neq v "--") N). Qed.

Lemma take_flag ns s : needs_of s = Nothing -> nargs_of (dest_of s) = NZero /\ take_action ns (dest_of s) [] = Done (apply_setting ns s).
Proof. destruct s; try discriminate; split; reflexivity. Qed.
Lemma take_text ns s v : needs_of s = Text v -> v <> "--" -> nargs_of (dest_of s) = NOne /\ take_action ns (dest_of s) [v] = Done (apply_setting ns s).
Proof.
  intros N V. destruct s; try discriminate N; cbn in N; injection N as ->; split; try reflexivity; unfold take_action;
    cbn [dest_of]; now rewrite (not_dashes _ V).
Qed.
Lemma no_dashes_numbers zs ws : Forall2 number_text zs ws -> remove_dashes ws = ws.
Proof.
  induction 1 as [|z w zs ws H _ IH]; [reflexivity|]. cbn. rewrite (proj2 (String.eqb_neq w "--")) by apply (parse_number _ _ H).
  now rewrite IH.
Qed.

Lemma consume_step fuel ns ex w d n e l actions rest : List.length ((w, KOption d n e) :: l) <= fuel ->
  consume_optional d n e l = Done (actions, rest) ->
  consume fuel ns ex ((w, KOption d n e) :: l) =
  match take_actions ns actions with Done ns' => consume (fuel - 1) ns' ex rest | Stop s => Stop s end.
Proof.
  intros L E. destruct fuel as [|fuel]; [cbn in L; lia|]. cbn [consume]. rewrite E.
  replace (S fuel - 1) with fuel by lia. reflexivity.
Qed.

Lemma writes_group s ws : writes s ws -> exists ks, group s ws ks.
Proof.
  intros W. destruct W as [n N I|n v N I P|n v N I V O|c v N O Ec V|zs ws N Z F].
  - destruct (parse_name s n I) as (X & full & E). destruct (take_flag nothing_asked s N) as [A _].
    exists [(n, KOption (dest_of s) full None)]. split; [|split].
    + intros rest. cbn [app]. now apply classify_option.
    + intros l. exact Logic.I.
    + intros l fuel ns ex _ L. exists (fuel - 1). cbn [app] in *. split; [cbn in L; lia|].
      rewrite (consume_step _ _ _ _ _ _ _ _ [(dest_of s, [])] l L).
      * cbn [take_actions]. rewrite (proj2 (take_flag ns s N)). reflexivity.
      * unfold consume_optional. cbn [rev app]. rewrite (values_none _ l A). reflexivity.
  - destruct (parse_name s n I) as (X & full & E). destruct (parse_plain v P) as [V Ev]. destruct (take_text nothing_asked s v N V) as [A _].
    exists [(n, KOption (dest_of s) full None); (v, KValue)]. split; [|split].
    + intros rest. cbn [app]. rewrite (classify_option _ _ _ _ _ X E), (classify_value _ _ V Ev). destruct (classify rest); reflexivity.
    + intros l. exact Logic.I.
    + intros l fuel ns ex _ L. exists (fuel - 1). cbn [app] in *. split; [cbn in L; lia|].
      rewrite (consume_step _ _ _ _ _ _ _ _ [(dest_of s, [v])] l L).
      * cbn [take_actions]. rewrite (proj2 (take_text ns s v N V)). reflexivity.
      * unfold consume_optional. cbn [rev app]. rewrite (values_one _ v l A). reflexivity.
  - destruct (parse_equals s n v N I O) as (X & full & E). destruct (take_text nothing_asked s v N V) as [A _].
    exists [(n ++ "=" ++ v, KOption (dest_of s) full (Some v))]. split; [|split].
    + intros rest. cbn [List.app]. now apply classify_option.
    + intros l. exact Logic.I.
    + intros l fuel ns ex _ L. exists (fuel - 1). cbn [List.app] in *. split; [cbn in L; lia|].
      rewrite (consume_step _ _ _ _ _ _ _ _ [(dest_of s, [v])] l L).
      * cbn [take_actions]. rewrite (proj2 (take_text ns s v N V)). reflexivity.
      * unfold consume_optional. destruct v; cbn [joined]; rewrite A; reflexivity.
  - destruct (parse_joined s c v O Ec) as (X & E). destruct (take_text nothing_asked s (String c v) N V) as [A _].
    exists [(short_name s ++ String c v, KOption (dest_of s) (short_name s) (Some (String c v)))]. split; [|split].
    + intros rest. cbn [List.app]. now apply classify_option.
    + intros l. exact Logic.I.
    + intros l fuel ns ex _ L. exists (fuel - 1). cbn [List.app] in *. split; [cbn in L; lia|].
      rewrite (consume_step _ _ _ _ _ _ _ _ [(dest_of s, [String c v])] l L).
      * cbn [take_actions]. rewrite (proj2 (take_text ns s (String c v) N V)). reflexivity.
      * unfold consume_optional. cbn [joined]. rewrite A. reflexivity.
  - destruct s as [| |zs'| | | | | |]; try discriminate N. cbn in N. injection N as ->. cbn [short_name].
    exists (("-t", KOption DT "-t" None) :: map (fun w => (w, KValue)) ws). split; [|split].
    + intros rest. cbn [List.app]. rewrite (classify_option "-t" DT "-t" None) by (discriminate || reflexivity).
      assert (E : classify (ws ++ rest)%list = match classify rest with Done l => Done (map (fun w => (w, KValue)) ws ++ l)%list | Stop e => Stop e end).
      { clear Z. induction F as [|z w zs ws H F IH]; [cbn; destruct (classify rest); reflexivity|]. cbn [List.app map].
        destruct (parse_number _ _ H) as [A B]. rewrite (classify_value _ _ A B), IH. destruct (classify rest); reflexivity. }
      rewrite E. destruct (classify rest); reflexivity.
    + intros l. exact Logic.I.
    + intros l fuel ns ex S L. exists (fuel - 1). cbn [List.app] in *. split; [cbn in L; rewrite app_length in L; lia|].
      rewrite (consume_step _ _ _ _ _ _ _ _ [(DT, ws)] l L).
      * cbn [take_actions take_action]. rewrite (no_dashes_numbers _ _ F), (all_ints_are _ _ F). reflexivity.
      * unfold consume_optional. cbn [rev List.app]. rewrite values_plus; [reflexivity| |exact S].
        intros ->. inversion F. subst. congruence.
Qed.

Lemma groups ss wss : Forall2 writes ss wss -> exists ks,
  (forall rest, classify (List.concat wss ++ rest) = match classify rest with Done l => Done (ks ++ l)%list | Stop e => Stop e end) /\
  (forall l, starts l -> starts (ks ++ l)) /\
  (forall l fuel ns ex, starts l -> List.length (ks ++ l) <= fuel ->
     exists fuel', List.length l <= fuel' /\ consume fuel ns ex (ks ++ l) = consume fuel' (fold_left apply_setting ss ns) ex l).
Proof.
  induction 1 as [|s ws ss wss W F (ks & A & B & C)].
  - exists []. split; [|split].
    + intros rest. cbn. destruct (classify rest); reflexivity.
    + intros l S. exact S.
    + intros l fuel ns ex S L. exists fuel. split; [exact L|reflexivity].
  - destruct (writes_group s ws W) as (k1 & A1 & B1 & C1). exists (k1 ++ ks)%list. split; [|split].
    + intros rest. cbn [List.concat]. rewrite <- app_assoc, A1, A. destruct (classify rest); [|reflexivity]. now rewrite app_assoc.
    + intros l S. rewrite <- app_assoc. apply B1.
    + intros l fuel ns ex S L. rewrite <- app_assoc in *. destruct (C1 (ks ++ l)%list fuel ns ex (B l S) L) as (f1 & L1 & E1).
      destruct (C l f1 (apply_setting ns s) ex S L1) as (f2 & L2 & E2). exists f2. split; [exact L2|]. rewrite E1, E2. reflexivity.
Qed.

Lemma command_line ss wss : Forall2 writes ss wss -> parse_args (List.concat wss) = Done (asked ss).
Proof.
  intros F. destruct (groups ss wss F) as (ks & A & _ & C). specialize (A []). rewrite app_nil_r in A. cbn in A.
  unfold parse_args. rewrite A. destruct (C [] (List.length (ks ++ [])%list) defaults false) as (f & _ & E); [exact Logic.I|lia|].
  rewrite E. destruct f; reflexivity.
Qed.

(** ** The order of different settings *)
Lemma setting_swap ns s s' : short_name s <> short_name s' ->
  apply_setting (apply_setting ns s) s' = apply_setting (apply_setting ns s') s.
Proof. destruct ns as [[] ? ?]; destruct s, s'; intros N; try reflexivity; now destruct N. Qed.

Lemma asked_permuted ss ss' : Permutation ss ss' -> NoDup (map short_name ss) ->
  forall ns, fold_left apply_setting ss ns = fold_left apply_setting ss' ns.
Proof.
  induction 1 as [|s l l' P IH|s s' l|l l1 l2 P IH P' IH']; intros N ns.
  - reflexivity.
  - cbn in *. inversion N. now apply IH.
  - cbn [fold_left]. rewrite setting_swap; [reflexivity|]. cbn in N. inversion N as [|x y A B]. intros E. apply A. now left.
  - rewrite IH by exact N. apply IH'. refine (Permutation_NoDup _ N). now apply Permutation_map.
Qed.

Lemma command_line_order ss wss ss' wss' : Forall2 writes ss wss -> Forall2 writes ss' wss' ->
  Permutation ss ss' -> NoDup (map short_name ss) -> parse_args (List.concat wss) = parse_args (List.concat wss').
Proof.
  intros A B P N. rewrite (command_line _ _ A), (command_line _ _ B). unfold asked. now rewrite (asked_permuted _ _ P N).
Qed.

(** ** Every request *)
Definition digit_of (n : nat) : ascii := ascii_of_nat (48 + n).
Lemma digit_of_ok n : n < 10 -> is_digit (digit_of n) /\ digit_value (digit_of n) = n.
Proof. intros L. do 10 (destruct n as [|n]; [vm_compute; split; [split; lia|reflexivity]|]). lia. Qed.
Lemma decimal_last l c : decimal_value (l ++ [c])%list = (10 * decimal_value l + Z.of_nat (digit_value c))%Z.
Proof. unfold decimal_value. rewrite fold_left_app. reflexivity. Qed.

Lemma nat_digits n : exists l, l <> [] /\ Forall is_digit l /\ decimal_value l = Z.of_nat n.
Proof.
  induction n as [n IH] using lt_wf_ind. destruct (lt_dec n 10) as [L|L].
  - exists [digit_of n]. destruct (digit_of_ok n L) as [A B]. split; [discriminate|]. split; [now constructor|].
    unfold decimal_value. cbn [fold_left]. rewrite B. lia.
  - destruct (IH (n / 10)) as (l & N & F & E); [apply Nat.div_lt; lia|].
    assert (R : n mod 10 < 10) by (apply Nat.mod_upper_bound; lia). destruct (digit_of_ok _ R) as [A B].
    exists (l ++ [digit_of (n mod 10)])%list. split; [destruct l; discriminate|]. split.
    + apply Forall_app. split; [exact F|]. now constructor.
    + rewrite decimal_last, E, B. rewrite (Nat.div_mod n 10) at 3 by lia. lia.
Qed.
Lemma every_number z : exists w, number_text z w.
Proof.
  destruct (nat_digits (Z.abs_nat z)) as (l & N & F & E). destruct (Z.leb_spec 0 z) as [L|L].
  - exists (string_of_list_ascii l), l. split; [exact N|]. split; [exact F|]. left. split; [reflexivity|]. rewrite E. lia.
  - exists (String "-" (string_of_list_ascii l)), l. split; [exact N|]. split; [exact F|]. right. split; [reflexivity|]. rewrite E. lia.
Qed.
Lemma every_numbers zs : exists ws, Forall2 number_text zs ws.
Proof.
  induction zs as [|z zs (ws & F)]; [now exists []|]. destruct (every_number z) as (w & H). exists (w :: ws). now constructor.
Qed.

Lemma writable s : (forall v, needs_of s = Text v -> v <> "--") -> needs_of s <> Numbers [] -> exists ws, writes s ws.
Proof.
  intros A B. destruct (needs_of s) as [|v|zs] eqn:E.
  - exists [short_name s]. apply write_flag; [exact E|now left].
  - exists [short_name s ++ "=" ++ v]. apply write_equals; [exact E|now left|now apply A|now left].
  - destruct (every_numbers zs) as (ws & F). exists (short_name s :: ws). apply write_numbers with (zs := zs); [exact E| |exact F].
    intros ->. now apply B.
Qed.
Lemma all_writable ss : Forall (fun s => (forall v, needs_of s = Text v -> v <> "--") /\ needs_of s <> Numbers []) ss ->
  exists wss, Forall2 writes ss wss.
Proof.
  induction 1 as [|s ss [A B] F (wss & H)]; [now exists []|]. destruct (writable s A B) as (ws & W). exists (ws :: wss). now constructor.
Qed.

Definition settings_of (ns : namespace) : list setting :=
  let a := ns_args ns in
  (SLog (ns_log ns) :: (if ns_std ns then [SStd] else []) ++
   match arg_t a with Some (z :: zs) => [STrunc (z :: zs)] | _ => [] end ++
   match arg_path a with Some v => [SPath v] | None => [] end ++
   match arg_ansatz a with Some v => [SAnsatz v] | None => [] end ++
   match arg_remove_f a with Some v => [SRemoveF v] | None => [] end ++
   (if arg_excited a then [SExcited] else []) ++ (if arg_code a then [SCode] else []) ++ (if arg_lhs a then [SLhs] else []))%list.

Lemma settings_writable ns : ~ In "--" (texts ns) -> exists wss, Forall2 writes (settings_of ns) wss.
Proof.
  intros N. apply all_writable. unfold settings_of, texts in *. destruct ns as [[t p an ex rf co lh] lg sd]. cbn in *.
  assert (X : forall v, lg = v \/ In v (match p with Some v => [v] | None => [] end ++ match an with Some v => [v] | None => [] end
                        ++ match rf with Some v => [v] | None => [] end)%list -> v <> "--") by (intros v I ->; now apply N).
  clear N. constructor; [split; [intros v [= <-]; apply X; now left|discriminate]|].
  repeat (apply Forall_app; split).
  - destruct sd; constructor; [split; discriminate|constructor].
  - destruct t as [[|z zs]|]; constructor; [split; discriminate|constructor].
  - destruct p; constructor; [split; [|discriminate]; intros v [= <-]; apply X; right; cbn; tauto|constructor].
  - destruct an; constructor; [split; [|discriminate]; intros v [= <-]; apply X; right; apply in_or_app; right; cbn; tauto|constructor].
  - destruct rf; constructor; [split; [|discriminate]; intros v [= <-]; apply X; right; apply in_or_app; right; apply in_or_app; right; cbn; tauto|constructor].
  - destruct ex; constructor; [split; discriminate|constructor].
  - destruct co; constructor; [split; discriminate|constructor].
  - destruct lh; constructor; [split; discriminate|constructor].
Qed.

Lemma settings_asked ns : arg_t (ns_args ns) <> Some [] -> asked (settings_of ns) = ns.
Proof.
  destruct ns as [[t p an ex rf co lh] lg sd]. unfold settings_of. cbn [arg_t ns_args ns_log ns_std arg_path arg_ansatz arg_remove_f arg_excited arg_code arg_lhs].
  intros T. destruct t as [[|z zs]|]; [congruence| |]; destruct p, an, rf, ex, co, lh, sd; reflexivity.
Qed.
Lemma settings_asked_after ns : arg_t (ns_args ns) = Some [] ->
  fold_left apply_setting (settings_of ns)
    (set_args defaults (fun a => mkArgs (Some []) (arg_path a) (arg_ansatz a) (arg_excited a) (arg_remove_f a) (arg_code a) (arg_lhs a))) = ns.
Proof.
  destruct ns as [[t p an ex rf co lh] lg sd]. unfold settings_of. cbn [arg_t ns_args ns_log ns_std arg_path arg_ansatz arg_remove_f arg_excited arg_code arg_lhs].
  intros ->. destruct p, an, rf, ex, co, lh, sd; reflexivity.
Qed.

Lemma empty_values ss wss : Forall2 writes ss wss ->
  parse_args ("-t--" :: List.concat wss) = Done (fold_left apply_setting ss
    (set_args defaults (fun a => mkArgs (Some []) (arg_path a) (arg_ansatz a) (arg_excited a) (arg_remove_f a) (arg_code a) (arg_lhs a)))).
Proof.
  intros F. destruct (groups ss wss F) as (ks & A & _ & C). specialize (A []). rewrite app_nil_r in A. cbn in A.
  unfold parse_args. rewrite (classify_option "-t--" DT "-t" (Some "--")) by (discriminate || reflexivity). rewrite A.
  rewrite (consume_step _ defaults false "-t--" DT "-t" (Some "--") (ks ++ [])%list [(DT, ["--"])] (ks ++ [])%list (le_n _) eq_refl).
  cbn [take_actions take_action remove_dashes String.eqb Ascii.eqb Bool.eqb all_ints].
  match goal with |- consume ?f ?n ?e _ = _ => destruct (C [] f n e) as (f' & _ & E) end; [exact Logic.I|cbn; lia|].
  rewrite E. destruct f'; reflexivity.
Qed.

Lemma every_request ns : ~ In "--" (texts ns) -> exists words, parse_args words = Done ns.
Proof.
  intros N. destruct (settings_writable ns N) as (wss & F).
  destruct (arg_t (ns_args ns)) as [[|z zs]|] eqn:E.
  - exists ("-t--" :: List.concat wss). rewrite (empty_values _ _ F). now rewrite (settings_asked_after ns E).
  - exists (List.concat wss). rewrite (command_line _ _ F). rewrite settings_asked; [reflexivity|]. now rewrite E.
  - exists (List.concat wss). rewrite (command_line _ _ F). rewrite settings_asked; [reflexivity|]. now rewrite E.
Qed.

(** ** Only those *)
Definition clean (ns : namespace) : Prop := ~ In "--" (texts ns).

Lemma removed_once v w : remove_dashes [v] = [w] -> w <> "--".
Proof. cbn. destruct (String.eqb v "--") eqn:E; [discriminate|]. intros [= <-]. now apply String.eqb_neq. Qed.

Lemma take_clean ns d vs ns' : (nargs_of d = NOne -> List.length vs <= 1) -> clean ns -> take_action ns d vs = Done ns' -> clean ns'.
Proof.
  intros L C. unfold take_action. destruct d.
  - discriminate.
  - destruct (remove_dashes vs) as [|v [|? ?]] eqn:E; try discriminate. intros [= <-].
    assert (V : v <> "--").
    { specialize (L eq_refl). destruct vs as [|x [|? ?]]; [discriminate E| |cbn in L; lia]. now apply (removed_once x). }
    unfold clean, texts in *. cbn in *. intros [J|I]; [congruence|]. apply C. now right.
  - intros [= <-]. exact C.
  - destruct (all_ints _); [|discriminate]. intros [= <-]. exact C.
  - destruct (remove_dashes vs) as [|v [|? ?]] eqn:E; try discriminate. intros [= <-].
    assert (V : v <> "--").
    { specialize (L eq_refl). destruct vs as [|x [|? ?]]; [discriminate E| |cbn in L; lia]. now apply (removed_once x). }
    unfold clean, texts in *. cbn in *. intros [I|I]; [apply C; now left|]. apply in_app_or in I as [I|I]; [apply C; right; apply in_or_app; now left|].
    destruct I as [J|I]; [congruence|]. apply C. right. apply in_or_app. right. apply in_or_app. now right.
  - intros [= <-]. exact C.
  - destruct (remove_dashes vs) as [|v [|? ?]] eqn:E; try discriminate. intros [= <-].
    assert (V : v <> "--").
    { specialize (L eq_refl). destruct vs as [|x [|? ?]]; [discriminate E| |cbn in L; lia]. now apply (removed_once x). }
    unfold clean, texts in *. cbn in *. intros [I|I]; [apply C; now left|]. apply in_app_or in I as [I|I]; [apply C; right; apply in_or_app; now left|].
    apply in_app_or in I as [I|[J|[]]]; [|congruence]. apply C. right. apply in_or_app. right. apply in_or_app. now left.
  - intros [= <-]. exact C.
  - intros [= <-]. exact C.
  - destruct (remove_dashes vs) as [|v [|? ?]] eqn:E; try discriminate. intros [= <-].
    assert (V : v <> "--").
    { specialize (L eq_refl). destruct vs as [|x [|? ?]]; [discriminate E| |cbn in L; lia]. now apply (removed_once x). }
    unfold clean, texts in *. cbn in *. intros [I|[J|I]]; [apply C; now left|congruence|]. apply C. right. apply in_or_app. now right.
Qed.

Definition short_values (l : list (dest * list string)) : Prop := Forall (fun p => nargs_of (fst p) = NOne -> List.length (snd p) <= 1) l.
Lemma takes_clean l : short_values l -> forall ns ns', clean ns -> take_actions ns l = Done ns' -> clean ns'.
Proof.
  induction 1 as [|[d vs] l A F IH]; intros ns ns' C; cbn [take_actions].
  - now intros [= <-].
  - cbn in A. destruct (take_action ns d vs) as [n1|] eqn:E; [|discriminate]. apply IH. exact (take_clean _ _ _ _ A C E).
Qed.

Definition value_or_none (p : dest * option (list string)) : Prop :=
  match snd p with Some v => nargs_of (fst p) = NOne -> List.length v <= 1 | None => True end.
Lemma joined_short explicit : forall d name l, joined d name explicit = Done l -> Forall value_or_none l.
Proof.
  induction explicit as [|c r IH]; intros d name l; cbn [joined]; destruct (nargs_of d) eqn:N;
    try (intros [= <-]; repeat constructor; cbn; lia).
  - destruct name as [|? [|c2 ?]]; try discriminate. destruct (Ascii.eqb c2 "-"); discriminate.
  - destruct name as [|? [|c2 ?]]; try discriminate. destruct (Ascii.eqb c2 "-"); [discriminate|].
    destruct (find_option _) as [d'|]; [|discriminate]. destruct r as [|c' r].
    + intros [= <-]. repeat constructor; cbn; lia.
    + destruct (joined d' _ _) as [l'|] eqn:E; [|discriminate]. intros [= <-]. constructor; [cbn; lia|]. exact (IH _ _ _ E).
Qed.
Lemma values_short d l vs rest : values_of d l = Done (vs, rest) -> nargs_of d = NOne -> List.length vs <= 1.
Proof.
  intros E N. unfold values_of in E. rewrite N in E. destruct l as [|[w k] l]; [discriminate|].
  destruct k; try discriminate. injection E as <- <-. cbn. lia.
Qed.
Lemma consume_optional_short d name e l actions rest : consume_optional d name e l = Done (actions, rest) -> short_values actions.
Proof.
  unfold consume_optional. intros H.
  assert (X : forall ds, Forall value_or_none ds ->
    short_values (map (fun p => (fst p, match snd p with Some v => v | None => [] end)) ds)).
  { intros ds F. apply Forall_map. refine (Forall_impl _ _ F). intros [d' [v|]] V; cbn in *; [exact V|lia]. }
  destruct (match e with Some e => joined d name e | None => Done [(d, None)] end) as [ds|] eqn:E; [|discriminate].
  assert (F : Forall value_or_none ds).
  { destruct e; [exact (joined_short _ _ _ _ E)|]. injection E as <-. repeat constructor. }
  destruct (rev ds) as [|[dl [v|]] before] eqn:R.
  - injection H as <- <-. now apply X.
  - injection H as <- <-. now apply X.
  - destruct (values_of dl l) as [[vs r]|] eqn:V; [|discriminate]. injection H as <- <-. apply Forall_app. split.
    + apply X. apply Forall_forall. intros p I. rewrite Forall_forall in F. apply F. apply in_rev. rewrite R. right. now apply in_rev.
    + constructor; [|constructor]. exact (values_short _ _ _ _ V).
Qed.
Lemma consume_clean fuel : forall ns ex l ns', clean ns -> consume fuel ns ex l = Done ns' -> clean ns'.
Proof.
  induction fuel as [|fuel IH]; intros ns ex l ns' C; destruct l as [|[w k] l]; cbn [consume]; try discriminate;
    try (destruct ex; [discriminate|]; now intros [= <-]).
  destruct k; try (apply IH; exact C).
  destruct (consume_optional _ _ _ _) as [[actions rest]|] eqn:E; [|discriminate].
  destruct (take_actions _ _) as [n1|] eqn:T; [|discriminate]. apply IH.
  exact (takes_clean _ (consume_optional_short _ _ _ _ _ _ E) _ _ C T).
Qed.
Lemma only_requests words ns : parse_args words = Done ns -> ~ In "--" (texts ns).
Proof.
  unfold parse_args. destruct (classify words) as [l|]; [|discriminate]. apply consume_clean. cbn. intros [H|[]]. discriminate H.
Qed.

Lemma requests_exact ns : (exists words, parse_args words = Done ns) <-> ~ In "--" (texts ns).
Proof. split; [intros (words & E); exact (only_requests _ _ E)|apply every_request]. Qed.

(** ** Words that are no values *)
Lemma dashed_kind w rest : dashed w ->
  classify (w :: rest) = Stop Usage \/ exists k l, classify (w :: rest) = Done ((w, k) :: l) /\ k <> KValue.
Proof.
  intros (c & r & -> & B & D & P). cbn [classify].
  destruct (String.eqb _ "--"); [right; do 2 eexists; split; [reflexivity|discriminate]|].
  assert (X : parse_optional (String "-" (String c r)) <> WValue).
  { unfold parse_optional. cbn [negb Ascii.eqb Bool.eqb]. destruct (find_option _); [discriminate|].
    destruct (match split_equals _ with Some (a, b) => match find_option a with Some d => Some (WOption d a (Some b)) | None => None end | None => None end) as [w|] eqn:S.
    - destruct (split_equals _) as [[a b]|]; [|discriminate S]. destruct (find_option a); [|discriminate S]. injection S as <-. discriminate.
    - destruct (option_tuples _) as [|[[d n] e] [|? ?]]; try discriminate.
      assert (N : negative_number (String "-" (String c r)) = false).
      { unfold negative_number, without_line_break. cbn [list_ascii_of_string].
        assert (Dc : digit_char c = false) by (destruct (digit_char c) eqn:E; [now apply digit_is in E|reflexivity]).
        assert (Pc : Ascii.eqb c "." = false) by now apply Ascii.eqb_neq.
        assert (R : forall q, match c :: q with
                      | [] => "-"%char :: c :: q = "-"%char :: c :: q | _ => True end -> 
                    (Ascii.eqb "-" "-" && (some_digits (c :: q) || match after_digits (c :: q) with p :: q' => Ascii.eqb p "." && some_digits q' | [] => false end)) = false).
        { intros q _. unfold some_digits. cbn [List.length forallb after_digits Nat.eqb negb]. now rewrite Dc, Pc. }
        destruct (rev ("-"%char :: c :: list_ascii_of_string r)) as [|x q] eqn:E; [apply (f_equal (@List.length ascii)) in E; rewrite rev_length in E; discriminate|].
        destruct (Nat.eqb (nat_of_ascii x) 10).
        - apply (f_equal (@rev ascii)) in E. rewrite rev_involutive in E. cbn [rev] in E.
          destruct (rev q) as [|y [|z t]]; cbn in E.
          + discriminate E.
          + injection E as <- <- _. reflexivity.
          + injection E as <- <- _. exact (R t Logic.I).
        - exact (R _ Logic.I). }
      rewrite N. assert (H : has_char " " (String "-" (String c r)) = false).
      { unfold has_char. apply not_true_iff_false. intros E. apply existsb_exists in E as (x & I & E). apply Ascii.eqb_eq in E as <-.
        assert (Y : forall s, In " "%char (list_ascii_of_string s) -> exists a b, s = a ++ String " " b).
        { clear. induction s as [|x s IH]; [intros []|]. intros [->|I]; [now exists "", s|]. destruct (IH I) as (a & b & ->). now exists (String x a), b. }
        destruct (Y _ I) as (a & b & E). exact (B a b E). }
      rewrite H. discriminate. }
  destruct (parse_optional (String "-" (String c r))) eqn:E; [congruence| | |now left];
    (destruct (classify rest) as [l|s] eqn:R;
     [right; do 2 eexists; split; [reflexivity|discriminate]
     |left; clear -R; revert s R; induction rest as [|w rest IH]; cbn [classify]; intros s R; [discriminate R|];
      destruct (String.eqb w "--"); [discriminate R|];
      destruct (parse_optional w); try (injection R as <-; reflexivity);
      destruct (classify rest); try discriminate R; injection R as ->; now apply (IH s)]).
Qed.

Lemma dashed_rejected ss wss s n v w rest : Forall2 writes ss wss -> needs_of s = Text v -> name_of s n -> dashed w ->
  parse_args (List.concat wss ++ n :: w :: rest) = Stop Usage.
Proof.
  intros F N I D. destruct (groups ss wss F) as (ks & A & _ & C). unfold parse_args. rewrite A.
  destruct (parse_name s n I) as (X & full & E). rewrite (classify_option _ _ _ _ _ X E).
  assert (O : nargs_of (dest_of s) = NOne) by (destruct s; try discriminate N; reflexivity).
  destruct (dashed_kind w rest D) as [->|(k & l & -> & K)]; [reflexivity|].
  match goal with |- consume ?f ?n ?e (_ ++ ?l) = _ => destruct (C l f n e) as (f' & L & ->) end; [exact Logic.I|lia|].
  destruct f' as [|f']; [cbn in L; lia|]. cbn [consume]. unfold consume_optional. cbn [rev List.app]. unfold values_of. rewrite O.
  destruct k; congruence || reflexivity.
Qed.
