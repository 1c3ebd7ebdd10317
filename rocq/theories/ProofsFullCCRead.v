(** Reading the bodies of the generated full coupled cluster code as python. *)
From Coq Require Import List Arith Bool Ascii String Lia Permutation.
From Verif Require Import PyBase PyStr ModelHelper ModelW ModelFullCC ModelPrefactor ModelFullCCPy SpecFullCC SpecFullCCPy SpecPython SpecFullCCText
  ProofsStr ProofsW ProofsPython ProofsFullCCBuckets ProofsEtRead.
Import ListNotations.
Local Open Scope nat_scope.
Local Open Scope list_scope.

(** ** Brackets over several lines *)

Lemma piece_between i j (o cl start : string) (d : nat) mids :
  (forall t, neutral t -> scan None 0 (t ++ o) = Some ((t ++ o)%string, S d)) -> scan None (S d) cl = Some (cl, 0) ->
  ends o = true -> starts cl = true -> ends cl = true -> is_head cl = false ->
  neutral start -> starts start = true ->
  Forall (fun l => neutral l /\ starts l = true /\ ends l = true) mids ->
  piece i (((pad i ++ start ++ o)%string :: map (fun l => (pad j ++ l)%string) mids) ++ [(pad i ++ cl)%string])
    [Simple (start ++ o ++ concat_str (map (fun l => " " ++ l) mids) ++ " " ++ cl)%string].
Proof.
  intros O Cl Eo Sc Ec Hc N B F. exists [(i, (start ++ o ++ concat_str (map (fun l => " " ++ l) mids) ++ " " ++ cl)%string)]. split.
  - unfold logical_lines.
    assert (E : lex_line Top (pad i ++ start ++ o) = Some (InBrackets i (start ++ o) (S d), [])).
    { destruct (starts_drop _ (starts_app _ o B)) as (D & L & P). unfold lex_line. rewrite drop_pad, leading_pad, D, L, P, (O _ N), Nat.add_0_r.
      rewrite (ends_trim _ (ends_app start o Eo)). destruct (starts_nonempty _ B) as (c & r & ->). reflexivity. }
    cbn [app lex]. rewrite E, (lex_app _ _ _ _ _ (lex_brackets i mids F j (start ++ o) d)). cbn [lex].
    assert (E2 : forall t, lex_line (InBrackets i t (S d)) (pad i ++ cl) = Some (Top, [(i, (t ++ " " ++ cl)%string)])).
    { intros t. unfold lex_line. destruct (starts_drop _ Sc) as (D & _ & _). rewrite drop_pad, D, Cl, (ends_trim _ Ec). destruct (starts_nonempty _ Sc) as (c & r & ->). reflexivity. }
    rewrite E2, !append_assoc. reflexivity.
  - apply reads_simple; [|constructor]. rewrite is_head_last, !last_char_app. rewrite is_head_last in Hc. unfold ends in Ec. destruct (last_char cl); [exact Hc|discriminate].
Qed.

Lemma concat_commas rs c : concat_str (map (fun l => " " ++ l)%string (map (fun r => r ++ ",")%string rs ++ [c])) = (" " ++ String.concat ", " (rs ++ [c]))%string.
Proof.
  induction rs as [|r rs IH]; [cbn [map app concat_str fold_right String.concat]; now rewrite append_nil_r|].
  cbn [map app]. unfold concat_str in *. cbn [fold_right].
  rewrite IH. replace (String.concat ", " (r :: rs ++ [c])) with (r ++ ", " ++ String.concat ", " (rs ++ [c]))%string by (destruct rs; reflexivity).
  rewrite !append_assoc. reflexivity.
Qed.

(** ** Calls *)

Definition good_einsum (c : einsum) : Prop := (forall g, In g (e_inputs c) -> nq g) /\ nq (e_output c).

Lemma pair_neutral mn : neutral (pair_of mn).
Proof.
  unfold pair_of. replace ("(" ++ str_nat (fst mn) ++ ", " ++ str_nat (snd mn) ++ ")")%string with ("(" ++ (str_nat (fst mn) ++ ", " ++ str_nat (snd mn)) ++ ")")%string
    by (rewrite !append_assoc; reflexivity).
  apply neutral_paren. apply neutral_app; [apply nat_neutral|]. apply neutral_app; [now apply neutral_plain|apply nat_neutral].
Qed.
Lemma h_operand_neutral mn : neutral (h_operand mn).
Proof. unfold h_operand. apply (neutral_app "h_args"); [now apply neutral_plain|]. apply (neutral_bracket (pair_of mn)), pair_neutral. Qed.
Lemma t_operands_neutral l : neutral (t_operands l).
Proof.
  unfold t_operands. apply neutral_concat; [now apply neutral_plain|]. apply Forall_map, Forall_forall. intros mn _.
  apply (neutral_app "t_args"); [now apply neutral_plain|]. apply (neutral_bracket (pair_of mn)), pair_neutral.
Qed.

Lemma einsum_is c : render_einsum c = einsum_text c.
Proof. unfold render_einsum, einsum_text. rewrite !join_concat. reflexivity. Qed.
Lemma next_is c : render_next c = next_text c.
Proof. unfold render_next, next_text. rewrite !join_concat. reflexivity. Qed.

Definition call_ok (t : string) : Prop := text_ok t /\ is_head t = false.

Lemma einsum_ok c : good_einsum c -> call_ok (einsum_text c).
Proof.
  intros (I & O). unfold einsum_text.
  assert (E : ("np.einsum('" ++ String.concat ", " (e_inputs c) ++ " -> " ++ e_output c ++ "', " ++ h_operand (e_h c) ++ ", " ++ t_operands (e_ts c) ++ ")"
    = "np.einsum" ++ ("(" ++ (("'" ++ (String.concat ", " (e_inputs c) ++ " -> " ++ e_output c) ++ "'") ++ ", " ++ h_operand (e_h c) ++ ", " ++ t_operands (e_ts c)) ++ ")"))%string).
  { cbn [String.append]. do 11 f_equal. rewrite !append_assoc. cbn [String.append]. rewrite !append_assoc. reflexivity. }
  split; [split; [|split]|].
  - rewrite E. apply neutral_app; [now apply neutral_plain|]. apply neutral_paren. apply neutral_app.
    + apply neutral_quoted. apply nq_app; [|apply nq_app; [split; reflexivity|exact O]]. apply nq_concat; [split; reflexivity|exact I].
    + apply neutral_app; [now apply neutral_plain|]. apply neutral_app; [apply h_operand_neutral|]. apply neutral_app; [now apply neutral_plain|apply t_operands_neutral].
  - reflexivity.
  - now do 8 apply ends_app.
  - rewrite is_head_last, !last_char_app. reflexivity.
Qed.
Lemma next_ok c : call_ok (next_text c).
Proof.
  unfold next_text.
  assert (E : ("next(optimized_einsum)(" ++ h_operand (n_hop c) ++ ", " ++ t_operands (n_ts c) ++ ")"
    = "next" ++ ("(" ++ "optimized_einsum" ++ ")") ++ ("(" ++ (h_operand (n_hop c) ++ ", " ++ t_operands (n_ts c)) ++ ")"))%string).
  { cbn [String.append]. do 23 f_equal. rewrite !append_assoc. reflexivity. }
  split; [split; [|split]|].
  - rewrite E. apply neutral_app; [now apply neutral_plain|]. apply neutral_app; [apply neutral_paren; now apply neutral_plain|]. apply neutral_paren.
    apply neutral_app; [apply h_operand_neutral|]. apply neutral_app; [now apply neutral_plain|apply t_operands_neutral].
  - reflexivity.
  - now do 4 apply ends_app.
  - rewrite is_head_last, !last_char_app. reflexivity.
Qed.

Lemma concat_cons_empty a l : String.concat "" (a :: l) = (a ++ String.concat "" l)%string.
Proof. destruct l; [cbn; now rewrite append_nil_r|reflexivity]. Qed.
Lemma join_tail n : forall a, join ", " (a :: repeat "N"%string n) = (a ++ String.concat "" (repeat ", N"%string n))%string.
Proof.
  induction n as [|n IH]; intros a; [cbn; now rewrite append_nil_r|]. cbn [repeat].
  change (join ", " (a :: "N"%string :: repeat "N"%string n)) with (a ++ ", " ++ join ", " ("N"%string :: repeat "N"%string n))%string.
  rewrite IH, concat_cons_empty. reflexivity.
Qed.
Lemma shape_is_text n : shape_string n = shape_text n.
Proof.
  unfold shape_string, shape_text. cbn [app].
  change (join ", " ("A"%string :: "A"%string :: repeat "N"%string n)) with ("A" ++ ", " ++ join ", " ("A"%string :: repeat "N"%string n))%string.
  rewrite join_tail. cbn [String.append]. reflexivity.
Qed.
Lemma path_is c : render_path c = contract_text c.
Proof. unfold render_path, contract_text. rewrite join_concat, (map_ext _ _ shape_is_text). reflexivity. Qed.
Lemma shape_neutral n : neutral (shape_text n).
Proof.
  unfold shape_text. change ("(A, A" ++ String.concat "" (repeat ", N"%string n) ++ ")")%string with ("(" ++ ("A, A" ++ String.concat "" (repeat ", N"%string n)) ++ ")")%string.
  apply neutral_paren. apply neutral_app; [now apply neutral_plain|]. apply neutral_concat; [apply neutral_nil|]. apply Forall_forall. intros x Hx. apply repeat_spec in Hx as ->. now apply neutral_plain.
Qed.
Lemma path_ok c : call_ok (contract_text c).
Proof.
  unfold contract_text. split; [split; [|split]|].
  - apply (neutral_app "oe.contract_expression"); [now apply neutral_plain|]. apply (neutral_paren (String.concat ", " (map shape_text c))).
    apply neutral_concat; [now apply neutral_plain|]. apply Forall_map, Forall_forall. intros; apply shape_neutral.
  - reflexivity.
  - now do 2 apply ends_app.
  - rewrite is_head_last, !last_char_app. reflexivity.
Qed.

Lemma prefactor_neutral num den : neutral (prefactor_text num den).
Proof.
  assert (F : forall l, neutral (factorials_text l)).
  { intros [|x l]; [now apply neutral_plain|]. unfold factorials_text. apply neutral_paren. apply neutral_concat; [now apply neutral_plain|].
    apply Forall_map, Forall_forall. intros n _. apply (neutral_app "factorial"); [now apply neutral_plain|]. apply (neutral_paren (str_nat n)), nat_neutral. }
  unfold prefactor_text. destruct num as [|x num], den as [|y den]; [apply neutral_nil| | |];
    (apply neutral_app; [apply F|]; apply neutral_app; [now apply neutral_plain|]; apply neutral_app; [apply F|now apply neutral_plain]).
Qed.

(** ** Sums and extensions *)

Section Sums.
  Context {C : Type}.
  Variables (render : C -> string) (good : C -> Prop).
  Hypothesis good_ok : forall c, good c -> call_ok (render c).
  Definition good_sum (pc : prefactor * list C) : Prop := snd pc <> [] /\ Forall good (snd pc).

  Definition start_text (p : prefactor) : string := ("R += " ++ prefactor_text (fst p) (snd p))%string.
  Definition cc_sum_text (pc : prefactor * list C) : string := ("R += " ++ prefactor_text (fst (fst pc)) (snd (fst pc)) ++ sum_text (map render (snd pc)))%string.
  Lemma removelast_map {X Y} (f : X -> Y) l : removelast (map f l) = map f (removelast l).
  Proof. induction l as [|a l IH]; [reflexivity|]. destruct l as [|b l]; [reflexivity|]. cbn [map removelast] in *. now rewrite IH. Qed.

  Lemma tabs_tab n c : (tabs n ++ tab ++ c)%string = (pad (4 * n + 4) ++ c)%string.
  Proof. rewrite tabs_is, pad_add, append_assoc. reflexivity. Qed.

  Lemma render_sum_lines n pc : render_sum render n pc = sum_lines (4 * n) (4 * n + 4) (start_text (fst pc)) (map render (snd pc)).
  Proof.
    destruct pc as [p calls]. unfold render_sum, start_text. cbn [fst snd]. rewrite prefactor_text_eq.
    set (P := prefactor_text (fst p) (snd p)).
    assert (M : (tabs n ++ "R += " ++ P ++ "(")%string :: map (fun c => (tabs n ++ tab ++ render c ++ " +")%string) (removelast calls)
      ++ map (fun c => (tabs n ++ tab ++ render c)%string) (match rev calls with [] => [] | c :: _ => [c] end) ++ [(tabs n ++ ")")%string]
      = (pad (4 * n) ++ ("R += " ++ P) ++ "(")%string :: map (fun r => (pad (4 * n + 4) ++ r ++ " +")%string) (removelast (map render calls))
      ++ map (fun r => (pad (4 * n + 4) ++ r)%string) (match rev (map render calls) with [] => [] | c :: _ => [c] end) ++ [(pad (4 * n) ++ ")")%string]).
    { rewrite <- tabs_is, append_assoc, removelast_map, <- map_rev. f_equal. f_equal; [|f_equal].
      - rewrite map_map. apply map_ext. intros c. apply tabs_tab.
      - destruct (rev calls) as [|x r]; [reflexivity|]. cbn [map]. now rewrite tabs_tab. }
    destruct calls as [|c1 [|c2 calls]]; [exact M| |exact M]. cbn [map sum_lines]. rewrite <- tabs_is, append_assoc. reflexivity.
  Qed.
  Lemma start_text_ok p : neutral (start_text p) /\ starts (start_text p) = true.
  Proof. split; [|reflexivity]. apply neutral_app; [now apply neutral_plain|apply prefactor_neutral]. Qed.
  Lemma sum_piece n pc : good_sum pc -> piece (4 * n) (render_sum render n pc) [Simple (cc_sum_text pc)].
  Proof.
    intros [NE F]. rewrite render_sum_lines. unfold cc_sum_text. rewrite <- append_assoc. fold (start_text (fst pc)).
    destruct (start_text_ok (fst pc)) as [N B]. apply piece_sum; [exact N|exact B|now destruct (snd pc)|]. apply Forall_map. eapply Forall_impl; [|exact F]. exact good_ok.
  Qed.
  Lemma sum_no_doc n pc : good_sum pc -> Forall no_doc (render_sum render n pc).
  Proof.
    intros [_ F]. rewrite render_sum_lines. apply sum_lines_no_doc; [apply start_text_ok|apply start_text_ok|]. apply Forall_map. eapply Forall_impl; [|exact F].
    intros c H. exact (proj1 (good_ok c H)).
  Qed.
  Lemma sum_adds_text pc : good_sum pc -> sum_adds render (cc_sum_text pc) (run_sum pc).
  Proof. intros [N _]. exists (prefactor_text (fst (fst pc)) (snd (fst pc))), (snd pc). auto. Qed.

  Variable name : string.
  Hypothesis plain_name : no_special name = true.
  Hypothesis starts_name : starts name = true.
  Definition extend_text (pc : prefactor * list C) : string :=
    match snd pc with
    | [c] => name ++ ".append(" ++ render c ++ ")"
    | l => name ++ ".extend([ " ++ String.concat ", " (map render l) ++ " ])"
    end%string.
  Lemma extend_lines_many n p x l c : render_extend render name n (p, (x :: l) ++ [c]) =
    ((pad (4 * n) ++ (name ++ ".extend") ++ "([")%string :: map (fun l => (pad (4 * n + 4) ++ l)%string) (map (fun r => r ++ ",")%string (map render (x :: l)) ++ [render c]))
    ++ [(pad (4 * n) ++ "])")%string].
  Proof.
    assert (E : render_extend render name n (p, (x :: l) ++ [c]) = (tabs n ++ name ++ ".extend([")%string
      :: map (fun c => (tabs n ++ tab ++ render c ++ ",")%string) (removelast ((x :: l) ++ [c]))
      ++ map (fun c => (tabs n ++ tab ++ render c)%string) (match rev ((x :: l) ++ [c]) with [] => [] | c :: _ => [c] end) ++ [(tabs n ++ "])")%string]) by (destruct l; reflexivity).
    rewrite E, removelast_last, rev_app_distr. cbn [rev app]. rewrite <- tabs_is, !append_assoc. cbn [String.append]. f_equal.
    rewrite map_app, !map_map, <- app_assoc. f_equal.
    - apply (map_ext (fun c0 => (tabs n ++ tab ++ render c0 ++ ",")%string)). intros r. apply tabs_tab.
    - cbn [map app]. now rewrite tabs_tab.
  Qed.
  Lemma extend_many (p : prefactor) x l c : extend_text (p, (x :: l) ++ [c]) =
    ((name ++ ".extend") ++ "([" ++ concat_str (map (fun l => " " ++ l) (map (fun r => r +++ ",") (map render (x :: l)) ++ [render c])%list) ++ " " ++ "])")%string.
  Proof.
    assert (E : extend_text (p, (x :: l) ++ [c]) = (name ++ ".extend([ " ++ String.concat ", " (map render ((x :: l) ++ [c])%list) ++ " ])")%string) by (destruct l; reflexivity).
    rewrite E, concat_commas, map_app, !append_assoc. reflexivity.
  Qed.
  Lemma two_or_more {X} (a b : X) r : exists x l c, a :: b :: r = (x :: l) ++ [c].
  Proof. destruct (@exists_last _ (b :: r)) as (l & c & E); [discriminate|]. exists a, l, c. cbn [app]. now rewrite <- E. Qed.
  Lemma name_append_neutral c : good c -> neutral (name ++ ".append(" ++ render c ++ ")").
  Proof.
    intros G. apply neutral_app; [now apply neutral_plain|]. change (".append(" ++ render c ++ ")")%string with (".append" ++ ("(" ++ render c ++ ")"))%string.
    apply neutral_app; [now apply neutral_plain|]. apply neutral_paren. apply (good_ok c G).
  Qed.
  Lemma extend_piece n pc : good_sum pc -> piece (4 * n) (render_extend render name n pc) [Simple (extend_text pc)].
  Proof.
    intros [NE F]. destruct pc as [p calls]. cbn [snd] in *. destruct calls as [|a [|b r]]; [congruence| |].
    - cbn [render_extend extend_text snd]. rewrite tabs_is. apply Forall_cons_iff in F as [G _]. apply piece_statement; [now apply name_append_neutral|now apply starts_app|now do 3 apply ends_app|].
      now rewrite is_head_last, !last_char_app.
    - destruct (two_or_more a b r) as (x & l & c & E). rewrite E in *. clear E a b r. rewrite extend_lines_many, extend_many.
      apply (piece_between _ _ "([" "])" _ 1); try reflexivity.
      + intros t [_ N]. rewrite N. reflexivity.
      + apply neutral_app; [now apply neutral_plain|now apply neutral_plain].
      + now apply starts_app.
      + apply Forall_app in F as [F1 F2]. apply Forall_app. split.
        * rewrite map_map. apply Forall_map. eapply Forall_impl; [|exact F1]. intros y G. destruct (good_ok y G) as ((N1 & B1 & E1) & _). split; [|split].
          -- apply neutral_app; [exact N1|now apply neutral_plain]. -- now apply starts_app. -- now apply ends_app.
        * constructor; [|constructor]. apply Forall_cons_iff in F2 as [G _]. apply (good_ok c G).
  Qed.
  Lemma extend_no_doc n pc : good_sum pc -> Forall no_doc (render_extend render name n pc).
  Proof.
    intros [NE F]. destruct pc as [p calls]. cbn [snd] in *.
    assert (D : forall k t, neutral t -> starts t = true -> no_doc (pad k ++ t)) by (intros; apply no_doc_pad, no_doc_starts; assumption).
    destruct calls as [|a [|b r]]; [congruence| |].
    - cbn [render_extend]. rewrite tabs_is. apply Forall_cons_iff in F as [G _]. constructor; [|constructor]. apply D; [now apply name_append_neutral|now apply starts_app].
    - destruct (two_or_more a b r) as (x & l & c & E). rewrite E in *. clear E a b r. rewrite extend_lines_many.
      apply Forall_app in F as [F1 F2]. apply Forall_app. split; [|constructor; [|constructor]].
      + constructor.
        * apply no_doc_pad. assert (Bn : starts ((name ++ ".extend") ++ "([") = true) by now do 2 apply starts_app.
          destruct (starts_drop _ Bn) as (Q & _ & P). unfold no_doc. rewrite Q. split; [exact P|].
          rewrite !has_char_app. rewrite (proj2 (no_special_nq _ plain_name)). reflexivity.
        * apply Forall_map, Forall_app. split.
          -- rewrite map_map. apply Forall_map. eapply Forall_impl; [|exact F1]. intros y G. destruct (good_ok y G) as ((N1 & B1 & E1) & _). apply D; [apply neutral_app; [exact N1|now apply neutral_plain]|now apply starts_app].
          -- constructor; [|constructor]. apply Forall_cons_iff in F2 as [G _]. apply D; apply (good_ok c G).
      + apply no_doc_pad. split; reflexivity.
  Qed.
End Sums.

Lemma list_adds_text name (pc : prefactor * list (list nat)) : good_sum (fun _ => True) pc ->
  list_adds name (extend_text contract_text name pc) (map snd (run_sum pc)).
Proof.
  intros [NE _]. destruct pc as [p calls]. unfold run_sum, list_adds. rewrite map_map. cbn [fst snd] in *. rewrite map_id. destruct calls as [|a [|b r]]; [congruence| |].
  - left. exists a. auto.
  - right. split; [cbn; lia|]. reflexivity.
Qed.

(** ** Blocks *)

Section Blocks.
  Context {C : Type}.
  Variables (good : C -> Prop) (sum : nat -> prefactor * list C -> list string) (text : prefactor * list C -> string)
    (adds : string -> list (string * C) -> Prop).
  Hypothesis sum_reads : forall n pc, good_sum good pc -> piece (4 * n) (sum n pc) [Simple (text pc)].
  Hypothesis sum_plain : forall n pc, good_sum good pc -> Forall no_doc (sum n pc).
  Hypothesis text_adds : forall pc, good_sum good pc -> adds (text pc) (run_sum pc).

  Definition good_if (js : nat * list (prefactor * list C)) : Prop := snd js <> [] /\ Forall (good_sum good) (snd js).
  Definition good_block (b : block C) : Prop :=
    match b with
    | BSum p calls => good_sum good (p, calls)
    | BIfT j sums => good_if (j, sums)
    | BIfH i sums ifs => (sums <> [] \/ ifs <> []) /\ Forall (good_sum good) sums /\ Forall good_if ifs
    | _ => True
    end.
  Definition is_code (b : block C) : Prop := match b with BBare _ | BPass => False | _ => True end.

  Definition sums_stmts (l : list (prefactor * list C)) : list stmt := map (fun pc => Simple (text pc)) l.
  Definition if_stmt (js : nat * list (prefactor * list C)) : stmt := If (cc_t_condition (fst js)) (sums_stmts (snd js)) [].
  Definition block_stmts (b : block C) : list stmt :=
    match b with
    | BBare h => [Simple (bare_text h)]
    | BSum p calls => [Simple (text (p, calls))]
    | BIfT j sums => [if_stmt (j, sums)]
    | BIfH i sums ifs => [If (cc_h_condition i) (sums_stmts sums ++ map if_stmt ifs) []]
    | BPass => [Simple "pass"]
    end.
  Definition cc_body_stmts (l : list (block C)) : list stmt := flat_map block_stmts l.

  Lemma t_condition_is j : cc_t_condition j = ("truncation." ++ tag_t j)%string.
  Proof. reflexivity. Qed.
  Lemma h_condition_is i : cc_h_condition i = ("truncation.at_least_" ++ tag_h i)%string.
  Proof. reflexivity. Qed.
  Lemma t_condition_plain j : no_special (cc_t_condition j) = true.
  Proof. rewrite t_condition_is, no_special_app, tag_t_ok. reflexivity. Qed.
  Lemma h_condition_plain i : no_special (cc_h_condition i) = true.
  Proof. rewrite h_condition_is, no_special_app, tag_h_ok. reflexivity. Qed.

  Lemma sums_piece n l : Forall (good_sum good) l -> piece (4 * n) (flat_map (sum n) l) (sums_stmts l).
  Proof.
    intros F. unfold sums_stmts. rewrite <- flat_map_singleton. apply piece_flat_map. intros pc H. apply sum_reads. rewrite Forall_forall in F. auto.
  Qed.
  Lemma ift_piece n js : good_if js -> piece (4 * n) (render_ift sum n js) [if_stmt js].
  Proof.
    intros [N F]. unfold render_ift, if_stmt. change ("if truncation." ++ tag_t (fst js) ++ ":")%string with ("if " ++ cc_t_condition (fst js) ++ ":")%string.
    apply if_piece; [apply t_condition_plain|now apply map_not_nil|now apply sums_piece].
  Qed.
  Lemma bare_piece h : piece 0 [("R += " ++ ModelFullCCPy.h_text h)%string] [Simple (bare_text h)].
  Proof.
    apply (piece_statement 0 (bare_text h)).
    - apply neutral_app; [now apply neutral_plain|apply h_operand_neutral].
    - reflexivity.
    - unfold bare_text, h_operand. now do 3 apply ends_app.
    - unfold bare_text, h_operand. now rewrite is_head_last, !last_char_app.
  Qed.
  Lemma block_piece b : good_block b -> piece 0 (render_block sum b) (block_stmts b).
  Proof.
    destruct b as [h|p calls|j sums|i sums ifs|]; cbn [good_block render_block block_stmts]; intros G.
    - apply bare_piece.
    - exact (sum_reads 0 _ G).
    - exact (ift_piece 0 _ G).
    - destruct G as (N & F1 & F2). apply (piece_app 0 [""%string] _ [] _ (piece_skip 0 _ (line_blank 0))).
      change ("if truncation.at_least_" ++ tag_h i ++ ":")%string with (tabs 0 ++ "if " ++ cc_h_condition i ++ ":")%string.
      apply if_piece; [apply h_condition_plain| |].
      + destruct sums, ifs; try discriminate. destruct N; congruence.
      + apply piece_app; [now apply (sums_piece 1)|]. rewrite <- flat_map_singleton. apply piece_flat_map. intros js H. apply (ift_piece 1). rewrite Forall_forall in F2. auto.
    - apply piece_simple; [|reflexivity]. exact (line_trailing_comment 0 "pass" " no valid terms here" (neutral_plain "pass" eq_refl) eq_refl eq_refl).
  Qed.
  Lemma cc_body_piece l : Forall good_block l -> piece 0 (render_body sum l) (cc_body_stmts l).
  Proof. intros F. apply piece_flat_map. intros b H. apply block_piece. rewrite Forall_forall in F. auto. Qed.

  Lemma sums_no_doc n l : Forall (good_sum good) l -> Forall no_doc (flat_map (sum n) l).
  Proof. intros F. apply Forall_flat_map_intro. intros pc H. apply sum_plain. rewrite Forall_forall in F. auto. Qed.
  Lemma ift_no_doc n js : good_if js -> Forall no_doc (render_ift sum n js).
  Proof.
    intros [_ F]. constructor; [|now apply sums_no_doc]. change ("if truncation." ++ tag_t (fst js) ++ ":")%string with ("if " ++ cc_t_condition (fst js) ++ ":")%string.
    apply no_doc_if, t_condition_plain.
  Qed.
  Lemma cc_body_no_doc l : Forall good_block l -> Forall no_doc (render_body sum l).
  Proof.
    intros F. apply Forall_flat_map_intro. intros b H. rewrite Forall_forall in F. specialize (F b H).
    destruct b as [h|p calls|j sums|i sums ifs|]; cbn [good_block render_block] in *.
    - constructor; [|constructor]. apply no_doc_starts; [|reflexivity]. apply neutral_app; [now apply neutral_plain|apply h_operand_neutral].
    - exact (sum_plain 0 _ F).
    - exact (ift_no_doc 0 _ F).
    - destruct F as (_ & F1 & F2). constructor; [apply no_doc_empty|]. constructor; [exact (no_doc_if 0 _ (h_condition_plain i))|].
      apply Forall_app. split; [now apply sums_no_doc|]. apply Forall_flat_map_intro. intros js Hj. apply ift_no_doc. rewrite Forall_forall in F2. auto.
    - repeat constructor.
  Qed.

  (** what is executed *)
  Lemma order_nil {D} (a : string -> list D -> Prop) : in_order a [] [].
  Proof. exists []. split; [constructor|reflexivity]. Qed.
  Lemma order_app {D} (a : string -> list D -> Prop) t1 l1 t2 l2 : in_order a t1 l1 -> in_order a t2 l2 -> in_order a (t1 ++ t2) (l1 ++ l2).
  Proof. intros (x & F & ->) (y & G & ->). exists (x ++ y). split; [now apply Forall2_app|]. now rewrite concat_app. Qed.
  Lemma order_flat_map {A D} (a : string -> list D -> Prop) (f : A -> list string) g l : (forall x, In x l -> in_order a (f x) (g x)) -> in_order a (flat_map f l) (flat_map g l).
  Proof. induction l as [|x l IH]; intros H; cbn [flat_map]; [apply order_nil|]. apply order_app; [apply H; now left|apply IH; intros; apply H; now right]. Qed.

  Section Exec.
    Variable flag : string -> bool.
    Let fh i := flag (cc_h_condition i).
    Let ft j := flag (cc_t_condition j).

    Lemma exec_sum pc : good_sum good pc -> in_order adds (exec flag [Simple (text pc)]) (run_sum pc).
    Proof. intros G. exists [run_sum pc]. split; [constructor; [now apply text_adds|constructor]|]. cbn. now rewrite app_nil_r. Qed.
    Lemma exec_sums l : Forall (good_sum good) l -> in_order adds (exec flag (sums_stmts l)) (flat_map run_sum l).
    Proof.
      intros F. unfold sums_stmts. rewrite <- flat_map_singleton, exec_flat_map. apply order_flat_map. intros pc H. apply exec_sum. rewrite Forall_forall in F. auto.
    Qed.
    Lemma exec_ift js : good_if js -> in_order adds (exec flag [if_stmt js]) (run_if ft js).
    Proof. intros [_ F]. unfold if_stmt, run_if. rewrite exec_if. unfold ft. destruct (flag _); [now apply exec_sums|apply order_nil]. Qed.
    Lemma exec_block b : good_block b -> is_code b -> in_order adds (exec flag (block_stmts b)) (run_block fh ft b).
    Proof.
      destruct b as [h|p calls|j sums|i sums ifs|]; cbn [good_block is_code block_stmts run_block]; intros G K; try destruct K.
      - now apply exec_sum.
      - now apply exec_ift.
      - destruct G as (_ & F1 & F2). rewrite exec_if. unfold fh. destruct (flag _); [|apply order_nil]. rewrite exec_app. apply order_app; [now apply exec_sums|].
        rewrite <- flat_map_singleton, exec_flat_map. apply order_flat_map. intros js H. apply exec_ift. rewrite Forall_forall in F2. auto.
    Qed.
    Lemma exec_code l : Forall good_block l -> Forall is_code l -> in_order adds (exec flag (cc_body_stmts l)) (run fh ft l).
    Proof.
      intros F K. unfold cc_body_stmts, run. rewrite exec_flat_map. apply order_flat_map. intros b H. rewrite Forall_forall in *. apply exec_block; auto.
    Qed.
  End Exec.

  (** the bodies of the code *)
  Definition written_body (l : list (block C)) : Prop :=
    l = [BPass] \/ (l <> [] /\ exists bares code, l = map BBare bares ++ code /\ Forall good_block code /\ Forall is_code code).
  Lemma code_bare l : Forall is_code l -> run_bare l = [].
  Proof.
    intros F. unfold run_bare. induction F as [|b l K _ IH]; [reflexivity|]. cbn [flat_map]. rewrite IH. destruct b; try destruct K; reflexivity.
  Qed.
  Lemma bares_bare l : run_bare (map (@BBare C) l) = l.
  Proof. unfold run_bare. induction l as [|b l IH]; [reflexivity|]. cbn [map flat_map]. rewrite IH. reflexivity. Qed.
  Lemma bares_run fh ft l : run fh ft (map (@BBare C) l) = [].
  Proof. unfold run. induction l as [|b l IH]; [reflexivity|]. cbn [map flat_map]. rewrite IH. reflexivity. Qed.
  Lemma exec_bares flag l : exec flag (cc_body_stmts (map (@BBare C) l)) = map bare_text l.
  Proof. unfold exec, cc_body_stmts. induction l as [|b l IH]; [reflexivity|]. cbn [map flat_map app block_stmts exec1]. rewrite IH. reflexivity. Qed.

  Lemma written_body_good l : written_body l -> Forall good_block l.
  Proof.
    intros [->|(_ & bares & code & -> & G & _)]; [repeat constructor|]. apply Forall_app. split; [|exact G]. apply Forall_map, Forall_forall. intros; exact I.
  Qed.
  Lemma written_body_does l : written_body l -> branch_does adds (run_bare l) (fun fh ft => run fh ft l) (cc_body_stmts l).
  Proof.
    intros [->|(N & bares & code & E & G & K)].
    - split; [discriminate|]. left. auto.
    - assert (NE : cc_body_stmts l <> []).
      { destruct l as [|b l]; [congruence|]. unfold cc_body_stmts. cbn [flat_map]. destruct b; discriminate. }
      split; [exact NE|]. right. intros flag. subst l. exists (exec flag (cc_body_stmts code)). split.
      + unfold cc_body_stmts at 1. rewrite flat_map_app. fold cc_body_stmts. unfold run_bare at 1. rewrite flat_map_app. fold (run_bare (map (@BBare C) bares)). fold (run_bare code).
        rewrite bares_bare, (code_bare code K), app_nil_r, exec_app. f_equal. apply exec_bares.
      + assert (R : forall fh ft, run fh ft (map BBare bares ++ code) = run fh ft code).
        { intros fh ft. unfold run at 1. rewrite flat_map_app. fold (run fh ft (map (@BBare C) bares)). fold (run fh ft code). now rewrite bares_run. }
        rewrite R. now apply exec_code.
  Qed.
End Blocks.

(** ** The bodies of the generated functions *)

Lemma mapM_all {A B} (f : A -> res B) (P : B -> Prop) l r : (forall x y, In x l -> f x = Ok y -> P y) -> mapM f l = Ok r -> Forall P r.
Proof.
  revert r. induction l as [|x l IH]; intros r H E; cbn [mapM] in E; [injection E as <-; constructor|].
  destruct (f x) as [y|] eqn:F; [|discriminate]. cbn [bind] in E. destruct (mapM f l) as [r'|] eqn:M; [|discriminate]. cbn [bind] in E. injection E as <-.
  constructor; [apply (H x); [now left|exact F]|]. apply IH; [intros; eapply H; [right|]; eassumption|reflexivity].
Qed.

Section Written.
  Context {C : Type}.
  Variable good : C -> Prop.
  Definition good_entry (e : @ModelFullCCPy.entry C) : Prop := Forall good (snd e).

  Lemma sums_ok_good l s : Forall (fun pc => Forall good (snd pc)) l -> sums_ok l = Ok s -> Forall (good_sum good) s.
  Proof.
    intros F E. eapply mapM_all; [|exact E]. intros [p c] y Hx Hy. rewrite Forall_forall in F. specialize (F _ Hx). cbn [snd] in *.
    destruct c as [|c0 c]; [discriminate|]. injection Hy as <-. split; [discriminate|exact F].
  Qed.
  Lemma sums_ok_nonempty (l : list (prefactor * list C)) s : l <> [] -> sums_ok l = Ok s -> s <> [].
  Proof.
    destruct l as [|x l]; [congruence|]. unfold sums_ok. cbn [mapM]. intros _. destruct (snd x); [discriminate|]. cbn [bind].
    match goal with |- context [mapM ?f l] => destruct (mapM f l) end; [|discriminate]. intros [= <-]. discriminate.
  Qed.
  Lemma bucket_good d i j : Forall good_entry d -> Forall (fun pc => Forall good (snd pc)) (bucket d i j).
  Proof.
    intros F. unfold bucket. apply Forall_map, Forall_forall. intros e H. apply filter_In in H as [H _]. rewrite Forall_forall in F. exact (F e H).
  Qed.
  Lemma t_ifs_good cc d i r : Forall good_entry d -> t_ifs cc d i = Ok r -> Forall (good_if good) r.
  Proof.
    intros F. unfold t_ifs. destruct (mapM _ _) as [l|] eqn:M; [|discriminate]. cbn [bind]. intros [= <-]. apply Forall_concat. eapply mapM_all; [|exact M].
    intros j y _. cbn beta. pose proof (bucket_good d i j F) as B. destruct (bucket d i j) as [|x b] eqn:E; [intros [= <-]; constructor|].
    destruct (py_nth taylor_series_order_tag j); [|discriminate]. cbn [bind]. destruct (sums_ok (x :: b)) as [s|] eqn:S0; [|discriminate]. cbn [bind]. intros [= <-].
    constructor; [|constructor]. split; [|now apply (sums_ok_good (x :: b))]. apply (sums_ok_nonempty (x :: b)); [discriminate|exact S0].
  Qed.
  Lemma bucket_blocks_good H cc d b : Forall good_entry d -> bucket_blocks H cc d = Ok b -> Forall (good_block good) b /\ Forall is_code b.
  Proof.
    intros F. unfold bucket_blocks. destruct (sums_ok (bucket d 0 0)) as [s|] eqn:S0; [|discriminate]. cbn [bind]. destruct (t_ifs cc d 0) as [ifs|] eqn:T; [|discriminate]. cbn [bind].
    destruct (mapM _ _) as [hs|] eqn:M; [|discriminate]. cbn [bind]. intros [= <-].
    pose proof (sums_ok_good _ _ (bucket_good d 0 0 F) S0) as G0. pose proof (t_ifs_good _ _ _ _ F T) as G1.
    assert (G2 : Forall (fun l => Forall (good_block good) l /\ Forall is_code l) hs).
    { eapply mapM_all; [|exact M]. intros i y _. cbn beta. destruct (py_nth hamiltonian_order_tag i); [|discriminate]. cbn [bind].
      destruct (sums_ok (bucket d i 0)) as [s'|] eqn:S1; [|discriminate]. cbn [bind]. destruct (t_ifs cc d i) as [ifs'|] eqn:T1; [|discriminate]. cbn [bind].
      pose proof (sums_ok_good _ _ (bucket_good d i 0 F) S1) as A. pose proof (t_ifs_good _ _ _ _ F T1) as B.
      intros [= <-]. destruct s' as [|x s'], ifs' as [|y' ifs']; [split; constructor| | |];
        (split; constructor; [|constructor| |constructor]; cbn [good_block is_code]; auto; split; [|split; assumption]); [right|left|left]; discriminate. }
    split; (apply Forall_app; split; [|apply Forall_app; split]).
    - apply Forall_map. eapply Forall_impl; [|exact G0]. now intros [p c].
    - apply Forall_map. eapply Forall_impl; [|exact G1]. now intros [p c].
    - apply Forall_concat. eapply Forall_impl; [|exact G2]. now intros l [? ?].
    - apply Forall_map, Forall_forall. intros; exact I.
    - apply Forall_map, Forall_forall. intros; exact I.
    - apply Forall_concat. eapply Forall_impl; [|exact G2]. now intros l [? ?].
  Qed.

  Variable calls_of : term -> res (list C).
  Hypothesis calls_good : forall t cs, calls_of t = Ok cs -> Forall good cs.
  Lemma fill_good so H cc l : forall d d', Forall good_entry d -> fill_buckets so calls_of H cc l d = Ok d' -> Forall good_entry d'.
  Proof.
    induction l as [|t l IH]; intros d d' F E; cbn [fill_buckets] in E; [injection E as <-; exact F|].
    destruct (is_bare_h (snd t)); [now apply (IH d)|]. destruct (file_term _ _ _ _ t d) as [d1|] eqn:F1; [|discriminate]. cbn [bind] in E.
    apply (IH d1); [|exact E]. clear E IH. destruct t as [[o h] ts]. unfold file_term in F1.
    destruct (Nat.ltb H _); [discriminate|]. destruct (Nat.ltb cc _); [discriminate|]. destruct (calls_of _) as [cs|] eqn:K; [|discriminate]. cbn [bind] in F1. injection F1 as <-.
    apply Forall_forall. intros e He. apply in_file_calls in He as [He|(_ & _ & He)].
    - rewrite Forall_forall in F. now apply F.
    - unfold good_entry. rewrite He. exact (calls_good _ _ K).
  Qed.
  Lemma write_written so H cc l body : write_cc_einsum_python_from_list so H cc calls_of l = Ok body -> body <> [] -> written_body good body.
  Proof.
    unfold write_cc_einsum_python_from_list. destruct l as [|t l]; [intros [= <-]; now left|]. set (tl := t :: l). clearbody tl.
    destruct (fill_buckets so calls_of H cc tl []) as [d|] eqn:F; [|discriminate]. cbn [bind]. destruct (bucket_blocks H cc d) as [b|] eqn:B; [|discriminate]. cbn [bind].
    intros E NE. right. split; [exact NE|]. injection E as <-. exists (map (fun t => (ch_m (snd (fst t)), ch_n (snd (fst t)))) (filter (fun t => is_bare_h (snd t)) tl)), b.
    rewrite map_map. split; [reflexivity|]. apply (bucket_blocks_good H cc d); [|exact B]. now apply (fill_good so H cc tl []).
  Qed.
End Written.

Lemma paths_written so son soc H cc l body : write_cc_optimized_paths_from_list so son soc H cc l = Ok body -> written_body (fun _ => True) body /\ run_bare body = [].
Proof.
  unfold write_cc_optimized_paths_from_list. destruct l as [|t l]; [intros [= <-]; split; [now left|reflexivity]|]. set (tl := t :: l). clearbody tl.
  match goal with |- context [mapM ?f tl] => destruct (mapM f tl) end; [|discriminate]. cbn [bind].
  destruct (fill_buckets so _ H cc tl []) as [d|] eqn:F; [|discriminate]. cbn [bind]. destruct (bucket_blocks H cc d) as [b|] eqn:B; [|discriminate]. cbn [bind].
  intros E. destruct (bucket_blocks_good (fun _ => True) H cc d b) as [G K]; [|exact B|].
  - apply (fill_good (fun _ => True) (path_calls son soc)) in F; [exact F| |constructor]. intros t' cs _. apply Forall_forall. intros; exact I.
  - destruct b as [|x b]; injection E as <-; [split; [now left|reflexivity]|]. split; [|now apply code_bare]. right. split; [discriminate|]. exists [], (x :: b). auto.
Qed.

Lemma lasts_nonempty {A B} (f : A -> B) l l' : lasts f l l' -> l <> [] -> l' <> [].
Proof.
  induction 1 as [|x l l' H L IH|x y l l' H E L IH]; intros N; [congruence|discriminate|]. apply IH. destruct l; [destruct H|discriminate].
Qed.
Lemma keeps_nonempty {C} so (calls_of : term -> res (list C)) l body : l <> [] -> keeps_last so calls_of l body -> body <> [].
Proof.
  intros N (surv & calls & L & HC & RB & P) ->. cbn in RB. specialize (P (fun _ => true) (fun _ => true)). cbn in P. apply Permutation_nil in P.
  assert (W : with_amplitudes l = l).
  { unfold with_amplitudes. clear - RB. induction l as [|t l IH]; [reflexivity|]. cbn [filter] in *. destruct (bare t); [discriminate|]. cbn [negb]. now rewrite IH. }
  rewrite W in *. pose proof (lasts_nonempty _ _ _ L N) as S0. destruct surv as [|t surv]; [congruence|].
  assert (Ht : In t l) by (clear - L; remember (t :: surv) as s eqn:E; induction L; [discriminate|injection E as -> ->; now left|right; auto]).
  destruct (HC t Ht) as [_ K]. cbn [flat_map] in P. apply app_eq_nil in P as [P _]. unfold active in P. destruct (slot so t) as [[i j] p] eqn:Es.
  rewrite !orb_true_r in P. cbn in P. apply map_eq_nil in P. congruence.
Qed.

(** ** Subscripts of the calls have no quotes *)

Lemma py_nth_nq l i s : (forall x, In x l -> nq x) -> py_nth l i = Ok s -> nq s.
Proof. intros H E. apply H. unfold py_nth in E. destruct (nth_error l i) eqn:N; [|discriminate]. injection E as <-. now apply nth_error_In in N. Qed.
Lemma electronic_nq k l : electronic_components k = Ok l -> forall x, In x l -> nq x.
Proof.
  unfold electronic_components. set (comps := "ac"%string :: map (fun i => sslice i (i + 2) "cdefgh") (range 0 k)).
  assert (G : forall x, In x comps -> nq x).
  { intros x [<-|H]; [split; reflexivity|]. apply in_map_iff in H as (i & <- & _). split; unfold sslice; now rewrite substring_no_char. }
  destruct (exists_last (l := comps) ltac:(discriminate)) as (a & z & E). rewrite E in *. rewrite last_last, removelast_last.
  destruct z as [|c z]; [discriminate|]. intros [= <-] x Hx. apply in_app_iff in Hx as [Hx|[<-|[]]]; [apply G, in_app_iff; now left|].
  destruct (G (String c z)) as [A B]; [apply in_app_iff; right; now left|]. split; cbn [has_char] in *.
  - apply orb_false_iff in A as [A _]. now rewrite A.
  - apply orb_false_iff in B as [B _]. now rewrite B.
Qed.
Lemma t_labels_nq t o s u o' : t_labels t o = (s, u, o') -> nq s /\ nq u.
Proof.
  unfold t_labels, t_lower_labels, t_upper_labels. intros E.
  destruct (_ || _)%bool; destruct (_ || _)%bool; injection E as <- <- _; split; repeat (apply nq_app); try apply nq_sum; try apply nq_unl; try apply nq_empty.
Qed.

Lemma t_group_nq ts : forall o x, In x (t_group_loop ts o) -> nq (fst x) /\ nq (snd x).
Proof.
  induction ts as [|t ts IH]; intros o x; cbn [t_group_loop]; [intros []|]. destruct (t_labels t o) as [[s u] o'] eqn:E. intros [<-|H]; [exact (t_labels_nq _ _ _ _ _ E)|]. exact (IH _ _ H).
Qed.
Lemma h_labels_nq h : nq (fst (h_labels h)) /\ nq (snd (h_labels h)).
Proof. unfold h_labels. destruct (Nat.eqb _ _); cbn [fst snd]; split; repeat (apply nq_app); try apply nq_sum; try apply nq_unl; try apply nq_empty. Qed.
Lemma concat_str_nq l : (forall x, In x l -> nq x) -> nq (concat_str l).
Proof. induction l as [|x l IH]; intros H; [apply nq_empty|]. apply nq_app; [apply H; now left|apply IH; intros; apply H; now right]. Qed.
Lemma vibrational_nq h ts v r : vibrational_components h ts = (v, r) -> (forall x, In x v -> nq x) /\ nq r.
Proof.
  unfold vibrational_components. pose proof (h_labels_nq h) as [A B]. destruct (h_labels h) as [hs hu]. cbn [fst snd] in *.
  pose proof (t_group_nq ts (mkoff (ch_m h - ch_m_o h) 0 (ch_m_o h + ch_n_o h))) as G. unfold t_group. intros [= <- <-]. split.
  - intros x [<-|H]; [now apply nq_app|]. apply in_map_iff in H as (su & <- & H). destruct (G su H). now apply nq_app.
  - apply nq_app; [exact B|]. apply concat_str_nq. intros x H. apply in_map_iff in H as (su & <- & H). now destruct (G su H).
Qed.
Lemma subscripts_nq e v perm ins : (forall x, In x e -> nq x) -> (forall x, In x v -> nq x) -> permuted_subscripts e v perm = Ok ins -> forall x, In x ins -> nq x.
Proof.
  intros A B. unfold permuted_subscripts. destruct (py_nth e 0) as [e0|] eqn:E0; [|discriminate]. cbn [bind]. destruct (py_nth v 0) as [v0|] eqn:V0; [|discriminate]. cbn [bind].
  destruct (mapM _ _) as [r|] eqn:M; [|discriminate]. cbn [bind]. intros [= <-]. apply (mapM_all _ nq) in M.
  - intros x [<-|H]; [exact (nq_app _ _ (py_nth_nq _ _ _ A E0) (py_nth_nq _ _ _ B V0))|]. rewrite Forall_forall in M. auto.
  - intros ip y _. destruct (py_nth e (fst ip + 1)) as [e1|] eqn:E1; [|discriminate]. cbn [bind]. destruct (py_nth v (snd ip + 1)) as [v1|] eqn:V1; [|discriminate]. cbn [bind].
    intros Ey. assert (Y : forall a b : string, Ok a = Ok b -> a = b) by (now injection 1). apply Y in Ey. rewrite <- Ey. exact (nq_app _ _ (py_nth_nq _ _ _ A E1) (py_nth_nq _ _ _ B V1)).
Qed.
Lemma einsum_calls_good son soc t cs : einsum_calls son soc t = Ok cs -> Forall good_einsum cs.
Proof.
  destruct t as [[o h] ts]. unfold einsum_calls. destruct (multiple_perms_logic son ts) as [pk|]; [|discriminate]. cbn [bind].
  destruct (electronic_components _) as [e|] eqn:Ee; [|discriminate]. cbn [bind]. destruct (vibrational_components h ts) as [v r] eqn:Ev.
  pose proof (electronic_nq _ _ Ee) as A. destruct (vibrational_nq _ _ _ _ Ev) as [B R].
  assert (O : nq ("ab" +++ r)) by (apply nq_app; [split; reflexivity|exact R]).
  destruct pk as [|ps|ps].
  - destruct (mapM _ _) as [ins|] eqn:M; [|discriminate]. cbn [bind].
    assert (G : forall hop tt, good_einsum (mkeinsum ins ("ab" +++ r) hop tt)).
    { intros hop tt. split; [|exact O]. cbn [e_inputs]. apply (mapM_all _ nq) in M; [rewrite Forall_forall in M; exact M|].
      intros i y _. destruct (py_nth e i) as [e1|] eqn:E1; [|discriminate]. cbn [bind]. destruct (py_nth v i) as [v1|] eqn:V1; [|discriminate]. cbn [bind].
      intros Ey. assert (Y : forall a b : string, Ok a = Ok b -> a = b) by (now injection 1). apply Y in Ey. rewrite <- Ey. exact (nq_app _ _ (py_nth_nq _ _ _ A E1) (py_nth_nq _ _ _ B V1)). }
    destruct (String.eqb r ""); intros [= <-]; [constructor; [apply G|constructor]|]. apply Forall_map, Forall_forall. intros; apply G.
  - intros M. eapply mapM_all; [|exact M]. intros perm y _. cbn beta. destruct (permuted_subscripts e v perm) as [ins|] eqn:P; [|discriminate]. cbn [bind].
    intros [= <-]. split; [|exact O]. exact (subscripts_nq _ _ _ _ A B P).
  - intros M. eapply mapM_all; [|exact M]. intros perm y _. cbn beta. destruct (mapM (py_nth ts) perm); [|discriminate]. cbn [bind]. destruct (permuted_subscripts e v perm) as [ins|] eqn:P; [|discriminate]. cbn [bind].
    intros [= <-]. split; [|exact O]. exact (subscripts_nq _ _ _ _ A B P).
Qed.
