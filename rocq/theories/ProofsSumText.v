(** Reading the sums and lists of the generated W and dt modules. *)
From Coq Require Import List Arith Lia Bool Ascii String Permutation.
From Verif Require Import PyBase PyBaseFacts SpecPartitions SpecW SpecDt SpecPython SpecSumText ModelW
  PyStr ProofsStr ProofsPython ProofsParse ProofsFullCCBuckets ProofsFullCCRead ProofsW.
Import ListNotations.
Local Open Scope nat_scope.
Local Open Scope list_scope.

(** ** Lines *)

Lemma splitlines_aux_line l acc r : has_char newline l = false ->
  splitlines_aux acc (l ++ String newline r) = of_chars (rev acc ++ chars l) :: splitlines_aux [] r.
Proof.
  revert acc. induction l as [|c l IH]; intros acc H.
  - cbn [String.append splitlines_aux chars]. change (Ascii.eqb newline (ascii_of_nat 10)) with true. now rewrite app_nil_r.
  - unfold has_char in H. cbn [chars existsb] in H. apply orb_false_iff in H as [H1 H2]. cbn [String.append splitlines_aux chars].
    assert (E : Ascii.eqb c (ascii_of_nat 10) = false) by (first [exact H1|rewrite Ascii.eqb_sym; exact H1]). rewrite E, (IH _ H2).
    cbn [rev]. now rewrite <- app_assoc.
Qed.
Lemma of_chars_chars s : of_chars (chars s) = s.
Proof. induction s as [|c s IH]; [reflexivity|]. cbn [chars of_chars]. now rewrite IH. Qed.
Lemma splitlines_lines ls : Forall (fun l => has_char newline l = false) ls ->
  splitlines (concat_str (map (fun l => l ++ nl)%string ls)) = ls.
Proof.
  unfold splitlines. induction 1 as [|l ls H _ IH]; [reflexivity|]. cbn [map].
  change (concat_str (?a :: ?l)) with (a ++ concat_str l)%string. rewrite append_assoc, nl_append, splitlines_aux_line by exact H.
  cbn [rev app]. now rewrite of_chars_chars, IH.
Qed.

(** Indenting the lines of a text. *)
Lemma block_indent i t b : block i t b -> block (4 + i) (concat_str (map (fun l => tab ++ l ++ nl)%string (splitlines t))) b.
Proof.
  intros (ls & F & -> & P). rewrite (splitlines_lines _ F). exists (map (fun l => (pad 4 ++ l)%string) ls). split; [|split].
  - apply Forall_map. eapply Forall_impl; [|exact F]. intros l H. cbn beta. rewrite has_char_app, H. reflexivity.
  - now rewrite map_map.
  - now apply piece_pad.
Qed.

Lemma block_statement i t : neutral t -> starts t = true -> ends t = true -> is_head t = false ->
  block i (pad i ++ t ++ nl) [Simple t].
Proof.
  intros N S E H. exists [(pad i ++ t)%string]. split; [|split].
  - constructor; [|constructor]. rewrite has_char_app, pad_no_newline. exact (proj1 N).
  - cbn [map]. unfold concat_str. cbn [fold_right]. now rewrite append_nil_r, append_assoc.
  - now apply piece_statement.
Qed.
Lemma block_comment i t : has_char newline t = false -> block i (pad i ++ "# " ++ t ++ nl) [].
Proof.
  intros N. exists [(pad i ++ String "#" (" " ++ t))%string]. split; [|split].
  - constructor; [|constructor]. rewrite has_char_app, pad_no_newline. exact N.
  - cbn [map]. unfold concat_str. cbn [fold_right]. rewrite append_nil_r, append_assoc. reflexivity.
  - apply piece_skip, line_comment.
Qed.
Lemma block_nl i : block i nl [].
Proof. exists [""%string]. split; [repeat constructor|]. split; [reflexivity|]. apply piece_skip. reflexivity. Qed.

(** ** Calls *)

Definition good_product (p : product) : Prop :=
  Forall nq (p_ins p) /\ nq (p_out p) /\ Forall (fun x => no_special x = true) (p_ops p).

Lemma commas_nq l : Forall nq l -> nq (commas l).
Proof.
  unfold commas. induction 1 as [|x l H F IH]; [split; reflexivity|]. destruct l as [|y l]; [exact H|].
  change (nq (x ++ ", " ++ String.concat ", " (y :: l))). repeat apply nq_app; [exact H|split; reflexivity|exact IH].
Qed.
Lemma commas_neutral l : Forall neutral l -> neutral (commas l).
Proof. intros F. apply neutral_concat; [now apply neutral_plain|exact F]. Qed.
Lemma subscripts_neutral ins out : Forall nq ins -> nq out -> neutral (subscripts ins out).
Proof.
  intros F N. unfold subscripts. replace (commas ins ++ "->" ++ out ++ "'")%string with ((commas ins ++ "->" ++ out) ++ "'")%string by (rewrite !append_assoc; reflexivity).
  apply neutral_quoted. repeat apply nq_app; [now apply commas_nq|split; reflexivity|exact N].
Qed.

Lemma call_shape name a : no_special name = true -> starts name = true -> neutral a -> let t := (name ++ "(" ++ a ++ ")")%string in text_ok t /\ is_head t = false.
Proof.
  intros N B A t. subst t. split; [split; [|split]|].
  - apply neutral_app; [now apply neutral_plain|now apply neutral_paren].
  - now apply starts_app.
  - apply ends_app. change (ends ("(" ++ a ++ ")") = true). apply ends_app. now apply ends_app.
  - rewrite is_head_last, !last_char_app. reflexivity.
Qed.
Lemma einsum_ok p : good_product p -> text_ok (einsum_text p) /\ is_head (einsum_text p) = false.
Proof.
  intros (F & O & P). unfold einsum_text.
  replace ("np.einsum(" ++ subscripts (p_ins p) (p_out p) ++ ", " ++ commas (p_ops p) ++ ")")%string
    with ("np.einsum" ++ "(" ++ (subscripts (p_ins p) (p_out p) ++ ", " ++ commas (p_ops p)) ++ ")")%string by (rewrite !append_assoc; reflexivity).
  apply call_shape; try reflexivity. apply neutral_app; [now apply subscripts_neutral|]. apply neutral_app; [now apply neutral_plain|].
  apply commas_neutral. eapply Forall_impl; [|exact P]. intros x. apply neutral_plain.
Qed.
Lemma next_ok p : good_product p -> text_ok (next_text p) /\ is_head (next_text p) = false.
Proof.
  intros (_ & _ & P). unfold next_text. change ("next(optimized_einsum)(" ++ ?a ++ ")")%string with ("next" ++ "(" ++ "optimized_einsum)(" ++ a ++ ")")%string.
  assert (N : neutral ("next(optimized_einsum)(" ++ commas (p_ops p) ++ ")")).
  { change ("next(optimized_einsum)(" ++ ?a ++ ")")%string with ("next" ++ ("(" ++ "optimized_einsum" ++ ")") ++ ("(" ++ a ++ ")"))%string.
    apply neutral_app; [now apply neutral_plain|]. apply neutral_app; [now apply neutral_paren, neutral_plain|]. apply neutral_paren, commas_neutral.
    eapply Forall_impl; [|exact P]. intros x. apply neutral_plain. }
  split; [split; [exact N|split; [reflexivity|]]|].
  - change ("next" ++ "(" ++ "optimized_einsum)(" ++ commas (p_ops p) ++ ")")%string with ("next(optimized_einsum)(" ++ (commas (p_ops p) ++ ")"))%string. apply ends_app. now apply ends_app.
  - rewrite is_head_last, !last_char_app. reflexivity.
Qed.
Lemma contract_ok ins out shapes : Forall nq ins -> nq out -> Forall neutral shapes ->
  text_ok (contract_text ins out shapes) /\ is_head (contract_text ins out shapes) = false.
Proof.
  intros F O P. unfold contract_text.
  replace ("oe.contract_expression(" ++ subscripts ins out ++ ", " ++ commas shapes ++ ")")%string
    with ("oe.contract_expression" ++ "(" ++ (subscripts ins out ++ ", " ++ commas shapes) ++ ")")%string by (rewrite !append_assoc; reflexivity).
  apply call_shape; try reflexivity. apply neutral_app; [now apply subscripts_neutral|]. apply neutral_app; [now apply neutral_plain|now apply commas_neutral].
Qed.

(** ** Sums *)

Section Sums.
  Variables (i : nat) (start : string).
  Hypothesis start_neutral : neutral start.
  Hypothesis start_starts : starts start = true.

  (** On one line. *)
  Lemma block_sum_line calls : Forall (fun c => text_ok c /\ is_head c = false) calls ->
    block i (pad i ++ (start ++ "(" ++ join " + " calls ++ ")") ++ nl) [Simple (start ++ "(" ++ String.concat " + " calls ++ ")")].
  Proof.
    intros F. rewrite join_concat. apply block_statement.
    - apply neutral_app; [exact start_neutral|]. apply neutral_paren, neutral_concat; [now apply neutral_plain|]. eapply Forall_impl; [|exact F]. now intros c [[N _] _].
    - now apply starts_app.
    - apply ends_app. change (ends ("(" ++ (String.concat " + " calls ++ ")")) = true). apply ends_app. now apply ends_app.
    - rewrite is_head_last, !last_char_app. reflexivity.
  Qed.

  (** One summand on each line. *)
  Lemma join_lines j calls c : join (" +" ++ nl ++ pad j) (calls ++ [c]) =
    (concat_str (map (fun r => r ++ " +" ++ nl ++ pad j) calls) ++ c)%string.
  Proof.
    rewrite join_concat. induction calls as [|a calls IH]; [reflexivity|].
    replace (String.concat (" +" ++ nl ++ pad j) ((a :: calls) ++ [c]))%string with (a ++ (" +" ++ nl ++ pad j) ++ String.concat (" +" ++ nl ++ pad j) (calls ++ [c]))%string by (destruct calls; reflexivity).
    rewrite IH. cbn [map]. change (concat_str (?a :: ?l)) with (a ++ concat_str l)%string. now rewrite !append_assoc.
  Qed.
  Lemma block_sum_lines j calls : calls <> [] -> Forall (fun c => text_ok c /\ is_head c = false) calls ->
    block i (pad i ++ start ++ "(" ++ nl ++ pad j ++ join (" +" ++ nl ++ pad j) calls ++ nl ++ pad i ++ ")" ++ nl)
      [Simple (start ++ "( " ++ String.concat " + " calls ++ " )")].
  Proof.
    intros NE F. destruct (exists_last NE) as (cs & c & ->). clear NE. apply Forall_app in F as [F1 F2].
    assert (G : Forall text_ok (map (fun r => r ++ " +")%string cs ++ [c])).
    { apply Forall_app. split; [|eapply Forall_impl; [|exact F2]; now intros a [A _]]. apply Forall_map. eapply Forall_impl; [|exact F1].
      intros a [(N & B & E) _]. split; [|split]; [apply neutral_app; [exact N|now apply neutral_plain]|now apply starts_app|now apply ends_app]. }
    exists (((pad i ++ start ++ "(")%string :: map (fun l => (pad j ++ l)%string) (map (fun r => r ++ " +")%string cs ++ [c])) ++ [(pad i ++ ")")%string]).
    split; [|split].
    - apply Forall_app. split; [constructor|constructor; [|constructor]].
      + rewrite !has_char_app, pad_no_newline, (proj1 start_neutral). reflexivity.
      + apply Forall_map. eapply Forall_impl; [|exact G]. intros a [[N _] _]. now rewrite has_char_app, pad_no_newline, N.
      + now rewrite has_char_app, pad_no_newline.
    - rewrite join_lines, map_app, !concat_str_app. cbn [map]. change (concat_str (?a :: ?l)) with (a ++ concat_str l)%string. change (concat_str []) with ""%string.
      rewrite !map_app, !map_map, concat_str_app. cbn [map]. change (concat_str (?a :: ?l)) with (a ++ concat_str l)%string. change (concat_str []) with ""%string.
      rewrite !append_nil_r, !append_assoc. do 4 f_equal.
      assert (K : forall r, (pad j ++ concat_str (map (fun r => r ++ " +" ++ nl ++ pad j)%string cs) ++ r)%string
        = (concat_str (map (fun x => (pad j ++ x ++ " +") ++ nl)%string cs) ++ pad j ++ r)%string).
      { intros r. clear. induction cs as [|a cs IH]; [reflexivity|]. cbn [map]. change (concat_str (?a :: ?l)) with (a ++ concat_str l)%string.
        rewrite !append_assoc. rewrite IH. reflexivity. }
      rewrite ?append_assoc, K. reflexivity.
    - replace (start ++ "( " ++ String.concat " + " (cs ++ [c]) ++ " )")%string
        with (start ++ "(" ++ concat_str (map (fun l => " " ++ l)%string (map (fun r => r ++ " +")%string cs ++ [c])) ++ " )")%string by (rewrite concat_spaced; reflexivity).
      apply piece_multiline; try assumption. destruct cs; discriminate.
  Qed.
End Sums.

(** A list of expressions put at the end of a list. *)
Lemma block_extend i j name es : no_special name = true -> starts name = true -> es <> [] ->
  Forall (fun c => text_ok c /\ is_head c = false) es ->
  block i (pad i ++ name ++ ".extend([" ++ nl ++ concat_str (map (fun e => pad j ++ e ++ "," ++ nl)%string es) ++ pad i ++ "])" ++ nl)
    [Simple (list_text (Extend name es))].
Proof.
  intros N B NE F.
  assert (G : Forall text_ok (map (fun e => e ++ ",")%string es)).
  { apply Forall_map. eapply Forall_impl; [|exact F]. intros a [(Na & Ba & Ea) _]. split; [|split]; [apply neutral_app; [exact Na|now apply neutral_plain]|now apply starts_app|now apply ends_app]. }
  exists (((pad i ++ (name ++ ".extend") ++ "([")%string :: map (fun l => (pad j ++ l)%string) (map (fun e => e ++ ",")%string es)) ++ [(pad i ++ "])")%string]).
  split; [|split].
  - apply Forall_app. split; [constructor|constructor; [|constructor]].
    + rewrite !has_char_app, pad_no_newline, (proj2 (no_special_nq _ N)). reflexivity.
    + apply Forall_map. eapply Forall_impl; [|exact G]. intros a [[Na _] _]. now rewrite has_char_app, pad_no_newline, Na.
    + now rewrite has_char_app, pad_no_newline.
  - rewrite map_app, concat_str_app. cbn [map]. change (concat_str (?a :: ?l)) with (a ++ concat_str l)%string. change (concat_str []) with ""%string.
    rewrite !map_map, !append_nil_r, !append_assoc. rewrite (map_ext (fun x => (pad j ++ x ++ ",") ++ nl)%string (fun e => pad j ++ e ++ "," ++ nl)%string); [reflexivity|]. intros e. now rewrite !append_assoc.
  - replace (list_text (Extend name es)) with ((name ++ ".extend") ++ "([" ++ concat_str (map (fun l => " " ++ l)%string (map (fun e => e ++ ",")%string es)) ++ " " ++ "])")%string.
    + apply (piece_between _ _ "([" "])" _ 1); try reflexivity.
      * intros t [_ Nt]. rewrite Nt. reflexivity. * apply neutral_app; now apply neutral_plain. * now apply starts_app.
      * eapply Forall_impl; [|exact G]. now intros a (A & Ba & E).
    + cbn [list_text]. rewrite append_assoc. f_equal. change (".extend" ++ "([" ++ ?a)%string with (".extend([" ++ a)%string. change (".extend([ " ++ ?a)%string with (".extend([" ++ " " ++ a)%string. f_equal.
      clear F G. induction es as [|a es IH]; [congruence|]. destruct es as [|b es].
      * cbn [map]. unfold concat_str. cbn [fold_right String.concat]. now rewrite append_nil_r, !append_assoc.
      * cbn [map] in *. change (concat_str (?a :: ?l)) with (a ++ concat_str l)%string. rewrite append_assoc, IH by discriminate.
        cbn [String.concat]. now rewrite !append_assoc.
Qed.

(** ** What the statements add *)

Lemma compute_app q a p q' b r q'' : compute q a p q' -> compute q' b r q'' -> compute q (a ++ b) (p ++ r) q''.
Proof. induction 1; intros H'; [exact H'|]. cbn [app]. econstructor; eauto. Qed.
Lemma compute_default q ps : compute q (map einsum_text ps) ps q.
Proof. induction ps as [|p ps IH]; [constructor|]. cbn [map]. econstructor; [constructor|exact IH]. Qed.
Lemma compute_next (sh : product -> list string) q ps : Forall (fun p => Forall2 has_shape (p_ops p) (sh p)) ps ->
  compute (map (fun p => contract_text (p_ins p) (p_out p) (sh p)) ps ++ q) (map next_text ps) ps q.
Proof. induction 1 as [|p ps H _ IH]; [constructor|]. cbn [map app]. econstructor; [now constructor|exact IH]. Qed.

Lemma adds_app W q a l q' b m q'' : adds W q a l q' -> adds W q' b m q'' -> adds W q (a ++ b) (l ++ m) q''.
Proof. induction 1; intros H'; [exact H'|]. cbn [app]. rewrite <- app_assoc. econstructor; eauto. Qed.

(** ** Names of the modules *)

Lemma amp_shape_neutral n : neutral (amp_shape n).
Proof.
  unfold amp_shape. change ("(A, A" ++ ns_text n)%string with ("(" ++ ("A, A" ++ ns_text n))%string.
  assert (E : forall m, exists s, no_special s = true /\ ns_text m = (s ++ ")")%string).
  { induction m as [|m (s & N & E)]; [now exists ""%string|]. exists (", N" ++ s)%string. split; [now rewrite no_special_app, N|]. cbn [ns_text]. now rewrite E. }
  destruct (E n) as (s & N & ->). change (neutral ("(" ++ ("A, A" ++ s) ++ ")")). apply neutral_paren, neutral_plain. now rewrite no_special_app, N.
Qed.
Definition modes_plain (s : string) : Prop := no_special s = true.
Lemma amp_name_plain n : no_special (amp_name n) = true.
Proof. unfold amp_name. do 9 (destruct n as [|n]; [reflexivity|]). destruct n; reflexivity. Qed.

Lemma string_of_plain l : Forall (fun c => special c = false) l -> no_special (string_of l) = true.
Proof. induction 1 as [|c l H _ IH]; [reflexivity|]. cbn [string_of no_special]. now rewrite H, IH. Qed.
