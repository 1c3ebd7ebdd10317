(** Reading the bodies of the generated e^T python code as python. *)
From Coq Require Import List Arith Bool Ascii String Lia.
From Verif Require Import PyBase PyStr ModelHelper ModelW ModelFullCC ModelFullCCPy ModelZhz ModelEt ModelEtPy SpecEt SpecEtPy SpecPython SpecEtText
  ProofsStr ProofsPython ProofsFullCCBuckets ProofsEtFile.
Import ListNotations.
Local Open Scope nat_scope.
Local Open Scope list_scope.

(** ** Calls *)

(** letters in the subscripts, plain names *)
Definition sound_call (c : ecall) : Prop :=
  (forall g, In g (c_inputs c) -> nq g) /\ nq (c_output c) /\
  (forall o, In o (c_operands c) -> no_special (fst o) = true).

Lemma operand_neutral o : no_special (fst o) = true -> neutral (operand_text o).
Proof.
  intros H. unfold operand_text. apply neutral_app; [now apply neutral_plain|].
  replace ("[(" ++ str_nat (fst (snd o)) ++ ", " ++ str_nat (snd (snd o)) ++ ")]")%string
    with ("[" ++ ("(" ++ (str_nat (fst (snd o)) ++ ", " ++ str_nat (snd (snd o))) ++ ")") ++ "]")%string.
  - apply neutral_bracket, neutral_paren. apply neutral_app; [apply nat_neutral|]. apply neutral_app; [now apply neutral_plain|apply nat_neutral].
  - rewrite !append_assoc. reflexivity.
Qed.
Lemma nq_concat sep l : nq sep -> (forall g, In g l -> nq g) -> nq (String.concat sep l).
Proof.
  intros S0. induction l as [|a l IH]; intros H; [split; reflexivity|]. destruct l as [|b l]; [apply H; now left|].
  change (String.concat sep (a :: b :: l)) with (a ++ sep ++ String.concat sep (b :: l))%string.
  apply nq_app; [apply H; now left|]. apply nq_app; [exact S0|]. apply IH. intros; apply H; now right.
Qed.
Lemma call_ok c : sound_call c -> text_ok (call_text c) /\ is_head (call_text c) = false.
Proof.
  intros (I & O & P). unfold call_text.
  assert (E : ("np.einsum('" ++ String.concat ", " (c_inputs c) ++ " -> " ++ c_output c ++ "', " ++ String.concat ", " (map operand_text (c_operands c)) ++ ")"
    = "np.einsum" ++ ("(" ++ (("'" ++ (String.concat ", " (c_inputs c) ++ " -> " ++ c_output c) ++ "'") ++ ", " ++ String.concat ", " (map operand_text (c_operands c))) ++ ")"))%string).
  { cbn [String.append]. do 11 f_equal. rewrite !append_assoc. reflexivity. }
  rewrite E. split; [split; [|split]|].
  - apply neutral_app; [now apply neutral_plain|]. apply neutral_paren. apply neutral_app.
    + apply neutral_quoted. apply nq_app; [|apply nq_app; [split; reflexivity|exact O]]. apply nq_concat; [split; reflexivity|exact I].
    + apply neutral_app; [now apply neutral_plain|]. apply neutral_concat; [now apply neutral_plain|]. apply Forall_forall. intros x Hx.
      apply in_map_iff in Hx as (o & <- & Ho). apply operand_neutral. auto.
  - reflexivity.
  - rewrite <- E, <- !append_assoc. now apply ends_app.
  - rewrite <- E, <- !append_assoc. rewrite is_head_last, last_char_app. reflexivity.
Qed.
Lemma prefactor_neutral p : neutral (eT_prefactor_text p).
Proof.
  unfold eT_prefactor_text. destruct (Nat.eqb _ _); [apply neutral_nil|].
  replace ("(" ++ str_nat (fst p) ++ " / " ++ str_nat (snd p) ++ ") * ")%string with (("(" ++ (str_nat (fst p) ++ " / " ++ str_nat (snd p)) ++ ")") ++ " * ")%string
    by (rewrite !append_assoc; reflexivity).
  apply neutral_app; [|now apply neutral_plain]. apply neutral_paren. apply neutral_app; [apply nat_neutral|]. apply neutral_app; [now apply neutral_plain|apply nat_neutral].
Qed.

(** ** Sums *)

Definition sound_sum (pc : nat * nat * list ecall) : Prop := snd pc <> [] /\ Forall sound_call (snd pc).
Definition sum_stmt (s : side) (pc : nat * nat * list ecall) : stmt :=
  Simple (result_name s ++ " += " ++ eT_prefactor_text (fst pc) ++ sum_text (map call_text (snd pc)))%string.

Lemma tabs_is n : tabs n = pad (4 * n).
Proof. apply tabs_pad. Qed.

Lemma esum_lines s n pc : render_esum s n pc
  = sum_lines (4 * n) (4 * n + 4) (result_name s ++ " += " ++ eT_prefactor_text (fst pc)) (map call_text (snd pc)).
Proof.
  destruct pc as [p calls]. unfold render_esum. cbn [fst snd]. rewrite !tabs_is. change (eT_prefactor_text p) with (render_eT_prefactor p).
  assert (M : map call_text calls = map render_ecall calls) by (apply map_ext; intros; apply call_text_render). rewrite M.
  set (rs := map render_ecall calls).
  assert (E1 : forall c, (pad (4 * n) ++ tab ++ c)%string = (pad (4 * n + 4) ++ c)%string) by (intros c; rewrite pad_add, append_assoc; reflexivity).
  assert (E2 : match s with RHS => "R" | LHS => "Z" end%string = result_name s) by (destruct s; reflexivity). rewrite E2.
  destruct calls as [|c1 [|c2 calls]].
  - cbn [map rs]. cbn [sum_lines removelast rev map app]. rewrite !append_assoc. reflexivity.
  - cbn [map rs sum_lines]. rewrite !append_assoc. reflexivity.
  - change rs with (render_ecall c1 :: render_ecall c2 :: map render_ecall calls). unfold sum_lines.
    assert (R : removelast (render_ecall c1 :: render_ecall c2 :: map render_ecall calls) = map render_ecall (removelast (c1 :: c2 :: calls))).
    { change (render_ecall c1 :: render_ecall c2 :: map render_ecall calls) with (map render_ecall (c1 :: c2 :: calls)). generalize (c1 :: c2 :: calls). clear.
      induction l as [|a l IH]; [reflexivity|]. destruct l as [|b l]; [reflexivity|]. cbn [map removelast] in *. now rewrite IH. }
    rewrite R.
    change (rev (render_ecall c1 :: render_ecall c2 :: map render_ecall calls)) with (rev (map render_ecall (c1 :: c2 :: calls))). rewrite <- map_rev.
    rewrite !append_assoc. f_equal. f_equal.
    + rewrite map_map. apply map_ext. intros c. rewrite <- E1. reflexivity.
    + f_equal. destruct (rev (c1 :: c2 :: calls)) as [|x r]; [reflexivity|]. cbn [map]. now rewrite <- E1.
Qed.
Lemma start_ok s p : neutral (result_name s ++ " += " ++ eT_prefactor_text p) /\ starts (result_name s ++ " += " ++ eT_prefactor_text p) = true.
Proof.
  split; [|destruct s; reflexivity]. apply neutral_app; [apply neutral_plain; destruct s; reflexivity|]. apply neutral_app; [now apply neutral_plain|apply prefactor_neutral].
Qed.
Lemma esum_piece s n pc : sound_sum pc -> piece (4 * n) (render_esum s n pc) [sum_stmt s pc].
Proof.
  intros [NE F]. rewrite esum_lines. unfold sum_stmt. rewrite <- !append_assoc.
  replace ((result_name s ++ " += ") ++ eT_prefactor_text (fst pc))%string with (result_name s ++ " += " ++ eT_prefactor_text (fst pc))%string by now rewrite append_assoc.
  destruct (start_ok s (fst pc)) as [N B]. apply piece_sum; [exact N|exact B|now destruct (snd pc)|].
  apply Forall_map. eapply Forall_impl; [|exact F]. exact call_ok.
Qed.

(** lines without documentation strings *)
Lemma esum_no_doc s n pc : sound_sum pc -> Forall no_doc (render_esum s n pc).
Proof.
  intros [_ F]. rewrite esum_lines. apply sum_lines_no_doc; [apply start_ok|apply start_ok|]. apply Forall_map. eapply Forall_impl; [|exact F]. intros c H. exact (proj1 (call_ok c H)).
Qed.

(** ** Conditions *)

Lemma tag_h_is i : tag_h i = nth i [""; "linear"; "quadratic"; "cubic"; "quartic"; "quintic"]%string ""%string.
Proof. reflexivity. Qed.
Lemma nth_no_special l i : forallb no_special l = true -> no_special (nth i l "") = true.
Proof. revert i. induction l as [|x l IH]; intros [|i] H; cbn in *; auto; apply andb_true_iff in H as [H1 H2]; auto. Qed.
Lemma tag_h_ok i : no_special (tag_h i) = true.
Proof. unfold tag_h. now apply nth_no_special. Qed.
Lemma tag_t_ok i : no_special (tag_t i) = true.
Proof. unfold tag_t. now apply nth_no_special. Qed.
Lemma if_line_ok i c : no_special c = true -> lex_line Top (pad i ++ "if " ++ c ++ ":") = Some (Top, [(i, if_line c)]).
Proof.
  intros H. change ("if " ++ c ++ ":")%string with (if_line c). apply line_simple.
  - unfold if_line. apply neutral_plain. rewrite !no_special_app, H. reflexivity.
  - reflexivity.
  - unfold if_line. now apply ends_app, ends_app.
Qed.

(** ** Blocks *)

Definition sound_zsums (b : zsums) : Prop := Forall (fun kp => snd kp <> [] /\ Forall sound_sum (snd kp)) b.
Definition z_stmts (s : side) (b : zsums) : list stmt :=
  flat_map (fun kp => match fst kp with
                      | 0 => map (sum_stmt s) (snd kp)
                      | k => [If (z_condition k) (map (sum_stmt s) (snd kp)) []]
                      end) b.
Lemma sums_piece s n l : Forall sound_sum l -> piece (4 * n) (flat_map (render_esum s n) l) (map (sum_stmt s) l).
Proof.
  intros F. replace (map (sum_stmt s) l) with (flat_map (fun pc => [sum_stmt s pc]) l) by (clear; induction l; cbn; congruence).
  apply piece_flat_map. intros pc H. apply esum_piece. rewrite Forall_forall in F. auto.
Qed.
Lemma if_piece n c inner b : no_special c = true -> b <> [] -> piece (4 * (n + 1)) inner b ->
  piece (4 * n) ((tabs n ++ "if " ++ c ++ ":")%string :: inner) [If c b []].
Proof. intros H N P. rewrite tabs_is. apply (piece_if _ _ c (4 * (n + 1))); auto; [now apply if_line_ok|lia]. Qed.
Lemma map_not_nil {A B} (f : A -> B) l : l <> [] -> map f l <> [].
Proof. destruct l; [congruence|discriminate]. Qed.

Lemma z_text k : ("if truncation.z_at_least_" ++ tag_h k ++ ":" = "if " ++ z_condition k ++ ":")%string.
Proof. unfold z_condition. cbn [String.append]. reflexivity. Qed.
Lemma zsums_piece s n b : sound_zsums b -> piece (4 * n) (render_zsums s n b) (z_stmts s b).
Proof.
  intros F. unfold render_zsums, z_stmts. apply piece_flat_map. intros [k l] H. unfold sound_zsums in F. rewrite Forall_forall in F. destruct (F _ H) as [N G]. cbn [fst snd] in *.
  destruct k as [|k]; [now apply sums_piece|]. rewrite z_text. apply if_piece; [|now apply map_not_nil|now apply sums_piece].
  unfold z_condition. rewrite no_special_app. rewrite <- tag_h_is, tag_h_ok. reflexivity.
Qed.
Lemma z_stmts_nil s b : sound_zsums b -> b <> [] -> z_stmts s b <> [].
Proof.
  intros F N. destruct b as [|[k l] b]; [congruence|]. apply Forall_cons_iff in F as [[N1 _] _]. unfold z_stmts. cbn [flat_map fst snd] in *.
  destruct k; [|discriminate]. destruct l; [congruence|discriminate].
Qed.
Lemma no_doc_if n c : no_special c = true -> no_doc (tabs n ++ "if " ++ c ++ ":").
Proof. intros H. rewrite tabs_is. apply no_doc_pad, no_doc_starts; [|reflexivity]. apply neutral_plain. rewrite !no_special_app, H. reflexivity. Qed.
Lemma z_condition_ok k : no_special (z_condition k) = true.
Proof. unfold z_condition. rewrite no_special_app, <- tag_h_is, tag_h_ok. reflexivity. Qed.
Lemma h_condition_ok k : no_special (h_condition k) = true.
Proof. unfold h_condition. rewrite no_special_app, <- tag_h_is, tag_h_ok. reflexivity. Qed.
Lemma t_condition_ok k : no_special (t_condition k) = true.
Proof. unfold t_condition. rewrite no_special_app. change (nth k _ _) with (tag_t k). rewrite tag_t_ok. reflexivity. Qed.
Lemma Forall_flat_map_intro {A B} (P : B -> Prop) (f : A -> list B) l : (forall x, In x l -> Forall P (f x)) -> Forall P (flat_map f l).
Proof. intros H. apply Forall_flat_map. now apply Forall_forall. Qed.
Lemma zsums_no_doc s n b : sound_zsums b -> Forall no_doc (render_zsums s n b).
Proof.
  intros F. unfold render_zsums. apply Forall_flat_map_intro. intros [k l] H. unfold sound_zsums in F. rewrite Forall_forall in F. destruct (F _ H) as [_ G]. cbn [fst snd] in *.
  assert (K : forall m, Forall no_doc (flat_map (render_esum s m) l)) by (intros m; apply Forall_flat_map_intro; intros pc Hpc; apply esum_no_doc; rewrite Forall_forall in G; auto).
  destruct k; [apply K|]. constructor; [|apply K]. rewrite z_text. apply no_doc_if, z_condition_ok.
Qed.

Lemma flat_map_singleton {A B} (f : A -> B) l : flat_map (fun x => [f x]) l = map f l.
Proof. induction l as [|x l IH]; cbn; [reflexivity|]. now rewrite IH. Qed.
Definition sound_ifs (l : list (nat * zsums)) : Prop := Forall (fun jb => snd jb <> [] /\ sound_zsums (snd jb)) l.
Definition t_stmts (s : side) (l : list (nat * zsums)) : list stmt := map (fun jb => If (t_condition (fst jb)) (z_stmts s (snd jb)) []) l.
Lemma t_text j : ("if truncation.t_" ++ tag_t j ++ ":" = "if " ++ t_condition j ++ ":")%string.
Proof. unfold t_condition. cbn [String.append]. reflexivity. Qed.
Lemma ifs_piece s n l : sound_ifs l -> piece (4 * n) (render_eifs s n l) (t_stmts s l).
Proof.
  intros F. unfold render_eifs, t_stmts.
  rewrite <- flat_map_singleton.
  apply piece_flat_map. intros [j b] H. unfold sound_ifs in F. rewrite Forall_forall in F. destruct (F _ H) as [N G]. cbn [fst snd] in *.
  rewrite t_text. apply if_piece; [|now apply z_stmts_nil|now apply zsums_piece].
  unfold t_condition. rewrite no_special_app. change (nth j _ _) with (tag_t j). rewrite tag_t_ok. reflexivity.
Qed.
Lemma ifs_no_doc s n l : sound_ifs l -> Forall no_doc (render_eifs s n l).
Proof.
  intros F. unfold render_eifs. apply Forall_flat_map_intro. intros [j b] H. unfold sound_ifs in F. rewrite Forall_forall in F. destruct (F _ H) as [_ G]. cbn [fst snd] in *.
  constructor; [rewrite t_text; apply no_doc_if, t_condition_ok|now apply zsums_no_doc].
Qed.

Definition sound_body (b : ebody) : Prop :=
  match b with
  | EBody b00 b0 bh => sound_zsums b00 /\ sound_ifs b0 /\ Forall (fun ib => sound_zsums (fst (snd ib)) /\ sound_ifs (snd (snd ib))) bh
  | _ => True
  end.
Definition block_stmts (s : side) (ib : nat * (zsums * list (nat * zsums))) : list stmt :=
  match z_stmts s (fst (snd ib)) ++ t_stmts s (snd (snd ib)) with
  | [] => []
  | b => [If (h_condition (fst ib)) b []]
  end.
Definition body_stmts (s : side) (b : ebody) : list stmt :=
  match b with
  | ENoTerms | EInvalid => [Simple "pass"%string]
  | EBody b00 b0 bh => z_stmts s b00 ++ t_stmts s b0 ++ flat_map (block_stmts s) bh
  end.

Lemma lex_no_double ls : Forall no_doc ls -> forall st, no_doc_state st -> lex st (no_double_blanks ls) = lex st ls.
Proof.
  induction 1 as [|a ls Da F IH]; intros st Hs; [reflexivity|]. destruct ls as [|b ls]; [reflexivity|].
  assert (G : lex st (a :: no_double_blanks (b :: ls)) = lex st (a :: b :: ls)).
  { cbn [lex]. destruct (lex_line st a) as [[st1 o1]|] eqn:E; [|reflexivity]. rewrite (IH st1 (line_no_doc _ _ _ _ Hs Da E)). reflexivity. }
  assert (U : no_double_blanks (a :: b :: ls) = if String.eqb a "" && String.eqb b "" then no_double_blanks (b :: ls) else a :: no_double_blanks (b :: ls)) by reflexivity.
  rewrite U. destruct (String.eqb a "" && String.eqb b "") eqn:E; [|exact G].
  apply andb_true_iff in E as [Ea _]. apply String.eqb_eq in Ea. subst a. rewrite <- G. generalize (no_double_blanks (b :: ls)). intros l.
  cbn [lex]. rewrite (line_empty st Hs). destruct (lex st l) as [[st2 o2]|]; reflexivity.
Qed.
Lemma piece_no_double i ls b : Forall no_doc ls -> piece i ls b -> piece i (no_leading_blank (no_double_blanks ls)) b.
Proof.
  intros F (out & L & R). exists out. split; [|exact R]. unfold logical_lines in *. rewrite <- (lex_no_double ls F Top I) in L. rewrite <- L.
  destruct (no_double_blanks ls) as [|[|c a] r]; try reflexivity. cbn [no_leading_blank lex lex_line]. cbn. destruct (lex Top r) as [[st2 o2]|]; reflexivity.
Qed.

Lemma h_text k : ("if truncation.h_at_least_" ++ tag_h k ++ ":" = "if " ++ h_condition k ++ ":")%string.
Proof. unfold h_condition. cbn [String.append]. reflexivity. Qed.

Definition body_lines (s : side) b00 b0 bh : list string :=
  render_zsums s 0 b00 ++ render_eifs s 0 b0
  ++ flat_map (fun ib : nat * (zsums * list (nat * zsums)) =>
       let beneath := render_zsums s 1 (fst (snd ib)) ++ render_eifs s 1 (snd (snd ib)) in
       ""%string :: match beneath with [] => [] | _ => ("if truncation.h_at_least_" ++ tag_h (fst ib) ++ ":")%string :: beneath end) bh.

Lemma piece_empty_lines i b : piece i [] b -> b = [].
Proof. intros (out & L & R). injection L as <-. destruct (reads_first _ _ _ R) as (_ & _ & E). now apply E. Qed.

Lemma body_lines_no_doc s b00 b0 bh : sound_body (EBody b00 b0 bh) -> Forall no_doc (body_lines s b00 b0 bh).
Proof.
  intros (S1 & S2 & S3). unfold body_lines. apply Forall_app. split; [now apply zsums_no_doc|]. apply Forall_app. split; [now apply ifs_no_doc|].
  apply Forall_flat_map_intro. intros ib H. rewrite Forall_forall in S3. destruct (S3 _ H) as [G1 G2]. constructor; [apply no_doc_empty|].
  assert (Q : Forall no_doc (render_zsums s 1 (fst (snd ib)) ++ render_eifs s 1 (snd (snd ib)))) by (apply Forall_app; split; [now apply zsums_no_doc|now apply ifs_no_doc]).
  destruct (render_zsums s 1 (fst (snd ib)) ++ render_eifs s 1 (snd (snd ib))); [constructor|]. constructor; [rewrite h_text; exact (no_doc_if 0 _ (h_condition_ok _))|exact Q].
Qed.
Lemma in_no_double x l : In x (no_double_blanks l) -> In x l.
Proof.
  induction l as [|a l IH]; [auto|]. destruct l as [|b l]; [auto|].
  assert (U : no_double_blanks (a :: b :: l) = if String.eqb a "" && String.eqb b "" then no_double_blanks (b :: l) else a :: no_double_blanks (b :: l)) by reflexivity.
  rewrite U. destruct (String.eqb a "" && String.eqb b ""); [intros H; right; now apply IH|]. intros [<-|H]; [now left|right; now apply IH].
Qed.
Lemma in_no_leading x l : In x (no_leading_blank l) -> In x l.
Proof. destruct l as [|[|c a] l]; auto. cbn. auto. Qed.
Lemma body_no_doc s b : sound_body b -> Forall no_doc (render_ebody s b).
Proof.
  destruct b as [| |b00 b0 bh]; intros SB; [repeat constructor|repeat constructor|]. cbn [render_ebody]. fold (body_lines s b00 b0 bh).
  pose proof (body_lines_no_doc s b00 b0 bh SB) as F. rewrite Forall_forall in F. apply Forall_forall. intros x Hx. apply in_no_leading, in_no_double in Hx.
  destruct (body_lines s b00 b0 bh) as [|l0 ls]; [destruct Hx as [<-|[]]; split; reflexivity|now apply F].
Qed.

Lemma body_piece s b : sound_body b -> body_stmts s b <> [] -> piece 0 (render_ebody s b) (body_stmts s b).
Proof.
  destruct b as [| |b00 b0 bh]; intros SB NE.
  - apply piece_simple; [|reflexivity]. exact (line_trailing_comment 0 "pass" " no valid terms here" (neutral_plain "pass" eq_refl) eq_refl eq_refl).
  - apply piece_simple; [|reflexivity]. exact (line_trailing_comment 0 "pass" " all terms invalid" (neutral_plain "pass" eq_refl) eq_refl eq_refl).
  - destruct SB as (S1 & S2 & S3). cbn [render_ebody body_stmts] in *. fold (body_lines s b00 b0 bh).
    assert (P : piece 0 (body_lines s b00 b0 bh) (z_stmts s b00 ++ t_stmts s b0 ++ flat_map (block_stmts s) bh)).
    { apply piece_app; [exact (zsums_piece s 0 b00 S1)|]. apply piece_app; [exact (ifs_piece s 0 b0 S2)|]. apply piece_flat_map.
      intros ib H. rewrite Forall_forall in S3. destruct (S3 _ H) as [G1 G2].
      assert (Q : piece 4 (render_zsums s 1 (fst (snd ib)) ++ render_eifs s 1 (snd (snd ib))) (z_stmts s (fst (snd ib)) ++ t_stmts s (snd (snd ib)))).
      { apply piece_app; [exact (zsums_piece s 1 _ G1)|exact (ifs_piece s 1 _ G2)]. }
      apply (piece_app 0 [""%string] _ []); [now apply piece_skip|]. unfold block_stmts.
      destruct (render_zsums s 1 (fst (snd ib)) ++ render_eifs s 1 (snd (snd ib))) as [|l0 ls] eqn:El.
      - rewrite (piece_empty_lines _ _ Q). apply piece_nil.
      - rewrite h_text. destruct (z_stmts s (fst (snd ib)) ++ t_stmts s (snd (snd ib))) as [|x xs] eqn:Ex.
        + exfalso. apply app_eq_nil in Ex as [Ex1 Ex2]. destruct (fst (snd ib)) as [|kp zs] eqn:Ez; [|apply (z_stmts_nil s _ G1); [discriminate|exact Ex1]].
          unfold t_stmts in Ex2. destruct (snd (snd ib)) as [|jb ts]; [|discriminate]. discriminate El.
        + apply (if_piece 0); [|discriminate|exact Q]. unfold h_condition. rewrite no_special_app, <- tag_h_is, tag_h_ok. reflexivity. }
    destruct (body_lines s b00 b0 bh) as [|l0 ls] eqn:El.
    + elim NE. exact (piece_empty_lines _ _ P).
    + rewrite <- El in *. apply piece_no_double; [|exact P]. now apply body_lines_no_doc.
Qed.

(** ** What is executed *)

Lemma adds_nil s : statements_add s [] [].
Proof. exists []. split; [constructor|reflexivity]. Qed.
Lemma adds_app s t1 l1 t2 l2 : statements_add s t1 l1 -> statements_add s t2 l2 -> statements_add s (t1 ++ t2) (l1 ++ l2).
Proof. intros (a & F & ->) (b & G & ->). exists (a ++ b). split; [now apply Forall2_app|]. now rewrite concat_app. Qed.
Lemma adds_flat_map {A} s (f : A -> list string) g l : (forall x, In x l -> statements_add s (f x) (g x)) -> statements_add s (flat_map f l) (flat_map g l).
Proof. induction l as [|x l IH]; intros H; cbn [flat_map]; [apply adds_nil|]. apply adds_app; [apply H; now left|apply IH; intros; apply H; now right]. Qed.
Lemma exec_app flag a b : exec flag (a ++ b) = exec flag a ++ exec flag b.
Proof. apply flat_map_app. Qed.
Lemma exec_flat_map {A} flag (f : A -> list stmt) l : exec flag (flat_map f l) = flat_map (fun x => exec flag (f x)) l.
Proof. induction l as [|x l IH]; [reflexivity|]. cbn [flat_map]. now rewrite exec_app, IH. Qed.
Lemma exec_if flag c b : exec flag [If c b []] = if flag c then exec flag b else [].
Proof. unfold exec. cbn [flat_map exec1]. rewrite app_nil_r. now destruct (flag c). Qed.

Section Exec.
  Variables (s : side) (flag : string -> bool).
  Let fh i := flag (h_condition i).
  Let ft j := flag (t_condition j).
  Let fz k := flag (z_condition k).

  Lemma exec_sums l : Forall sound_sum l -> statements_add s (exec flag (map (sum_stmt s) l)) (flat_map (fun pc => map (pair (fst pc)) (snd pc)) l).
  Proof.
    intros F. exists (map (fun pc : nat * nat * list ecall => map (pair (fst pc)) (snd pc)) l). split; [|now rewrite flat_map_concat_map].
    induction F as [|pc l [N _] _ IH]; [constructor|]. cbn [map]. constructor; [|exact IH]. exists (fst pc), (snd pc). auto.
  Qed.
  Lemma exec_z b : sound_zsums b -> statements_add s (exec flag (z_stmts s b)) (run_zsums fz b).
  Proof.
    intros F. unfold z_stmts, run_zsums. rewrite exec_flat_map. apply adds_flat_map. intros [k l] H. unfold sound_zsums in F. rewrite Forall_forall in F.
    destruct (F _ H) as [_ G]. cbn [fst snd] in *. destruct k as [|k]; [now apply exec_sums|]. rewrite exec_if. unfold fz. cbn [Nat.eqb orb].
    destruct (flag (z_condition (S k))); [now apply exec_sums|apply adds_nil].
  Qed.
  Lemma exec_t l : sound_ifs l -> statements_add s (exec flag (t_stmts s l)) (run_tifs ft fz l).
  Proof.
    intros F. unfold t_stmts, run_tifs. rewrite <- flat_map_singleton, exec_flat_map. apply adds_flat_map. intros [j b] H. unfold sound_ifs in F. rewrite Forall_forall in F.
    destruct (F _ H) as [_ G]. cbn [fst snd] in *. rewrite exec_if. unfold ft. destruct (flag (t_condition j)); [now apply exec_z|apply adds_nil].
  Qed.
  Lemma exec_body b00 b0 bh : sound_body (EBody b00 b0 bh) -> statements_add s (exec flag (body_stmts s (EBody b00 b0 bh))) (run_ebody fh ft fz (EBody b00 b0 bh)).
  Proof.
    intros (S1 & S2 & S3). cbn [body_stmts run_ebody]. rewrite !exec_app. apply adds_app; [now apply exec_z|]. apply adds_app; [now apply exec_t|].
    rewrite exec_flat_map. apply adds_flat_map. intros ib H. rewrite Forall_forall in S3. destruct (S3 _ H) as [G1 G2].
    assert (Q : statements_add s (exec flag (z_stmts s (fst (snd ib)) ++ t_stmts s (snd (snd ib)))) (run_zsums fz (fst (snd ib)) ++ run_tifs ft fz (snd (snd ib))))
      by (rewrite exec_app; apply adds_app; [now apply exec_z|now apply exec_t]).
    unfold block_stmts. destruct (z_stmts s (fst (snd ib)) ++ t_stmts s (snd (snd ib))) as [|x xs].
    - destruct Q as (ls & F & ->). inversion F. unfold fh. destruct (flag _); apply adds_nil.
    - rewrite exec_if. unfold fh. destruct (flag (h_condition (fst ib))); [exact Q|apply adds_nil].
  Qed.
End Exec.

(** ** The letters of the calls *)

Lemma substring_no_char c : forall m s n, has_char c s = false -> has_char c (substring n m s) = false.
Proof.
  intros m s. revert m. induction s as [|x s IH]; intros m n H; [destruct n, m; reflexivity|]. cbn [has_char] in H. apply orb_false_iff in H as [H1 H2].
  destruct n as [|n]; [destruct m as [|m]; [reflexivity|]; cbn [substring has_char]; rewrite H1; apply (IH m 0 H2)|]. cbn [substring]. now apply IH.
Qed.
Lemma nq_sum a b : nq (sslice a b summation_indices).
Proof. split; now apply substring_no_char. Qed.
Lemma nq_unl a b : nq (sslice a b unlinked_indices).
Proof. split; now apply substring_no_char. Qed.
Lemma nq_empty : nq "".
Proof. split; reflexivity. Qed.
#[local] Hint Resolve nq_app nq_sum nq_unl nq_empty : nq.

Definition nqo (o : eoffsets) : Prop := nq (eo_upper_h o) /\ nq (eo_lower_h o) /\ nq (eo_upper_z o) /\ nq (eo_lower_z o).
Lemma lower_nq t o s u o' : nqo o -> eT_t_lower_labels t o = (s, u, o') -> nq s /\ nq u /\ nqo o'.
Proof.
  intros (A & B & C & D). unfold eT_t_lower_labels. destruct (Nat.ltb 0 (et_n t)); intros E; apply pair_equal_spec in E as [E <-]; apply pair_equal_spec in E as [<- <-];
    unfold nqo; cbn [eo_upper_h eo_lower_h eo_upper_z eo_lower_z]; auto 12 with nq.
Qed.
Lemma upper_nq t o s u o' : nqo o -> eT_t_upper_labels t o = (s, u, o') -> nq s /\ nq u /\ nqo o'.
Proof.
  intros (A & B & C & D). unfold eT_t_upper_labels. destruct (Nat.ltb 0 (et_m t)); intros E; apply pair_equal_spec in E as [E <-]; apply pair_equal_spec in E as [<- <-];
    unfold nqo; cbn [eo_upper_h eo_lower_h eo_upper_z eo_lower_z]; auto 12 with nq.
Qed.
Lemma t_nq t o s u o' : nqo o -> eT_t_labels t o = (s, u, o') -> nq s /\ nq u /\ nqo o'.
Proof.
  intros N. unfold eT_t_labels. destruct (eT_t_lower_labels t o) as [[s1 u1] o1] eqn:E1. destruct (lower_nq _ _ _ _ _ N E1) as (A & B & C).
  destruct (eT_t_upper_labels t o1) as [[s2 u2] o2] eqn:E2. destruct (upper_nq _ _ _ _ _ C E2) as (A' & B' & C').
  intros E; apply pair_equal_spec in E as [E <-]; apply pair_equal_spec in E as [<- <-]. auto with nq.
Qed.
Lemma group_nq ts : forall o l o', nqo o -> eT_t_group ts o = (l, o') -> Forall (fun su => nq (fst su) /\ nq (snd su)) l /\ nqo o'.
Proof.
  induction ts as [|t ts IH]; intros o l o' N; cbn [eT_t_group]; [intros E; apply pair_equal_spec in E as [<- <-]; auto|].
  destruct (eT_t_labels t o) as [[s1 u1] o1] eqn:E1. destruct (t_nq _ _ _ _ _ N E1) as (A & B & C). destruct (eT_t_group ts o1) as [l2 o2] eqn:E2.
  destruct (IH _ _ _ C E2) as [F G]. intros E; apply pair_equal_spec in E as [<- <-]. auto.
Qed.
Lemma h_nq h o s u o' : nqo o -> eT_h_labels h o = Ok (s, u, o') -> nq s /\ nq u /\ nqo o'.
Proof.
  intros (A & B & C & D). unfold eT_h_labels. destruct (Nat.eqb (eh_rank h) 0).
  { destruct (String.eqb _ ""); [|discriminate]. intros E. injection E as <- <- <-. unfold nqo. auto 12 with nq. }
  destruct (Nat.ltb 0 (eh_m h)), (Nat.ltb 0 (eh_n h)); cbv zeta beta iota; intros E; injection E as <- <- <-; unfold nqo;
    cbn [eo_upper_h eo_lower_h eo_upper_z eo_lower_z]; auto 20 with nq.
Qed.
Lemma z_nq z o s u : nqo o -> eT_z_labels z o = Ok (s, u) -> nq s /\ nq u.
Proof.
  intros (A & B & C & D). unfold eT_z_labels. destruct (Nat.eqb (ez_rank z) 0).
  { destruct (String.eqb _ ""); [|discriminate]. intros E. injection E as <- <-. auto 12 with nq. }
  intros E. injection E as <- <-. destruct (Nat.ltb 0 (ez_m z)), (Nat.ltb 0 (ez_n z)); auto with nq.
Qed.
Lemma concat_nq l : Forall nq l -> nq (concat_str l).
Proof. induction 1; cbn [concat_str fold_right]; [split; reflexivity|]. now apply nq_app. Qed.
Lemma vib_nq ts h z v r : eT_vibrational_components ts h z = Ok (v, r) -> Forall nq v /\ nq r.
Proof.
  unfold eT_vibrational_components. destruct (eT_t_group ts no_offsets) as [g o] eqn:E1.
  destruct (group_nq ts no_offsets g o) as [F N]; [unfold nqo; cbn; auto with nq|exact E1|].
  destruct (eT_h_labels h o) as [[[hs hu] o']|] eqn:E2; [|discriminate]. destruct (h_nq _ _ _ _ _ N E2) as (A & B & C). cbn [bind].
  destruct (eT_z_labels z o') as [[zs zu]|] eqn:E3; [|discriminate]. destruct (z_nq _ _ _ _ C E3) as (A' & B'). cbn [bind].
  intros E. assert (E' := f_equal (fun x => match x with Ok y => y | Err _ => ([], ""%string) end) E). cbv beta iota in E'. apply pair_equal_spec in E' as [<- <-]. split.
  - apply Forall_app. split; [|auto with nq]. apply Forall_map. eapply Forall_impl; [|exact F]. intros su [X Y]. now apply nq_app.
  - apply concat_nq, Forall_app. split; [|auto with nq]. apply Forall_map. eapply Forall_impl; [|exact F]. intros su [_ Y]. exact Y.
Qed.

Lemma combine_nq : forall el va, Forall nq el -> Forall nq va -> Forall nq (map (fun ev : string * string => (fst ev ++ snd ev)%string) (combine el va)).
Proof.
  intros el va F. revert va. induction F as [|e el X F IH]; intros va G; [constructor|]. destruct G as [|w va G1 G2]; [constructor|]. cbn [combine map fst snd].
  constructor; [now apply nq_app|auto].
Qed.
Lemma electronic_nq s ts : Forall nq (eT_electronic_components s ts).
Proof.
  unfold eT_electronic_components. apply Forall_app. split; [apply Forall_forall; intros x H; apply repeat_spec in H as ->; split; reflexivity|].
  destruct s; repeat constructor.
Qed.
Lemma operands_ok s h z ts : (forall o, In o (eT_h_operand s h ++ [eT_z_operand s h z]) -> no_special (fst o) = true) /\
  (forall o, In o (map (eT_t_operand s) ts ++ (eT_h_operand s h ++ [eT_z_operand s h z])) -> no_special (fst o) = true).
Proof.
  assert (A : forall o, In o (eT_h_operand s h ++ [eT_z_operand s h z]) -> no_special (fst o) = true).
  { intros o H. apply in_app_iff in H as [H|[<-|[]]].
    - unfold eT_h_operand in H. destruct s; [destruct (Nat.eqb _ 0 && _); [destruct H|]|]; destruct H as [<-|[]]; reflexivity.
    - unfold eT_z_operand. destruct s; [destruct (Nat.eqb _ 0 && _)|]; reflexivity. }
  split; [exact A|]. intros o H. apply in_app_iff in H as [H|H]; [|auto]. apply in_map_iff in H as (t & <- & _). destruct s; reflexivity.
Qed.
Lemma calls_sound s t calls : eT_calls s t = Ok calls -> calls <> [] /\ Forall sound_call calls.
Proof.
  unfold eT_calls. destruct (eT_vibrational_components (tt_ts t) (tt_h t) (tt_z t)) as [[v r]|] eqn:Ev; [|discriminate]. destruct (vib_nq _ _ _ _ _ Ev) as [F N]. cbn [bind].
  destruct (operands_ok s (tt_h t) (tt_z t) (tt_ts t)) as [O1 O2].
  pose proof (combine_nq _ _ (electronic_nq s (tt_ts t)) F) as C.
  set (combined := map _ (combine _ v)) in *.
  assert (Fp : Forall nq (filter (fun x => negb (String.eqb x "")) combined)) by (rewrite Forall_forall in *; intros x H; apply filter_In in H as [H _]; auto).
  set (out := String.append _ r). assert (No : nq out) by (apply nq_app; [destruct s; split; reflexivity|exact N]).
  assert (X : forall inp ops, Forall nq inp -> (forall o, In o ops -> no_special (fst o) = true) -> sound_call (mkecall inp out ops)).
  { intros inp ops G Q. split; [|split; [exact No|exact Q]]. cbn [c_inputs]. rewrite Forall_forall in G. exact G. }
  cbv zeta. destruct (dedup ett_eqb (tt_ts t)) as [|d0 [|d1 ds]]; [discriminate| |].
  - destruct (Nat.eqb (et_rank d0) 0).
    + destruct (String.eqb r "").
      * intros E. injection E as <-. split; [discriminate|]. constructor; [|constructor]. now apply X.
      * intros E. assert (E' := f_equal (fun x => match x with Ok y => y | Err _ => [] end) E). cbv beta iota in E'. subst calls. split.
        -- assert (NP : nof_permutations r <> 0).
           { unfold nof_permutations. pose proof (PyBaseFacts.in_dedup (list_eqb Ascii.eqb)) as D.
             intros Z. apply length_zero_iff_nil in Z.
             assert (P : In (chars r) (perms (chars r))) by (apply PyBaseFacts.in_perms; apply Permutation.Permutation_refl).
             destruct (perms (chars r)) as [|y ys]; [destruct P|]. clear -Z. 
             assert (L : forall (l : list (list ascii)) e, l <> [] -> dedup e l <> []).
             { intros l e. induction l as [|a l IH]; [congruence|]. intros _. cbn [dedup]. destruct (existsb (e a) l) eqn:Ex; [|discriminate].
               apply IH. intros ->. discriminate. }
             apply (L (y :: ys) _ ltac:(discriminate) Z). }
           destruct (nof_permutations r); [congruence|discriminate].
        -- apply Forall_forall. intros x H. apply repeat_spec in H as ->. now apply X.
    + intros E. injection E as <-. split; [discriminate|]. constructor; [|constructor]. now apply X.
  - intros E. injection E as <-. split; [discriminate|]. constructor; [|constructor]. now apply X.
Qed.

(** ** The bodies the code writes *)
From Verif Require Import PyBaseFacts ProofsEtBody ProofsEtGen.

Lemma dedup_nonempty {X} (e : X -> X -> bool) l : l <> [] -> dedup e l <> [].
Proof.
  induction l as [|a l IH]; [congruence|]. intros _. cbn [dedup]. destruct (existsb (e a) l) eqn:Ex; [|discriminate]. apply IH. intros ->. discriminate.
Qed.
Lemma isort_nonempty {X} (f : X -> X -> bool) l : l <> [] -> isort f l <> [].
Proof. intros N E. pose proof (isort_perm f l) as P. rewrite E in P. apply Permutation.Permutation_sym, Permutation.Permutation_nil in P. contradiction. Qed.
Lemma zsums_sound d i j : Forall (fun e => sound_call (en_call e)) d -> sound_zsums (zsums_of d i j).
Proof.
  intros F. unfold zsums_of. set (here := filter _ d). apply Forall_map, Forall_forall. intros k Hk. apply in_isort, dedup_sub in Hk. cbn [snd].
  set (at_z := filter (fun e => Nat.eqb (en_z e) k) here).
  assert (NZ : at_z <> []).
  { apply in_map_iff in Hk as (e & Ek & He). assert (I : In e at_z) by (apply filter_In; split; [exact He|now apply Nat.eqb_eq]). intros Z. rewrite Z in I. destruct I. }
  split.
  - apply map_not_nil, isort_nonempty, dedup_nonempty. now apply map_not_nil.
  - apply Forall_map, Forall_forall. intros p Hp. apply in_isort, dedup_sub in Hp. apply in_map_iff in Hp as (e & Ep & He).
    destruct (unique_calls_spec (map en_call (filter (fun e => same_pref (en_pref e) p) at_z))) as (_ & U1 & U2). split; cbn [fst snd].
    + destruct (U2 (en_call e)) as (c' & Hc & _).
      { apply in_map, filter_In. split; [exact He|]. subst p. unfold same_pref. apply String.eqb_refl. }
      intros Z. rewrite Z in Hc. destruct Hc.
    + apply Forall_forall. intros c Hc. apply U1, in_map_iff in Hc as (e' & <- & He'). apply filter_In in He' as [He' _]. apply filter_In in He' as [He' _].
      apply filter_In in He' as [He' _]. rewrite Forall_forall in F. auto.
Qed.
Lemma ifs_sound d cc i : Forall (fun e => sound_call (en_call e)) d -> sound_ifs (ifs_of d cc i).
Proof.
  intros F. apply Forall_flat_map_intro. intros j _. pose proof (zsums_sound d i j F) as Z. destruct (zsums_of d i j); constructor; [|constructor]. split; [discriminate|exact Z].
Qed.
Lemma body_sound d H cc : Forall (fun e => sound_call (en_call e)) d -> sound_body (body_of d H cc).
Proof.
  intros F. split; [now apply zsums_sound|]. split; [now apply ifs_sound|]. apply Forall_map, Forall_forall. intros i _. split; [now apply zsums_sound|now apply ifs_sound].
Qed.

Lemma entries_sound s H t y : eT_entries s H t = Ok y -> y <> [] /\ Forall (fun e => sound_call (en_call e)) y.
Proof.
  unfold eT_entries. destruct (negb _); [discriminate|]. destruct (build_eT_zhz_python_prefactor _ _ _) as [nd|]; [|discriminate]. cbn [bind].
  destruct (Nat.ltb _ _); [discriminate|]. destruct (eT_calls s t) as [calls|] eqn:Ec; [|discriminate]. cbn [bind]. intros [= <-].
  destruct (calls_sound _ _ _ Ec) as [N F]. split; [now apply map_not_nil|]. apply Forall_map. exact F.
Qed.

(** every list of terms with amplitudes up to the rank *)
Lemma written_reads s H CC l b : write_third_eTz_einsum_python s H CC l = Ok b ->
  (forall t, In t l -> list_max (map et_rank (tt_ts t)) <= CC) ->
  piece 0 (render_ebody s b) (body_stmts s b) /\ body_adds s (body_stmts s b) (fun fh ft fz => run_ebody fh ft fz b) /\ Forall no_doc (render_ebody s b).
Proof.
  intros E HT. destruct l as [|t0 l0].
  { injection E as <-. split; [apply body_piece; [exact I|discriminate]|]. split; [|apply body_no_doc; exact I]. split; [discriminate|]. left. split; reflexivity. }
  destruct (guards_exact s H CC (t0 :: l0) b E HT) as (placed & _ & IP & R).
  cbn [write_third_eTz_einsum_python] in E. destruct (concatM (eT_entries s H) (t0 :: l0)) as [d|] eqn:Ed; [|discriminate]. cbn [bind] in E. apply body_ok in E as ->.
  destruct (concatM_in (eT_entries s H) _ (concatM_Ok _ _ _ Ed)) as (d' & Ed' & Id). rewrite Ed in Ed'. injection Ed' as <-.
  assert (F : Forall (fun e => sound_call (en_call e)) d).
  { apply Forall_forall. intros e He. apply Id in He as (t & y & _ & Ey & Iy). destruct (entries_sound _ _ _ _ Ey) as [_ G]. rewrite Forall_forall in G. auto. }
  pose proof (body_sound d H CC F) as SB.
  assert (NE : body_stmts s (body_of d H CC) <> []).
  { intros Z. pose proof (exec_body s (fun _ => true) _ _ _ SB) as X. fold (body_of d H CC) in X. rewrite Z in X. destruct X as (ls & X & Y). inversion X; subst ls.
    destruct (concatM_Ok _ _ _ Ed t0 (or_introl eq_refl)) as [y Ey]. destruct (entries_lines _ _ _ _ Ey) as [L _].
    destruct (entries_sound _ _ _ _ Ey) as [Ny _]. destruct y as [|e y]; [congruence|].
    assert (J : In (filed e) placed) by (apply IP; exists t0; split; [now left|apply L; exists e; split; [now left|reflexivity]]).
    specialize (R (fun _ => true) (fun _ => true) (fun _ => true)). cbn [List.concat] in Y. rewrite Y in R. cbn [map] in R.
    symmetry in R. apply map_eq_nil in R.
    assert (J' : In (filed e) (filter (fun x => let '(i, j, k, _) := x in is_on (fun _ => true) (fun _ => true) (fun _ => true) i j k) placed)).
    { apply filter_In. split; [exact J|]. unfold filed, is_on. now rewrite !orb_true_r. }
    rewrite R in J'. destruct J'. }
  split; [now apply body_piece|]. split; [|now apply body_no_doc]. split; [exact NE|]. right. intros flag. apply (exec_body s flag). exact SB.
Qed.
