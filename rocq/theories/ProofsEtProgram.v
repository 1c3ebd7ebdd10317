(** The file of the e^T ansatz, read as python. *)
From Coq Require Import List Arith Bool Ascii String Lia.
From Verif Require Import PyBase PyStr ModelHelper ModelFullCC ModelFullCCPy ModelZhz ModelEt ModelEtPy SpecFullCC SpecEt SpecEtPy SpecPython SpecEtText.
From Verif Require Import PyBaseFacts ProofsStr ProofsW ProofsFullCC ProofsFullCCBuckets ProofsFullCCFile ProofsEtBody ProofsEtGen ProofsEtFile ProofsPython ProofsEtRead.
Import ListNotations.
Local Open Scope nat_scope.
Local Open Scope list_scope.

Definition one_line (l : string) : Prop := has_char newline l = false.

Lemma one_line_app a b : one_line a -> one_line b -> one_line (a ++ b).
Proof. unfold one_line. rewrite has_char_app. now intros -> ->. Qed.
Lemma one_line_nat n : one_line (str_nat n).
Proof. apply (no_special_nq _ (str_nat_no_special n)). Qed.
Lemma one_line_rstrip l : one_line l -> one_line (rstrip l).
Proof. unfold one_line. destruct (rstrip_end l) as (b & _ & E). intros H. rewrite E, has_char_app in H. now apply orb_false_iff in H. Qed.
Lemma one_line_repeat s n : one_line s -> one_line (str_repeat s n).
Proof. intros H. induction n as [|n IH]; [reflexivity|]. cbn. now apply one_line_app. Qed.
Ltac ol := repeat (apply one_line_app); try reflexivity; try apply one_line_nat.

(** the operators of the file *)
Lemma projection_facts CC P o : In o (eT_projections CC P) -> g_m o = 0 /\ g_n o <= CC /\ g_n o <= P /\ g_rank o = g_n o /\ one_line (g_name o).
Proof.
  intros H. apply filter_In in H as [H B]. apply Nat.eqb_eq in B. apply projections_exact in H as (N & R & R1 & R2). rewrite B in *.
  split; [reflexivity|]. split; [lia|]. split; [lia|]. split; [lia|]. unfold spells in N. cbn [repeat app] in N.
  assert (E : g_name o = string_of_list_ascii (repeat "b"%char (g_n o))) by (rewrite <- N; symmetry; apply string_of_list_ascii_of_string).
  rewrite E. generalize (g_n o). clear. induction n as [|n IH]; [reflexivity|exact IH].
Qed.
Lemma operator_one_line o : one_line (g_name o) -> one_line (operator_text o).
Proof. intros H. unfold operator_text. ol; assumption. Qed.

(** ** Functions of the terms *)

Definition kind_ok (k : string) : Prop := k = "HZ"%string \/ k = "eT_HZ"%string.
Lemma name_is s o k opt : g_m o = 0 -> eT_function_name s o k opt = terms_name s (g_n o) k opt.
Proof. intros M. unfold eT_function_name, terms_name, specifier. rewrite M. destruct s; cbn [String.append]; rewrite !append_assoc; reflexivity. Qed.
Lemma name_plain s p k opt : kind_ok k -> no_special (terms_name s p k opt) = true.
Proof. intros [-> | ->]; destruct s, opt; unfold terms_name; rewrite !no_special_app, str_nat_no_special; reflexivity. Qed.
Lemma name_starts s p k opt : starts (terms_name s p k opt) = true.
Proof. destruct s; reflexivity. Qed.

Lemma head_form s p k opt : terms_head s p k opt = (("def " ++ terms_name s p k opt) ++ ("(" ++ (result_name s ++ ", " ++ parameters s ++ (if opt then ", opt_einsum" else "")) ++ ")") ++ ":")%string.
Proof. unfold terms_head. rewrite !append_assoc. reflexivity. Qed.
Lemma head_neutral s p k opt : kind_ok k -> neutral (terms_head s p k opt).
Proof.
  intros K. rewrite head_form. apply neutral_app; [apply neutral_app; [now apply neutral_plain|apply neutral_plain; now apply name_plain]|].
  apply neutral_app; [|now apply neutral_plain]. apply neutral_paren, neutral_plain. destruct s, opt; reflexivity.
Qed.
Lemma other_head_def a : String.prefix "if " ("def " ++ a) = false.
Proof. reflexivity. Qed.
Lemma def_head a : other_head (("def " ++ a) ++ "):") = true.
Proof.
  unfold other_head. rewrite is_head_last, last_char_app. cbn [last_char]. change (Ascii.eqb ":" ":") with true. rewrite append_assoc, other_head_def.
  cbn [andb negb]. apply negb_true_iff, String.eqb_neq. discriminate.
Qed.
Lemma head_other s p k opt : other_head (terms_head s p k opt) = true.
Proof.
  replace (terms_head s p k opt) with (("def " ++ terms_name s p k opt ++ "(" ++ result_name s ++ ", " ++ parameters s ++ (if opt then ", opt_einsum" else "")) ++ "):")%string; [apply def_head|].
  unfold terms_head. rewrite !append_assoc. reflexivity.
Qed.

Lemma tab_pad : tab = pad 4.
Proof. reflexivity. Qed.
Lemma indent_is lines : lines <> [] -> eT_indent lines = map (fun l => rstrip (pad 8 ++ l)) lines.
Proof. intros N. unfold eT_indent. destruct lines; [congruence|]. reflexivity. Qed.

Definition doc_first (o : gop) (opt : bool) (k : string) : string :=
  (" " ++ (if opt then "Optimized calculation of" else "Calculate") ++ " the " ++ operator_text o ++ " " ++ k ++ " terms.")%string.
Definition doc_rest (k : string) : list string :=
  if String.eqb k "HZ"
  then [ "These terms have no vibrational contribution from the e^T operator.";
         "This reduces the number of possible non-zero permutations of creation/annihilation operators." ]%string
  else [ "These terms include the vibrational contributions from the e^T operator.";
         "This increases the number of possible non-zero permutations of creation/annihilation operators." ]%string.
Definition doc_of (o : gop) (opt : bool) (k : string) : string := doc_text (doc_first o opt k) (doc_rest k).

Definition terms_block (s : side) (o : gop) (opt : bool) (k : string) (ours others : list stmt) : stmt :=
  Block (terms_head s (g_n o) k opt) [Simple (doc_of o opt k); If "ansatz.ground_state" ours others; Simple "return"].

Definition function_lines (s : side) (o : gop) (opt : bool) (k : string) (l1 l2 : list string) : list string :=
  terms_head s (g_n o) k opt
  :: ((pad 4 ++ triple ++ doc_first o opt k)%string :: map (fun l => (pad 4 ++ l)%string) (doc_rest k) ++ [(pad 4 ++ triple)%string])
  ++ [""%string] ++ ((pad 4 ++ "if ansatz.ground_state:")%string :: eT_indent l1 ++ (pad 4 ++ "else:")%string :: eT_indent l2)
  ++ [""%string] ++ [(pad 4 ++ "return")%string] ++ [""%string].
Lemma function_text_is s o opt k l1 l2 : g_m o = 0 -> eT_function_text s o opt k (l1, l2) = ""%string :: function_lines s o opt k l1 l2.
Proof.
  intros M. unfold eT_function_text, function_lines. rewrite (name_is s o k opt M). cbn [fst snd]. unfold doc_rest.
  assert (D : (tab ++ """"""" " ++ (if opt then "Optimized calculation of" else "Calculate") ++ " the " ++ operator_text o ++ " " ++ k ++ " terms.")%string
            = (pad 4 ++ triple ++ doc_first o opt k)%string) by reflexivity.
  rewrite D. change (eT_tensor s) with (result_name s). change (eT_arguments s) with (parameters s). unfold terms_head. cbn [app].
  destruct (String.eqb k "HZ"); cbn [map app]; rewrite <- !app_assoc; reflexivity.
Qed.

Lemma doc_rest_ok k : kind_ok k -> Forall (fun l => starts l = true /\ exists c, last_char l = Some c /\ is_blank c = false /\ c <> quote2) (doc_rest k).
Proof. intros [-> | ->]; repeat constructor; exists "."%char; (repeat split); discriminate. Qed.

Lemma function_piece s o opt k l1 l2 b1 b2 : kind_ok k -> b1 <> [] -> b2 <> [] -> piece 0 l1 b1 -> piece 0 l2 b2 ->
  piece 0 (function_lines s o opt k l1 l2) [terms_block s o opt k b1 b2].
Proof.
  intros K N1 N2 P1 P2. unfold function_lines, terms_block.
  assert (NL : forall l (b : list stmt), b <> [] -> piece 0 l b -> l <> []) by (intros l b N P ->; apply N; exact (piece_empty_lines _ _ P)).
  apply (piece_block 0 _ _ 4).
  - apply (line_simple 0); [now apply head_neutral|destruct s; reflexivity|]. rewrite head_form. now do 2 apply ends_app.
  - apply head_other.
  - lia.
  - discriminate.
  - refine (piece_app 4 _ _ [_] _ _ _).
    + apply piece_doc_lines; [|now apply doc_rest_ok]. exists "."%char. unfold doc_first. rewrite !last_char_app. repeat split. discriminate.
    + refine (piece_app 4 [""%string] _ [] _ (piece_skip 4 _ (line_blank 0)) _). refine (piece_app 4 _ _ [_] _ _ _).
      * rewrite (indent_is l1 (NL _ _ N1 P1)), (indent_is l2 (NL _ _ N2 P2)). apply (piece_if_else 4 _ _ _ 8 _ 8); try assumption; try lia; try reflexivity.
        -- exact (piece_indent 8 0 _ _ P1).
        -- exact (piece_indent 8 0 _ _ P2).
      * refine (piece_app 4 [""%string] _ [] _ (piece_skip 4 _ (line_blank 0)) _). refine (piece_app 4 _ _ [_] [] _ (piece_skip 4 _ (line_blank 0))).
        apply piece_statement; try reflexivity. now apply neutral_plain.
Qed.

Lemma indent_one_line l : Forall one_line l -> Forall one_line (eT_indent l).
Proof.
  intros F. unfold eT_indent. apply Forall_map. assert (G : Forall one_line (match l with [] => [""%string] | _ => l end)) by (destruct l; [repeat constructor|exact F]).
  revert G. apply Forall_impl. intros x Hx. apply one_line_rstrip, one_line_app; [reflexivity|exact Hx].
Qed.
Lemma function_one_line s o opt k l1 l2 : kind_ok k -> one_line (g_name o) -> Forall one_line l1 -> Forall one_line l2 ->
  Forall one_line (function_lines s o opt k l1 l2).
Proof.
  intros K O F1 F2. unfold function_lines. constructor; [apply (head_neutral s (g_n o) k opt K)|].
  constructor.
  { apply one_line_app; [reflexivity|]. apply one_line_app; [reflexivity|]. unfold doc_first.
    assert (one_line (operator_text o)) by now apply operator_one_line. destruct K as [-> | ->], opt; ol; assumption. }
  apply Forall_app. split.
  { apply Forall_app. split; [destruct K as [-> | ->]; repeat constructor|repeat constructor]. }
  apply Forall_app. split; [repeat constructor|]. apply Forall_app. split.
  - constructor; [reflexivity|]. apply Forall_app. split; [now apply indent_one_line|]. constructor; [reflexivity|now apply indent_one_line].
  - repeat constructor.
Qed.

(** ** The bodies of a projection *)

Lemma written_rank P q m n k c : list_max (map et_rank (tt_ts (written P q m n k c))) <= 1.
Proof.
  unfold written. cbn [tt_ts]. destruct q; [cbn; lia|]. apply list_max_le, Forall_map, Forall_forall. intros t Ht.
  apply in_app_iff in Ht as [Ht|Ht]; apply repeat_spec in Ht as ->; cbn; lia.
Qed.
Definition readable (s : side) (b : ebody) : Prop :=
  piece 0 (render_ebody s b) (body_stmts s b) /\ body_adds s (body_stmts s b) (fun fh ft fz => run_ebody fh ft fz b) /\ Forall no_doc (render_ebody s b).
Lemma readable_invalid s : readable s EInvalid.
Proof. split; [apply body_piece; [exact I|discriminate]|]. split; [|apply body_no_doc; exact I]. split; [discriminate|]. left. split; reflexivity. Qed.

Lemma einsums_read s Proj H CC e g ser b1 b2 :
  g_m Proj = 0 -> 1 <= CC -> generate_eT_taylor_expansion 1 e = Ok ser ->
  generate_eT_zhz_einsums s Proj (mkops H CC (generate_pruned_H_operator H) (generate_z_operator CC g) ser) true = Ok (b1, b2) ->
  readable s b1 /\ readable s b2.
Proof.
  intros HP HCC ET E. unfold generate_eT_zhz_einsums in E. cbn [op_H op_Z op_eT op_h_rank op_cc_rank] in E.
  rewrite (remove_excited_id _ (series_no_excited 1 e ser ltac:(lia) ET)) in E.
  destruct (terms_lists s Proj H CC e g HP ser ET) as (zl & tl & Et & Iz & It).
  destruct (ground_state_operators s (generate_pruned_H_operator H) (generate_z_operator CC g)) as [HL ZL] eqn:EL. cbn [fst snd] in Et.
  rewrite Et in E. cbn [bind] in E.
  assert (R1 : forall t, In t zl -> list_max (map et_rank (tt_ts t)) <= CC) by (intros t Ht; apply Iz in Ht as (q & m & n & k & c & _ & ->); pose proof (written_rank (g_n Proj) q m n k c); lia).
  assert (R2 : forall t, In t tl -> list_max (map et_rank (tt_ts t)) <= CC) by (intros t Ht; apply It in Ht as (q & m & n & k & c & _ & ->); pose proof (written_rank (g_n Proj) q m n k c); lia).
  assert (W : (b1 = EInvalid /\ b2 = EInvalid) \/ (write_third_eTz_einsum_python s H CC zl = Ok b1 /\ write_third_eTz_einsum_python s H CC tl = Ok b2)).
  { destruct zl as [|z0 zl']; [destruct tl as [|t0 tl']|].
    - injection E as <- <-. now left.
    - right. destruct (write_third_eTz_einsum_python s H CC []) as [w1|] eqn:E1; [|discriminate].
      destruct (write_third_eTz_einsum_python s H CC (t0 :: tl')) as [w2|] eqn:E2; [|discriminate]. cbn [bind] in E. injection E as <- <-. auto.
    - right. destruct (write_third_eTz_einsum_python s H CC (z0 :: zl')) as [w1|] eqn:E1; [|discriminate].
      destruct (write_third_eTz_einsum_python s H CC tl) as [w2|] eqn:E2; [|discriminate]. cbn [bind] in E. injection E as <- <-. auto. }
  destruct W as [[-> ->]|[W1 W2]]; [split; apply readable_invalid|]. split; [exact (written_reads _ _ _ _ _ W1 R1)|exact (written_reads _ _ _ _ _ W2 R2)].
Qed.

(** what is added *)
Lemma exactly_adds_iff s (g1 g2 : nat -> nat -> nat -> nat -> contraction -> Prop) l : (forall q m n k c, g1 q m n k c <-> g2 q m n k c) -> exactly_adds s g1 l -> exactly_adds s g2 l.
Proof.
  intros E [A B]. split.
  - intros p call H. destruct (A p call H) as (q & m & n & k & c & G & R). exists q, m, n, k, c. split; [now apply E|exact R].
  - intros q m n k c G. apply E in G. exact (B q m n k c G).
Qed.
Lemma enabled_is flag q m n k :
  is_on (fun i => flag (h_condition i)) (fun j => flag (t_condition j)) (fun k => flag (z_condition k)) (Nat.max m n) (match q with 0 => 0 | S _ => 1 end) k = true
  <-> enabled flag q m n k.
Proof.
  unfold is_on, enabled. rewrite !andb_true_iff, !orb_true_iff, !Nat.eqb_eq. destruct q as [|q].
  - intuition.
  - split; [intros [[A [B|B]] C]; [discriminate|auto]|intros (A & [B|B] & C); [discriminate|auto]].
Qed.
Lemma body_adds_exactly s b (good : nat -> nat -> nat -> nat -> contraction -> Prop) : readable s b ->
  (forall fh ft fz, exactly_adds s (fun q m n k c => good q m n k c /\ is_on fh ft fz (Nat.max m n) (match q with 0 => 0 | S _ => 1 end) k = true) (run_ebody fh ft fz b)) ->
  forall flag, adds_exactly s flag (body_stmts s b) good.
Proof.
  intros (_ & (_ & A) & _) X flag. set (fh := fun i => flag (h_condition i)). set (ft := fun j => flag (t_condition j)). set (fz := fun k => flag (z_condition k)).
  exists (run_ebody fh ft fz b). split.
  - destruct A as [[A N]|A]; [left|right; apply A]. rewrite A. split; [reflexivity|apply N].
  - refine (exactly_adds_iff _ _ _ _ _ (X fh ft fz)). intros q m n k c. rewrite <- enabled_is. reflexivity.
Qed.

(** ** The text of the functions of the terms *)

Definition others_of (g : bool) (s : side) (b : ebody) : list stmt := if g then [Simple eT_hot_band] else body_stmts s b.
Definition terms_blocks (s : side) (g opt : bool) (o : gop) (b : ebody * ebody) : list stmt :=
  [terms_block s o opt "HZ" (body_stmts s (fst b)) (others_of g s (fst b)); terms_block s o opt "eT_HZ" (body_stmts s (snd b)) (others_of g s (snd b))].

Lemma terms_opened s o (g : bool) opt k b : kind_ok k -> g_m o = 0 -> one_line (g_name o) -> readable s b ->
  opened (join nl (eT_function_text s o opt k (render_ebody s b, if g then [eT_hot_band] else render_ebody s b)) ++ nl) [terms_block s o opt k (body_stmts s b) (others_of g s b)].
Proof.
  intros K M O (P & (N & _) & F). rewrite (function_text_is s o opt k _ _ M).
  assert (P2 : piece 0 (if g then [eT_hot_band] else render_ebody s b) (others_of g s b)).
  { destruct g; [|exact P]. apply (piece_statement 0 eT_hot_band); try reflexivity.
    unfold eT_hot_band. apply (neutral_app "raise NotImplementedError" "('Hot Band amplitudes not implemented!')"); [now apply neutral_plain|].
    apply (neutral_paren "'Hot Band amplitudes not implemented!'"). apply (neutral_quoted "Hot Band amplitudes not implemented!"). split; reflexivity. }
  apply opened_lines; [discriminate| |].
  - apply function_one_line; [exact K|exact O|now apply no_doc_lines|]. destruct g; [repeat constructor|now apply no_doc_lines].
  - apply function_piece; try assumption. destruct g; [discriminate|exact N].
Qed.

Lemma construct_opened s H CC e g ser opt o t : 1 <= CC -> generate_eT_taylor_expansion 1 e = Ok ser -> g_m o = 0 -> one_line (g_name o) ->
  let ops := mkops H CC (generate_pruned_H_operator H) (generate_z_operator CC g) ser in
  construct_eT_zhz_compute_function s ops g opt o = Ok t ->
  exists b, generate_eT_zhz_einsums s o ops true = Ok b /\ opened t (terms_blocks s g opt o b).
Proof.
  intros HCC ET M O ops. unfold construct_eT_zhz_compute_function, eT_branches.
  pose proof (excited_branch s o H CC e g ser ET) as X. cbv zeta in X. fold ops in X.
  destruct (generate_eT_zhz_einsums s o ops true) as [[b1 b2]|] eqn:E; cbn [bind]; [|discriminate].
  destruct (einsums_read s o H CC e g ser b1 b2 M HCC ET E) as [R1 R2].
  destruct (ground_state_operators s (op_H ops) (op_Z ops)) as [HL ZL] eqn:EL. cbn [fst snd] in X.
  change (op_h_rank ops) with H. change (op_cc_rank ops) with CC. change (op_eT ops) with ser.
  intros Et. exists (b1, b2). split; [reflexivity|].
  assert (T : t = ((join nl (eT_function_text s o opt "HZ" (render_ebody s b1, if g then [eT_hot_band] else render_ebody s b1)) ++ nl)
                ++ (join nl (eT_function_text s o opt "eT_HZ" (render_ebody s b2, if g then [eT_hot_band] else render_ebody s b2)) ++ nl))%string).
  { destruct g.
    - cbn [bind fst snd] in Et. apply (f_equal (fun x => match x with Ok y => y | Err _ => t end)) in Et. cbv beta iota in Et. rewrite <- Et. cbn [combine eT_term_types map fst snd concat_str fold_right]. now rewrite append_nil_r.
    - rewrite X in Et. cbn [bind fst snd] in Et. apply (f_equal (fun x => match x with Ok y => y | Err _ => t end)) in Et. cbv beta iota in Et. rewrite <- Et. cbn [combine eT_term_types map fst snd concat_str fold_right]. now rewrite append_nil_r. }
  rewrite T. unfold terms_blocks. cbn [fst snd].
  apply (opened_app _ _ [_] [_]); [apply terms_opened; auto; now left|]. apply opened_closed, terms_opened; auto. now right.
Qed.

(** ** The functions of the residual *)

Definition equation_doc (o : gop) : string := (triple ++ ("Compute the " ++ operator_text o ++ " amplitude.") ++ triple)%string.
Definition call_stmt (s : side) (p : nat) (opt : bool) (kind : string) : string :=
  (terms_name s p kind opt ++ "(" ++ equation_result s ++ ", " ++ parameters s ++ (if opt then ", optimized_" ++ kind ++ "_paths" else "") ++ ")")%string.
Definition zeros_stmt (s : side) (p : nat) : string :=
  (equation_result s ++ " = np.zeros(shape=(A" ++ String.concat "" (repeat ", N"%string p) ++ "), dtype=complex)")%string.
Definition check_names : list string := ["singles"; "doubles"; "triples"; "quadruples"; "quintuples"; "sextuples"]%string.
Definition equation_block (s : side) (opt : bool) (o : gop) : stmt :=
  Block (equation_head s (g_n o) opt)
    (Simple (equation_doc o)
     :: map (fun x => Simple ("truncation.confirm_at_least_" ++ x ++ "()")) (firstn (Nat.max 1 (g_n o)) check_names)
     ++ [Simple (zeros_stmt s (g_n o))]
     ++ (if opt then [Simple "optimized_HZ_paths, optimized_eT_HZ_paths = opt_paths"] else [])
     ++ [Simple (call_stmt s (g_n o) opt "HZ"); Simple (call_stmt s (g_n o) opt "eT_HZ"); Simple ("return " ++ equation_result s)]).

Definition equation_lines (s : side) (opt : bool) (o : gop) : list string :=
  equation_head s (g_n o) opt
  :: [(pad 4 ++ equation_doc o)%string]
  ++ map (fun x => (pad 4 ++ "truncation.confirm_at_least_" ++ x ++ "()")%string) (firstn (Nat.max 1 (g_n o)) check_names)
  ++ [""%string; (pad 4 ++ "# the residual tensor")%string] ++ [(pad 4 ++ zeros_stmt s (g_n o))%string] ++ [""%string]
  ++ (if opt then [(pad 4 ++ "# unpack the optimized paths")%string; (pad 4 ++ "optimized_HZ_paths, optimized_eT_HZ_paths = opt_paths")%string; ""%string] else [])
  ++ [(pad 4 ++ "# " ++ (match s with RHS => "add" | LHS => "compute" end) ++ " the terms")%string]
  ++ [(pad 4 ++ call_stmt s (g_n o) opt "HZ")%string; (pad 4 ++ call_stmt s (g_n o) opt "eT_HZ")%string; (pad 4 ++ "return " ++ equation_result s)%string]
  ++ [""%string].

Lemma checks_are o : g_m o = 0 -> eT_truncation_checks o = map (fun x => (pad 4 ++ "truncation.confirm_at_least_" ++ x ++ "()")%string) (firstn (Nat.max 1 (g_n o)) check_names).
Proof.
  intros M. unfold eT_truncation_checks. rewrite M. destruct (g_n o) as [|[|[|[|[|[|[|p]]]]]]]; reflexivity.
Qed.
Lemma shape_is p : join ", " ("A"%string :: repeat "N"%string p) = ("A" ++ String.concat "" (repeat ", N"%string p))%string.
Proof.
  rewrite join_concat. induction p as [|p IH]; [reflexivity|]. cbn [repeat].
  assert (E : forall l, String.concat "" (", N"%string :: l) = (", N" ++ String.concat "" l)%string) by (intros [|? ?]; reflexivity). rewrite E.
  cbn [repeat] in IH. change (String.concat ", " ("A" :: "N" :: repeat "N" p)%string) with ("A" ++ ", " ++ String.concat ", " ("N" :: repeat "N" p)%string)%string.
  f_equal. clear E. destruct p as [|p]; [reflexivity|]. cbn [repeat] in *.
  change (String.concat ", " ("A" :: "N" :: repeat "N" p)%string) with ("A" ++ ", " ++ String.concat ", " ("N" :: repeat "N" p)%string)%string in IH.
  change (String.concat ", " ("N" :: "N" :: repeat "N" p)%string) with ("N" ++ ", " ++ String.concat ", " ("N" :: repeat "N" p)%string)%string.
  change (", " ++ "N" ++ ", " ++ String.concat ", " ("N" :: repeat "N" p)%string)%string with (", N" ++ (", " ++ String.concat ", " ("N" :: repeat "N" p)%string))%string.
  f_equal. change (String "A" ("" ++ (", " ++ String.concat ", " ("N" :: repeat "N" p)%string)) = String "A" ("" ++ String.concat "" (", N" :: repeat ", N" p)%string))%string in IH.
  apply (f_equal (fun x => match x with String _ y => y | _ => x end)) in IH. exact IH.
Qed.
Lemma join_snoc ls : ls <> [] -> join nl (ls ++ [""%string]) = (join nl ls ++ nl)%string.
Proof.
  rewrite (join_concat nl (ls ++ _)), (join_concat nl ls). induction ls as [|a ls IH]; intros N; [congruence|]. destruct ls as [|b ls].
  - cbn [app String.concat]. now rewrite append_nil_r.
  - change (String.concat nl ((a :: b :: ls) ++ [""%string])) with (a ++ nl ++ String.concat nl ((b :: ls) ++ [""%string]))%string.
    change (String.concat nl (a :: b :: ls)) with (a ++ nl ++ String.concat nl (b :: ls))%string.
    rewrite !append_assoc. f_equal. f_equal. apply IH. discriminate.
Qed.

Lemma equation_text_is s opt o : g_m o = 0 -> g_rank o = g_n o -> write_master_eT_zhz_compute_function s opt o = (join nl (""%string :: equation_lines s opt o) ++ nl)%string.
Proof.
  intros M R. rewrite <- join_snoc by discriminate. unfold write_master_eT_zhz_compute_function, equation_lines. rewrite (checks_are o M), R, shape_is.
  cbn [map eT_term_types]. rewrite !(name_is s o _ _ M). unfold specifier. rewrite M. cbn [app]. f_equal. f_equal.
  assert (H1 : ("def compute_" ++ ("m" ++ str_nat 0 ++ "_n" ++ str_nat (g_n o)) ++ "_amplitude" ++ opt_suffix opt ++ "(A, N, " ++ eT_arguments s ++ (if opt then ", opt_paths" else "") ++ "):"
    = equation_head s (g_n o) opt)%string).
  { unfold equation_head. cbn [String.append]. rewrite !append_assoc. reflexivity. }
  assert (H2 : (tab ++ """""""Compute the " ++ operator_text o ++ " amplitude.""""""" = pad 4 ++ equation_doc o)%string).
  { unfold equation_doc. rewrite !append_assoc. reflexivity. }
  rewrite H1, H2. rewrite <- !app_assoc. cbn [app]. do 2 f_equal.
  assert (H3 : (tab ++ (match s with RHS => "R" | LHS => "dz" end) ++ " = np.zeros(shape=(" ++ ("A" ++ String.concat "" (repeat ", N"%string (g_n o))) ++ "), dtype=complex)" = pad 4 ++ zeros_stmt s (g_n o))%string).
  { unfold zeros_stmt. rewrite !append_assoc. destruct s; reflexivity. }
  rewrite H3. destruct opt; reflexivity.
Qed.

Lemma call_neutral s p opt k : kind_ok k -> neutral (call_stmt s p opt k).
Proof.
  intros K. unfold call_stmt. apply neutral_app; [now apply neutral_plain, name_plain|].
  replace ("(" ++ equation_result s ++ ", " ++ parameters s ++ (if opt then ", optimized_" ++ k ++ "_paths" else "") ++ ")")%string
    with ("(" ++ (equation_result s ++ ", " ++ parameters s ++ (if opt then ", optimized_" ++ k ++ "_paths" else "")) ++ ")")%string by (rewrite !append_assoc; reflexivity).
  apply neutral_paren, neutral_plain. destruct K as [-> | ->], s, opt; reflexivity.
Qed.
Lemma zeros_neutral s p : neutral (zeros_stmt s p).
Proof.
  unfold zeros_stmt. set (X := String.concat "" (repeat ", N"%string p)).
  assert (N : neutral X) by (apply neutral_concat; [apply neutral_nil|]; apply Forall_forall; intros x Hx; apply repeat_spec in Hx as ->; now apply neutral_plain).
  replace (equation_result s ++ " = np.zeros(shape=(A" ++ X ++ "), dtype=complex)")%string
    with ((equation_result s ++ " = np.zeros") ++ ("(" ++ ("shape=" ++ ("(" ++ ("A" ++ X) ++ ")") ++ ", dtype=complex") ++ ")"))%string
    by (rewrite !append_assoc; cbn [String.append]; rewrite ?append_assoc; reflexivity).
  apply neutral_app; [apply neutral_plain; destruct s; reflexivity|]. apply neutral_paren. apply neutral_app; [now apply neutral_plain|].
  apply neutral_app; [|now apply neutral_plain]. apply neutral_paren. apply neutral_app; [now apply neutral_plain|exact N].
Qed.
Lemma equation_head_form s p opt : equation_head s p opt = (("def " ++ "compute_m0_n" ++ str_nat p ++ "_amplitude" ++ optimized opt ++ "(A, N, " ++ parameters s ++ (if opt then ", opt_paths" else "")) ++ "):")%string.
Proof. unfold equation_head. rewrite !append_assoc. reflexivity. Qed.
Lemma equation_head_neutral s p opt : neutral (equation_head s p opt).
Proof.
  replace (equation_head s p opt) with (("def compute_m0_n" ++ str_nat p ++ "_amplitude" ++ optimized opt) ++ ("(" ++ ("A, N, " ++ parameters s ++ (if opt then ", opt_paths" else "")) ++ ")") ++ ":")%string
    by (unfold equation_head; rewrite !append_assoc; cbn [String.append]; rewrite ?append_assoc; reflexivity).
  apply neutral_app; [apply neutral_plain; rewrite !no_special_app, str_nat_no_special; destruct opt; reflexivity|].
  apply neutral_app; [|now apply neutral_plain]. apply neutral_paren, neutral_plain. destruct s, opt; reflexivity.
Qed.
Lemma call_ends s p opt k : ends (call_stmt s p opt k) = true.
Proof. unfold call_stmt. do 6 apply ends_app. reflexivity. Qed.
Lemma call_not_head s p opt k : is_head (call_stmt s p opt k) = false.
Proof. unfold call_stmt. rewrite is_head_last, !last_char_app. reflexivity. Qed.
Lemma call_starts s p opt k : starts (call_stmt s p opt k) = true.
Proof. unfold call_stmt. apply starts_app, name_starts. Qed.
Lemma check_name x : In x check_names -> no_special x = true.
Proof. unfold check_names. intros [<-|[<-|[<-|[<-|[<-|[<-|[]]]]]]]; reflexivity. Qed.
Lemma in_firstn {A} (x : A) n l : In x (firstn n l) -> In x l.
Proof. intros H. rewrite <- (firstn_skipn n l). apply in_or_app. now left. Qed.

Lemma equation_opened s opt o : g_m o = 0 -> g_rank o = g_n o -> one_line (g_name o) -> opened (write_master_eT_zhz_compute_function s opt o) [equation_block s opt o].
Proof.
  intros M R O. rewrite (equation_text_is s opt o M R).
  assert (CH : forall x, In x (firstn (Nat.max 1 (g_n o)) check_names) -> neutral ("truncation.confirm_at_least_" ++ x ++ "()")).
  { intros x Hx. apply neutral_app; [now apply neutral_plain|]. apply neutral_app; [apply neutral_plain, check_name; now apply in_firstn in Hx|]. apply (neutral_paren ""), neutral_nil. }
  apply opened_lines; [discriminate| |].
  - unfold equation_lines. constructor; [apply equation_head_neutral|]. repeat (apply Forall_app; split).
    + constructor; [|constructor]. apply one_line_app; [reflexivity|]. unfold equation_doc. assert (one_line (operator_text o)) by now apply operator_one_line. ol; assumption.
    + apply Forall_map, Forall_forall. intros x Hx. apply one_line_app; [reflexivity|]. apply (CH x Hx).
    + repeat constructor.
    + constructor; [|constructor]. apply one_line_app; [reflexivity|]. apply zeros_neutral.
    + repeat constructor.
    + destruct opt; repeat constructor.
    + constructor; [|constructor]. destruct s; reflexivity.
    + constructor; [apply one_line_app; [reflexivity|apply call_neutral; now left]|]. constructor; [apply one_line_app; [reflexivity|apply call_neutral; now right]|].
      constructor; [|constructor]. destruct s; reflexivity.
    + repeat constructor.
  - unfold equation_lines, equation_block. apply (piece_block 0 _ _ 4).
    + apply (line_simple 0); [apply equation_head_neutral|reflexivity|]. rewrite equation_head_form. now apply ends_app.
    + rewrite equation_head_form. apply def_head.
    + lia.
    + discriminate.
    + refine (piece_app 4 _ _ [_] _ _ _); [apply piece_doc; discriminate|].
      apply piece_app.
      { set (l := firstn _ _) in *. assert (G : piece 4 (flat_map (fun x => [(pad 4 ++ "truncation.confirm_at_least_" ++ x ++ "()")%string]) l) (flat_map (fun x => [Simple ("truncation.confirm_at_least_" ++ x ++ "()")]) l)).
        { apply piece_flat_map. intros x Hx. apply piece_statement; [now apply CH|reflexivity|now do 2 apply ends_app|]. now rewrite is_head_last, !last_char_app. }
        rewrite !flat_map_concat_map in G. clear -G. assert (E : forall (A B : Type) (f : A -> B) m, List.concat (map (fun x => [f x]) m) = map f m) by (intros A B f; induction m; cbn; congruence). now rewrite !E in G. }
      refine (piece_app 4 [_; _] _ [] _ (piece_skips 4 _ _) _); [repeat constructor; exact (line_comment 4 _)|].
      refine (piece_app 4 [_] _ [_] _ _ _).
      { apply piece_statement; [apply zeros_neutral|destruct s; reflexivity|unfold zeros_stmt; now do 3 apply ends_app|]. unfold zeros_stmt. now rewrite is_head_last, !last_char_app. }
      refine (piece_app 4 [_] _ [] _ (piece_skip 4 _ (line_blank 0)) _).
      apply piece_app.
      { destruct opt; [|apply piece_nil]. refine (piece_app 4 [_] [_; _] [] [_] (piece_skip 4 _ (line_comment 4 _)) _).
        refine (piece_app 4 [_] [_] [_] [] _ (piece_skip 4 _ (line_blank 0))). apply piece_statement; try reflexivity. now apply neutral_plain. }
      refine (piece_app 4 [_] _ [] _ (piece_skip 4 _ (line_comment 4 _)) _).
      refine (piece_app 4 [_; _; _] [_] [_; _; _] [] _ (piece_skip 4 _ (line_blank 0))).
      refine (piece_app 4 [_] [_; _] [_] [_; _] _ _); [apply piece_statement; [apply call_neutral; now left|apply call_starts|apply call_ends|apply call_not_head]|].
      refine (piece_app 4 [_] [_] [_] [_] _ _); [apply piece_statement; [apply call_neutral; now right|apply call_starts|apply call_ends|apply call_not_head]|].
      apply piece_statement; try (destruct s; reflexivity). apply neutral_plain. destruct s; reflexivity.
Qed.

(** ** The file *)

Lemma mapM_closed {A} (f : A -> res string) (g : A -> list stmt) l : forall ys, mapM f l = Ok ys ->
  (forall x y, In x l -> f x = Ok y -> closed y (g x)) -> closed (concat_str ys) (flat_map g l).
Proof.
  induction l as [|a l IH]; intros ys E H; cbn [mapM] in E.
  - injection E as <-. apply closed_nil.
  - destruct (f a) as [y|] eqn:Ea; [|discriminate]. cbn [bind] in E. destruct (mapM f l) as [zs|]; [|discriminate]. cbn [bind] in E.
    assert (X : ys = y :: zs) by (now injection E). subst ys. change (concat_str (y :: zs)) with (y ++ concat_str zs)%string. cbn [flat_map].
    apply closed_app; [apply (H a y); [now left|exact Ea]|]. apply IH; [reflexivity|]. intros x z Hx. apply H. now right.
Qed.
Lemma number_flat_map {A B} (g : A -> list B) (l : list A) : flat_map (fun io : nat * A => g (snd io)) (number l) = flat_map g l.
Proof.
  unfold number, range. rewrite Nat.sub_0_r. generalize 0. induction l as [|a l IH]; intros i; [reflexivity|]. cbn [List.length seq combine flat_map snd]. now rewrite IH.
Qed.
Lemma in_number {A} (l : list A) i x : In (i, x) (number l) -> In x l.
Proof. apply in_combine_r. Qed.

Lemma silent_comment t : one_line t -> silent (String "#" t).
Proof. intros H. split; [exact H|exact (line_comment 0 t)]. Qed.
Lemma silent_named name w : one_line name -> silent (named_line name w).
Proof.
  intros H. apply (silent_comment (" " ++ str_repeat "-" w ++ " " ++ name ++ " " ++ str_repeat "-" w ++ " #")%string).
  assert (one_line (str_repeat "-" w)) by now apply one_line_repeat. ol; assumption.
Qed.
Lemma closed_spaced name w line : one_line name -> silent line -> closed (spaced_named_line_gen name w (line ++ nl)) [].
Proof.
  intros H L. unfold spaced_named_line_gen. apply (closed_app _ _ [] []); [now apply closed_comment|].
  rewrite <- append_assoc. apply (closed_app _ _ [] []); [now apply closed_comment, silent_named|now apply closed_comment].
Qed.
Lemma closed_long name w : one_line name -> closed (long_spaced_named_line name w) [].
Proof.
  intros H. refine (closed_spaced name w ("# " ++ str_repeat "-" 109 ++ " #") H _). apply (silent_comment (" " ++ str_repeat "-" 109 ++ " #")). reflexivity.
Qed.
Lemma closed_short name w : one_line name -> closed (spaced_named_line name w) [].
Proof.
  intros H. refine (closed_spaced name w ("# " ++ str_repeat "-" 75 ++ " #") H _). apply (silent_comment (" " ++ str_repeat "-" 75 ++ " #")). reflexivity.
Qed.

Lemma wrap_closed ops rn n w body t (g : gop -> list stmt) : one_line rn -> one_line n -> (forall o, In o ops -> one_line (g_name o)) ->
  wrap_generation ops rn n w body = Ok t -> (forall o b, In o ops -> body o = Ok b -> opened b (g o)) -> closed t (flat_map g ops).
Proof.
  intros R N O E H. unfold wrap_generation in E. match type of E with context [mapM ?f ?l] => destruct (mapM f l) as [ys|] eqn:Em; [|discriminate] end.
  cbn [bind] in E. assert (X : t = concat_str ys) by (now injection E). subst t. rewrite <- number_flat_map. apply (mapM_closed _ _ _ _ Em).
  intros [i o] y Hi Ey. pose proof (in_number _ _ _ Hi) as Ho. destruct (body o) as [b|] eqn:Eb; [|discriminate]. cbn [bind] in Ey.
  assert (Y : forall v, Ok v = Ok y -> v = y) by (now injection 1). apply Y in Ey. rewrite <- Ey. cbn [snd].
  apply (closed_app _ _ []).
  - destruct (Nat.ltb _ _); [|apply closed_nil]. apply (closed_app _ _ [] []); [|apply closed_nl]. apply closed_short.
    apply one_line_app; [reflexivity|]. apply one_line_app; [unfold width2; destruct (Nat.ltb _ _); ol|]. now apply one_line_app.
  - apply (closed_app nl _ []); [apply closed_nl|]. apply closed_silent; [|now apply (H o)]. apply silent_named.
    apply one_line_app; [apply operator_one_line; now apply O|]. now apply one_line_app.
Qed.

Lemma imports_closed : closed eT_zhz_import_statements (map Simple eT_imports).
Proof.
  apply (closed_lines ["# system imports"; "from math import factorial"; ""; "# third party imports"; "import numpy as np";
     "import opt_einsum as oe"; ""; "# local imports"; "from .symmetrize import symmetrize_tensor";
     "from ..log_conf import log"; ""]%string); [repeat constructor|].
  exists (map (pair 0) eT_imports). split; [reflexivity|]. repeat (apply reads_simple; [reflexivity|]). constructor.
Qed.

Section File.
  Variables (s : side) (g : bool) (H CC e P : nat) (ser : list series_term).
  Let ops := mkops H CC (generate_pruned_H_operator H) (generate_z_operator CC g) ser.
  Let ps := eT_projections CC P.
  Definition bodies_of (o : gop) : ebody * ebody :=
    match generate_eT_zhz_einsums s o ops true with Ok b => b | Err _ => (EInvalid, EInvalid) end.
  Definition half (opt : bool) : list stmt :=
    flat_map (fun o => terms_blocks s g opt o (bodies_of o)) ps ++ flat_map (fun o => [equation_block s opt o]) ps.
  Definition program : list stmt := map Simple eT_imports ++ half false ++ half true.

  Hypothesis HCC : 1 <= CC <= 8.
  Hypothesis ET : generate_eT_taylor_expansion 1 e = Ok ser.

  Lemma ps_not_nil : ps <> [].
  Proof. destruct (proj2 (projections_of CC P 0)) as (o & Ho & _); [lia|]. intros E. unfold ps in E. rewrite E in Ho. destruct Ho. Qed.

  Lemma terms_closed opt t : wrap_generation ps "FUNCTIONS" "TERMS" 28 (construct_eT_zhz_compute_function s ops g opt) = Ok t ->
    closed t (flat_map (fun o => terms_blocks s g opt o (bodies_of o)) ps).
  Proof.
    intros E. refine (wrap_closed _ _ _ _ _ _ _ _ _ _ E _); [reflexivity|reflexivity| |].
    - intros o Ho. apply (projection_facts _ _ _ Ho).
    - intros o b Ho Eb. destruct (projection_facts _ _ _ Ho) as (M & _ & _ & _ & O).
      destruct (construct_opened s H CC e g ser opt o b ltac:(lia) ET M O Eb) as (bb & E1 & E2). unfold bodies_of. fold ops in E1. now rewrite E1.
  Qed.
  Lemma equations_opened opt : opened (concat_str (map (write_master_eT_zhz_compute_function s opt) ps)) (flat_map (fun o => [equation_block s opt o]) ps).
  Proof. apply opened_concat; [apply ps_not_nil|]. intros o Ho. destruct (projection_facts _ _ _ Ho) as (M & _ & _ & R & O). now apply equation_opened. Qed.

  Lemma program_read text : generate_eT_zhz_python s g H CC 1 e P = Ok text -> python text program.
  Proof.
    unfold generate_eT_zhz_python, generate_eT_zhz_python_file_contents. rewrite ET. cbn [bind]. fold ops ps.
    destruct (wrap_generation ps "FUNCTIONS" "TERMS" 28 (construct_eT_zhz_compute_function s ops g false)) as [t1|] eqn:E1; [|discriminate]. cbn [bind].
    destruct (wrap_generation ps "FUNCTIONS" "TERMS" 28 (construct_eT_zhz_compute_function s ops g true)) as [t2|] eqn:E2; [|discriminate]. cbn [bind].
    intros E. assert (Y : forall a b : string, Ok a = Ok b -> a = b) by (now injection 1). apply Y in E. subst text.
    apply terms_closed in E1. apply terms_closed in E2. pose proof (equations_opened false) as M1. pose proof (equations_opened true) as M2.
    revert M1 M2. generalize (concat_str (map (write_master_eT_zhz_compute_function s false) ps)), (concat_str (map (write_master_eT_zhz_compute_function s true) ps)). intros m1 m2 M1 M2.
    set (L1 := long_spaced_named_line "DEFAULT FUNCTIONS" 45). set (L2 := long_spaced_named_line "OPTIMIZED FUNCTIONS" 44).
    assert (C1 : closed L1 []) by now apply closed_long. assert (C2 : closed L2 []) by now apply closed_long.
    set (N1 := named_line "INDIVIDUAL TERMS" 45). set (N2 := named_line "RESIDUAL FUNCTIONS" 45). set (N3 := named_line "OPTIMIZED PATHS FUNCTION" 45).
    assert (S1 : silent N1) by now apply silent_named. assert (S2 : silent N2) by now apply silent_named. assert (S3 : silent N3) by now apply silent_named.
    assert (HALF : forall L t m opt, closed L [] -> closed t (flat_map (fun o => terms_blocks s g opt o (bodies_of o)) ps) -> opened m (flat_map (fun o => [equation_block s opt o]) ps) ->
      closed (L ++ nl ++ (N1 ++ nl) ++ nl ++ t ++ nl ++ (N2 ++ m)) (half opt)).
    { intros L t m opt CL Ct Om. apply (closed_app _ _ []); [exact CL|]. apply (closed_app _ _ []); [apply closed_nl|]. apply (closed_app _ _ []); [now apply closed_comment|].
      apply (closed_app _ _ []); [apply closed_nl|]. apply closed_app; [exact Ct|]. apply (closed_app _ _ []); [apply closed_nl|]. now apply closed_silent. }
    replace (eT_zhz_import_statements ++ L1 ++ nl ++ N1 ++ nl ++ nl ++ t1 ++ nl ++ N2 ++ m1 ++ L2 ++ nl ++ N1 ++ nl ++ nl ++ t2 ++ nl ++ N2 ++ m2 ++ nl ++ N3)%string
      with ((eT_zhz_import_statements ++ ((L1 ++ nl ++ (N1 ++ nl) ++ nl ++ t1 ++ nl ++ (N2 ++ m1)) ++ (L2 ++ nl ++ (N1 ++ nl) ++ nl ++ t2 ++ nl ++ (N2 ++ m2)) ++ nl)) ++ N3)%string
      by (rewrite !append_assoc; reflexivity).
    apply closed_python; [|exact S3]. unfold program. apply closed_app; [exact imports_closed|]. apply closed_app; [now apply HALF|].
    rewrite <- (app_nil_r (half true)). apply closed_app; [now apply HALF|apply closed_nl].
  Qed.
End File.

(** ** The functions of the program *)

Lemma cut_at (c : ascii) a a' r r' : has_char c a = false -> has_char c a' = false -> (a ++ String c r = a' ++ String c r')%string -> a = a' /\ r = r'.
Proof.
  revert a'. induction a as [|x a IH]; intros [|y a'] A A' E; cbn [String.append] in E.
  - injection E as <-. auto.
  - exfalso. cbn [has_char] in A'. apply orb_false_iff in A' as [A' _]. assert (X : c = y) by (now injection E). subst y. now rewrite Ascii.eqb_refl in A'.
  - exfalso. cbn [has_char] in A. apply orb_false_iff in A as [A _]. assert (X : x = c) by (now injection E). subst x. now rewrite Ascii.eqb_refl in A.
  - cbn [has_char] in A, A'. apply orb_false_iff in A as [_ A]. apply orb_false_iff in A' as [_ A'].
    assert (X : x = y /\ (a ++ String c r = a' ++ String c r')%string) by (injection E; auto). destruct X as [-> X]. destruct (IH a' A A' X) as [-> ->]. auto.
Qed.

(** functions by number: the terms without and with amplitudes, the residual *)
Definition head_of (s : side) (x : nat * nat * bool) : string :=
  let '(k, p, opt) := x in
  match k with 0 => terms_head s p "HZ" opt | 1 => terms_head s p "eT_HZ" opt | _ => equation_head s p opt end.
Definition before (s : side) (k : nat) : string :=
  match s, k with RHS, 0 | RHS, 1 => "def add_m0_n" | _, _ => "def compute_m0_n" end.
Definition after (s : side) (k : nat) (opt : bool) : string :=
  match k with
  | 0 | 1 => (if Nat.eqb k 0 then "HZ" else "eT_HZ") ++ (match s with RHS => "_terms" | LHS => "_LHS" end) ++ optimized opt ++ "(" ++ result_name s ++ ", " ++ parameters s ++ (if opt then ", opt_einsum" else "") ++ "):"
  | _ => "amplitude" ++ optimized opt ++ "(A, N, " ++ parameters s ++ (if opt then ", opt_paths" else "") ++ "):"
  end%string.
Lemma head_split s k p opt : head_of s (k, p, opt) = (before s k ++ str_nat p ++ String "_" (after s k opt))%string.
Proof.
  destruct k as [|[|k]]; cbn [head_of]; unfold terms_head, terms_name, equation_head, before, after; destruct s; cbn [String.append Nat.eqb]; rewrite ?append_assoc; cbn [String.append]; rewrite ?append_assoc; reflexivity.
Qed.
Lemma head_inj s x y : fst (fst x) <= 2 -> fst (fst y) <= 2 -> head_of s x = head_of s y -> x = y.
Proof.
  destruct x as [[k p] o], y as [[k' p'] o']. cbn [fst]. intros K K' E. rewrite !head_split in E.
  assert (N : forall n, has_char "_" (str_nat n) = false) by (intros n; now apply str_nat_no_char).
  assert (B : before s k = before s k').
  { destruct s, k as [|[|[|k]]], k' as [|[|[|k']]]; try lia; try reflexivity; cbn [before String.append] in E; discriminate E. }
  rewrite B in E.
  assert (X : (str_nat p ++ String "_" (after s k o) = str_nat p' ++ String "_" (after s k' o'))%string).
  { revert E. generalize (before s k'). induction s0 as [|c t IH]; [auto|]. cbn [String.append]. intros E. apply IH. now injection E. }
  apply cut_at in X as [X1 X2]; [|apply N|apply N]. apply str_nat_inj in X1 as ->. clear -K K' X2.
  destruct s, o, o', k as [|[|[|k]]], k' as [|[|[|k']]]; try lia; try reflexivity; discriminate X2.
Qed.

Section Program.
  Variables (s : side) (g : bool) (H CC e P : nat) (ser : list series_term).
  Let ps := eT_projections CC P.
  Definition keys (opt : bool) : list (nat * nat * bool) :=
    flat_map (fun o => [(0, g_n o, opt); (1, g_n o, opt)]) ps ++ map (fun o => (2, g_n o, opt)) ps.

  Lemma heads_app a b : heads (a ++ b) = heads a ++ heads b.
  Proof. apply flat_map_app. Qed.
  Lemma heads_half opt : heads (half s g H CC P ser opt) = map (head_of s) (keys opt).
  Proof.
    unfold half, keys. fold ps. rewrite heads_app, map_app. f_equal.
    - induction ps as [|o l IH]; [reflexivity|]. cbn [flat_map]. rewrite heads_app, map_app, IH. reflexivity.
    - induction ps as [|o l IH]; [reflexivity|]. cbn [flat_map map]. rewrite heads_app, IH. reflexivity.
  Qed.
  Lemma heads_program : heads (program s g H CC P ser) = map (head_of s) (keys false ++ keys true).
  Proof. unfold program. rewrite !heads_app, !heads_half, map_app. reflexivity. Qed.

  Lemma ps_distinct : NoDup (map g_n ps).
  Proof.
    assert (N : NoDup ps) by (apply NoDup_filter, projections_exact).
    assert (I : forall a b, In a ps -> In b ps -> g_n a = g_n b -> a = b).
    { intros a b Ha Hb E. apply filter_In in Ha as [Ha Ma]. apply filter_In in Hb as [Hb Mb]. apply Nat.eqb_eq in Ma, Mb.
      apply projections_exact in Ha as (Sa & Ra & _). apply projections_exact in Hb as (Sb & Rb & _). apply spells_name in Sa, Sb.
      destruct a as [na ra ma xa], b as [nb rb mb xb]. cbn [g_name g_rank g_m g_n] in *. subst. reflexivity. }
    clear -N I. induction N as [|a l A N IH]; [constructor|]. cbn [map]. constructor; [|apply IH; intros; apply I; auto; now right].
    intros K. apply in_map_iff in K as (b & Eb & Hb). assert (b = a) by (apply I; [now right|now left|exact Eb]). now subst.
  Qed.
  Lemma in_keys opt k p o : In (k, p, o) (keys opt) <-> k <= 2 /\ p <= CC /\ p <= P /\ o = opt.
  Proof.
    assert (I : forall q, In q (map g_n ps) <-> q <= CC /\ q <= P).
    { intros q. rewrite in_map_iff, <- (projections_of CC P q). split; intros (x & A & B); exists x; auto. }
    unfold keys. rewrite in_app_iff, in_flat_map, in_map_iff. split.
    - intros [(x & Hx & [E|[E|[]]])|(x & E & Hx)]; apply pair_equal_spec in E as [E <-]; apply pair_equal_spec in E as [<- <-];
        assert (In (g_n x) (map g_n ps)) as Y by (now apply in_map); apply I in Y; repeat split; lia.
    - intros (K & C1 & C2 & ->). assert (Y : In p (map g_n ps)) by (apply I; lia). apply in_map_iff in Y as (x & <- & Hx).
      destruct k as [|[|[|k]]]; [left|left|right|lia]; exists x; cbn; auto.
  Qed.
  Lemma keys_distinct : NoDup (keys false ++ keys true).
  Proof.
    assert (D : forall opt, NoDup (keys opt)).
    { intros opt. unfold keys. pose proof ps_distinct as N. revert N. generalize ps. intros l N.
      assert (A : NoDup (flat_map (fun o => [(0, g_n o, opt); (1, g_n o, opt)]) l)).
      { induction l as [|o l IH]; [constructor|]. cbn [map] in N. apply NoDup_cons_iff in N as [N1 N2]. cbn [flat_map app].
        assert (Z : forall k, ~ In (k, g_n o, opt) (flat_map (fun o => [(0, g_n o, opt); (1, g_n o, opt)]) l)).
        { intros k K. apply in_flat_map in K as (x & Hx & [E|[E|[]]]); apply N1; apply in_map_iff; exists x; (split; [|exact Hx]); now injection E. }
        constructor; [intros [E|K]; [discriminate|now apply Z in K]|]. constructor; [apply Z|]. now apply IH. }
      assert (B : NoDup (map (fun o => (2, g_n o, opt)) l)).
      { apply (NoDup_map_inv (fun x : nat * nat * bool => snd (fst x))). rewrite map_map. exact N. }
      apply NoDup_app_intro; [exact A|exact B|]. intros x Hx Hy. apply in_flat_map in Hx as (y & _ & Hx). apply in_map_iff in Hy as (z & <- & _). destruct Hx as [E|[E|[]]]; discriminate E. }
    apply NoDup_app_intro; [apply D|apply D|]. intros [[k p] o] A B. apply in_keys in A as (_ & _ & _ & ->). apply in_keys in B as (_ & _ & _ & B). discriminate.
  Qed.
End Program.

Lemma exec_nothing flag b : Forall (fun x => match x with Block _ _ => True | _ => False end) b -> exec flag b = [].
Proof. induction 1 as [|x b X _ IH]; [reflexivity|]. destruct x; try destruct X. exact IH. Qed.
Lemma exec_program flag s g H CC P ser : exec flag (program s g H CC P ser) = eT_imports.
Proof.
  unfold program. rewrite !exec_app. assert (E : forall opt, exec flag (half s g H CC P ser opt) = []).
  { intros opt. apply exec_nothing. unfold half. apply Forall_app. split; apply Forall_forall; intros x Hx; apply in_flat_map in Hx as (o & _ & Hx).
    - destruct Hx as [<-|[<-|[]]]; exact I.
    - destruct Hx as [<-|[]]; exact I. }
  rewrite !E. reflexivity.
Qed.

Theorem file_program s g H CC e P text : 1 <= CC <= 8 -> generate_eT_zhz_python s g H CC 1 e P = Ok text ->
  exists prog, python text prog /\
    (forall flag, exec flag prog = eT_imports) /\
    NoDup (heads prog) /\
    (forall h, In h (heads prog) <-> exists p opt, p <= CC /\ p <= P /\
       (h = terms_head s p "HZ" opt \/ h = terms_head s p "eT_HZ" opt \/ h = equation_head s p opt)) /\
    (forall p opt, p <= CC -> p <= P ->
       defines_terms s g prog (terms_head s p "HZ" opt) (fun q m n k c => q = 0 /\ of_ansatz s H CC p q m n k c /\ ~ bare_term p q m n k) /\
       defines_terms s g prog (terms_head s p "eT_HZ" opt) (fun q m n k c => 1 <= q <= e /\ of_ansatz s H CC p q m n k c) /\
       defines_equation s prog p opt).
Proof.
  intros HCC E. assert (exists ser, generate_eT_taylor_expansion 1 e = Ok ser) as [ser ET].
  { unfold generate_eT_zhz_python, generate_eT_zhz_python_file_contents in E. destruct (generate_eT_taylor_expansion 1 e) as [ser|]; [eauto|discriminate]. }
  exists (program s g H CC P ser). split; [exact (program_read s g H CC e P ser HCC ET text E)|]. split; [intros; apply exec_program|].
  assert (KB : forall x, In x (keys CC P false ++ keys CC P true) -> fst (fst x) <= 2) by (intros [[k p] o] Hx; apply in_app_iff in Hx as [Hx|Hx]; apply in_keys in Hx; apply Hx).
  split.
  { rewrite heads_program. pose proof (keys_distinct CC P) as D. revert KB D. generalize (keys CC P false ++ keys CC P true). clear. intros l KB D.
    induction D as [|x l X D IH]; [constructor|]. cbn [map]. constructor; [|apply IH; intros; apply KB; now right].
    intros K. apply in_map_iff in K as (y & Ey & Hy). apply head_inj in Ey; [|apply KB; now right|apply KB; now left]. now subst. }
  split.
  { intros h. rewrite heads_program, in_map_iff. split.
    - intros ([[k p] o] & <- & Hx). exists p, o. apply in_app_iff in Hx as [Hx|Hx]; apply in_keys in Hx as (K & A & B & _); (split; [exact A|]; split; [exact B|]);
        destruct k as [|[|k]]; cbn [head_of]; auto.
    - intros (p & o & A & B & C). assert (Z : forall k, k <= 2 -> In (k, p, o) (keys CC P false ++ keys CC P true)).
      { intros k K. apply in_app_iff. destruct o; [right|left]; apply in_keys; auto. }
      destruct C as [-> | [-> | ->]]; [exists (0, p, o)|exists (1, p, o)|exists (2, p, o)]; (split; [reflexivity|apply Z; lia]). }
  intros p opt A B. destruct (proj2 (projections_of CC P p) (conj A B)) as (o & Ho & Np).
  destruct (projection_facts _ _ _ Ho) as (M & _ & _ & R & O).
  set (ops := mkops H CC (generate_pruned_H_operator H) (generate_z_operator CC g) ser).
  assert (exists b, generate_eT_zhz_einsums s o ops true = Ok b) as [[b1 b2] Eb].
  { apply (function_iff s H CC e g ser false o ET). unfold generate_eT_zhz_python, generate_eT_zhz_python_file_contents in E. rewrite ET in E. cbn [bind] in E. fold ops in E.
    assert (W : exists t, wrap_generation (eT_projections CC P) "FUNCTIONS" "TERMS" 28 (construct_eT_zhz_compute_function s ops g false) = Ok t).
    { destruct (wrap_generation (eT_projections CC P) "FUNCTIONS" "TERMS" 28 (construct_eT_zhz_compute_function s ops g false)); [eauto|discriminate]. }
    exact (proj1 (wrap_iff _ _ _ _ _) W o Ho). }
  assert (BO : bodies_of s g H CC ser o = (b1, b2)) by (unfold bodies_of; fold ops; now rewrite Eb).
  destruct (einsums_read s o H CC e g ser b1 b2 M ltac:(lia) ET Eb) as [R1 R2].
  assert (G := fun fh ft fz => ground_functions s o H CC e g ser b1 b2 fh ft fz M ltac:(rewrite Np; exact A) HCC ET Eb). rewrite Np in G.
  assert (IH : forall x, In x (half s g H CC P ser opt) -> In x (program s g H CC P ser)).
  { intros x Hx. unfold program. apply in_or_app. right. apply in_or_app. destruct opt; auto. }
  assert (IT : forall x, In x (terms_blocks s g opt o (b1, b2)) -> In x (program s g H CC P ser)).
  { intros x Hx. apply IH. unfold half. apply in_or_app. left. apply in_flat_map. exists o. split; [exact Ho|]. now rewrite BO. }
  split; [|split].
  - exists (doc_of o opt "HZ"), (body_stmts s b1), (others_of g s b1). split; [apply IT; left; unfold terms_block; rewrite Np; reflexivity|].
    split; [reflexivity|]. split; [|destruct g; reflexivity]. apply body_adds_exactly; [exact R1|]. intros. apply G.
  - exists (doc_of o opt "eT_HZ"), (body_stmts s b2), (others_of g s b2). split; [apply IT; right; left; unfold terms_block; rewrite Np; reflexivity|].
    split; [reflexivity|]. split; [|destruct g; reflexivity]. apply body_adds_exactly; [exact R2|]. intros. apply G.
  - exists (equation_doc o). split; [|reflexivity]. apply IH. unfold half. apply in_or_app. right. apply in_flat_map. exists o. split; [exact Ho|]. left.
    unfold equation_block. rewrite Np. destruct opt; reflexivity.
Qed.

(** The text of a body on its own. *)
Lemma written_python s H CC l b : write_third_eTz_einsum_python s H CC l = Ok b ->
  (forall t, In t l -> list_max (map et_rank (tt_ts t)) <= CC) ->
  exists prog, python (join nl (render_ebody s b)) prog /\ body_adds s prog (fun fh ft fz => run_ebody fh ft fz b).
Proof.
  intros E HT. destruct (written_reads s H CC l b E HT) as (P & A & F). exists (body_stmts s b). split; [|exact A].
  apply (proj1 (piece_python _ _)). rewrite lines_of_join; [exact P| |now apply no_doc_lines].
  intros Z. rewrite Z in P. apply (proj1 A). exact (piece_empty_lines _ _ P).
Qed.
