(** The file of the full coupled cluster equations, read as python. *)
From Coq Require Import List Arith Bool Ascii String Lia Permutation.
From Verif Require Import PyBase PyStr ModelHelper ModelW ModelFullCC ModelPrefactor ModelFullCCPy SpecFullCC SpecFullCCPy SpecPython SpecEtText SpecFullCCText
  PyBaseFacts ProofsStr ProofsW ProofsFullCC ProofsPython ProofsFullCCBuckets ProofsFullCCPaths ProofsFullCCFile ProofsEtRead ProofsEtProgram ProofsFullCCRead.
Import ListNotations.
Local Open Scope nat_scope.
Local Open Scope list_scope.

(** ** Functions *)

Definition fhead (name args : string) : string := ("def " ++ name ++ "(" ++ args ++ "):")%string.
Lemma fhead_neutral name args : no_special name = true -> no_special args = true -> neutral (fhead name args).
Proof.
  intros N A. unfold fhead. replace ("def " ++ name ++ "(" ++ args ++ "):")%string with (("def " ++ name) ++ ("(" ++ args ++ ")") ++ ":")%string
    by (rewrite !append_assoc; cbn [String.append]; rewrite ?append_assoc; reflexivity).
  apply neutral_app; [apply neutral_app; now apply neutral_plain|]. apply neutral_app; [apply neutral_paren|]; now apply neutral_plain.
Qed.
Lemma fhead_other name args : other_head (fhead name args) = true.
Proof.
  unfold fhead. replace ("def " ++ name ++ "(" ++ args ++ "):")%string with (("def " ++ name ++ "(" ++ args) ++ "):")%string by (rewrite !append_assoc; reflexivity). apply def_head.
Qed.
Lemma function_opened name args inner b : no_special name = true -> no_special args = true -> b <> [] -> Forall one_line inner -> piece 4 inner b ->
  opened (join nl (""%string :: fhead name args :: inner) ++ nl) [Block (fhead name args) b].
Proof.
  intros N A NE O P. apply opened_lines; [discriminate| |].
  - constructor; [now apply fhead_neutral|exact O].
  - apply (piece_block 0 _ _ 4); [|apply fhead_other|lia|exact NE|exact P]. apply (line_simple 0); [now apply fhead_neutral|reflexivity|]. unfold fhead. now do 4 apply ends_app.
Qed.

Lemma stmt_piece i t : no_special t = true -> starts t = true -> ends t = true -> is_head t = false -> piece i [(pad i ++ t)%string] [Simple t].
Proof. intros N S0 E H. apply piece_statement; auto. now apply neutral_plain. Qed.

Lemma ok_piece i t : neutral t /\ starts t = true /\ ends t = true /\ is_head t = false -> piece i [(pad i ++ t)%string] [Simple t].
Proof. intros (N & S0 & E & H). now apply piece_statement. Qed.

Definition readable_lines (lines : list string) (b : list stmt) : Prop := piece 0 lines b /\ b <> [] /\ Forall no_doc lines.

Lemma indent_piece lines b : readable_lines lines b -> piece 8 (indent_body lines) b.
Proof. intros (P & _). exact (piece_indent 8 0 _ _ P). Qed.
Lemma indent_one_line lines b : readable_lines lines b -> Forall one_line (indent_body lines).
Proof.
  intros (_ & _ & F). apply no_doc_lines in F. unfold indent_body. apply Forall_map. eapply Forall_impl; [|exact F]. intros l H. apply one_line_rstrip, one_line_app; [reflexivity|exact H].
Qed.

Definition hot_stmt : string := "raise NotImplementedError('Hot Band amplitudes not implemented properly and have not been theoretically verified!')".
Lemma hot_piece i : piece i [(pad i ++ hot_band)%string] [no_hot_band].
Proof.
  apply (piece_statement i hot_stmt); try reflexivity.
  apply (neutral_app "raise NotImplementedError" "('Hot Band amplitudes not implemented properly and have not been theoretically verified!')"); [now apply neutral_plain|].
  apply (neutral_paren "'Hot Band amplitudes not implemented properly and have not been theoretically verified!'").
  apply (neutral_quoted "Hot Band amplitudes not implemented properly and have not been theoretically verified!"). split; reflexivity.
Qed.
Lemma if_piece_hot lines b : readable_lines lines b ->
  piece 4 ((tab ++ "if ansatz.ground_state:")%string :: indent_body lines ++ (tab ++ "else:")%string :: [(tabs 2 ++ hot_band)%string]) [If "ansatz.ground_state" b [no_hot_band]].
Proof.
  intros R. apply (piece_if_else 4 _ _ _ 8 _ 8); try reflexivity; try lia; try discriminate.
  - apply R. - now apply indent_piece. - apply (hot_piece 8).
Qed.

(** ** The functions of a group *)

Definition gname (i : nat) : string * string := nth i groups (""%string, ""%string).
Lemma types_are i : i < 3 -> nth i term_types ""%string = fst (gname i) /\ nth i optnames ""%string = snd (gname i).
Proof. intros H. destruct i as [|[|[|i]]]; [| | |lia]; split; reflexivity. Qed.
Lemma group_plain i : i < 3 -> no_special (fst (gname i)) = true /\ no_special (snd (gname i)) = true.
Proof. intros H. destruct i as [|[|[|i]]]; [| | |lia]; split; reflexivity. Qed.
Lemma projection_plain m n : no_special (of_projection m n) = true.
Proof. unfold of_projection. rewrite !no_special_app, !str_nat_no_special. reflexivity. Qed.

Definition terms_args (g : string * string) (opt : bool) : string :=
  ("R, ansatz, truncation, h_args, t_args" ++ (if opt then ", opt_" ++ snd g ++ "_path_list" else ""))%string.
Lemma terms_head_is m n g opt : cc_terms_head m n g opt = fhead (cc_terms_name m n g opt) (terms_args g opt).
Proof. unfold cc_terms_head, fhead, terms_args. rewrite !append_assoc. reflexivity. Qed.
Lemma terms_name_plain m n i opt : i < 3 -> no_special (cc_terms_name m n (gname i) opt) = true.
Proof. intros H. unfold cc_terms_name. rewrite !no_special_app, projection_plain, (proj1 (group_plain i H)). destruct opt; reflexivity. Qed.
Lemma terms_args_plain i opt : i < 3 -> no_special (terms_args (gname i) opt) = true.
Proof. intros H. unfold terms_args. destruct i as [|[|[|i]]], opt; try lia; reflexivity. Qed.

Definition terms_doc (o : gop) (g : string * string) (opt : bool) : string :=
  (triple ++ ((if opt then "Optimized calculation of" else "Calculate") ++ " the " ++ operator_text o ++ " " ++ fst g ++ " terms.") ++ triple)%string.
Definition iter_text (g : string * string) : string := ("optimized_einsum = iter(opt_" ++ snd g ++ "_path_list)")%string.
Definition terms_block (o : gop) (opt : bool) (g : string * string) (b : list stmt) : stmt :=
  Block (cc_terms_head (g_m o) (g_n o) g opt)
    ([Simple (terms_doc o g opt)] ++ (if opt then [Simple (iter_text g)] else [])
     ++ [If "ansatz.ground_state" b [no_hot_band]; Simple "return"]).

Definition terms_inner (o : gop) (opt : bool) (g : string * string) (lines : list string) : list string :=
  [(pad 4 ++ terms_doc o g opt)%string] ++ [""%string]
  ++ (if opt then [(pad 4 ++ "# make an iterable out of the `opt_" ++ snd g ++ "_path_list`")%string; (pad 4 ++ iter_text g)%string; ""%string] else [])
  ++ ((tab ++ "if ansatz.ground_state:")%string :: indent_body lines ++ (tab ++ "else:")%string :: [(tabs 2 ++ hot_band)%string])
  ++ [(pad 4 ++ "return")%string] ++ [""%string].
Lemma terms_text_is o opt i lines : i < 3 ->
  compute_function_text o opt i lines = ""%string :: fhead (cc_terms_name (g_m o) (g_n o) (gname i) opt) (terms_args (gname i) opt) :: terms_inner o opt (gname i) lines.
Proof.
  intros H. destruct (types_are i H) as [T1 T2]. unfold compute_function_text. rewrite T1, T2. rewrite <- terms_head_is. unfold cc_terms_head, cc_terms_name, terms_inner, terms_doc.
  change (specifier o) with (of_projection (g_m o) (g_n o)). cbn [app]. rewrite !append_assoc. cbn [String.append]. rewrite ?append_assoc.
  do 4 f_equal. destruct opt; cbn [app]; rewrite <- ?app_assoc; cbn [app]; reflexivity.
Qed.

Lemma iter_ok i : i < 3 -> neutral (iter_text (gname i)) /\ starts (iter_text (gname i)) = true /\ ends (iter_text (gname i)) = true /\ is_head (iter_text (gname i)) = false.
Proof.
  intros H. split; [|destruct i as [|[|[|i]]]; [| | |lia]; repeat split; reflexivity].
  unfold iter_text. replace ("optimized_einsum = iter(opt_" ++ snd (gname i) ++ "_path_list)")%string with ("optimized_einsum = iter" ++ ("(" ++ ("opt_" ++ snd (gname i) ++ "_path_list") ++ ")"))%string
    by (rewrite !append_assoc; reflexivity).
  apply neutral_app; [now apply neutral_plain|]. apply neutral_paren, neutral_plain. rewrite !no_special_app, (proj2 (group_plain i H)). reflexivity.
Qed.
Lemma group_one_line i : i < 3 -> one_line (fst (gname i)) /\ one_line (snd (gname i)).
Proof. intros H. destruct i as [|[|[|i]]]; [| | |lia]; split; reflexivity. Qed.

Lemma terms_opened o opt i lines b : i < 3 -> one_line (g_name o) -> readable_lines lines b ->
  opened (join nl (compute_function_text o opt i lines) ++ nl) [terms_block o opt (gname i) b].
Proof.
  intros H O R. rewrite (terms_text_is o opt i lines H). unfold terms_block. rewrite terms_head_is. pose proof (operator_one_line _ O) as OT. destruct (group_one_line i H) as [G1 G2].
  apply function_opened; [now apply terms_name_plain|now apply terms_args_plain|discriminate| |].
  - unfold terms_inner. repeat (apply Forall_app; split).
    + constructor; [|constructor]. apply one_line_app; [reflexivity|]. unfold terms_doc. destruct opt; ol; assumption.
    + repeat constructor.
    + destruct opt; [|constructor]. repeat constructor; [ol; assumption|]. apply one_line_app; [reflexivity|]. exact (proj1 (proj1 (iter_ok i H))).
    + constructor; [reflexivity|]. apply Forall_app. split; [now apply (indent_one_line lines b)|]. repeat constructor.
    + repeat constructor.
    + repeat constructor.
  - unfold terms_inner. refine (piece_app 4 [_] _ [_] _ _ _); [unfold terms_doc; apply piece_doc; destruct opt; discriminate|].
    refine (piece_app 4 [_] _ [] _ (piece_skip 4 _ (line_blank 0)) _). apply piece_app.
    { destruct opt; [|apply piece_nil]. refine (piece_app 4 [_] [_; _] [] [_] (piece_skip 4 _ (line_comment 4 _)) _).
      refine (piece_app 4 [_] [_] [_] [] _ (piece_skip 4 _ (line_blank 0))). apply ok_piece, (iter_ok i H). }
    refine (piece_app 4 _ _ [_] [_] _ _); [now apply if_piece_hot|].
    refine (piece_app 4 [_] [_] [_] [] _ (piece_skip 4 _ (line_blank 0))). now apply stmt_piece.
Qed.

(** ** The functions of the paths of a group *)

Lemma path_head_is m n g : cc_path_head m n g = fhead (cc_path_name m n g) "A, N, ansatz, truncation".
Proof. unfold cc_path_head, fhead. reflexivity. Qed.
Lemma path_name_plain m n i : i < 3 -> no_special (cc_path_name m n (gname i)) = true.
Proof. intros H. unfold cc_path_name. rewrite !no_special_app, projection_plain, (proj1 (group_plain i H)). reflexivity. Qed.
Definition paths_doc (g : string * string) : string := (triple ++ ("Calculate optimized einsum paths for the " ++ fst g ++ " terms.") ++ triple)%string.
Definition paths_block (o : gop) (g : string * string) (b : list stmt) : stmt :=
  Block (cc_path_head (g_m o) (g_n o) g)
    [Simple (paths_doc g); Simple (path_list_name g ++ " = []"); If "ansatz.ground_state" b [no_hot_band]; Simple ("return " ++ path_list_name g)].
Definition paths_inner (g : string * string) (lines : list string) : list string :=
  [(pad 4 ++ paths_doc g)%string] ++ [""%string] ++ [(pad 4 ++ path_list_name g ++ " = []")%string] ++ [""%string]
  ++ ((tab ++ "if ansatz.ground_state:")%string :: indent_body lines ++ (tab ++ "else:")%string :: [(tabs 2 ++ hot_band)%string])
  ++ [""%string] ++ [(pad 4 ++ "return " ++ path_list_name g)%string] ++ [""%string].
Lemma paths_text_is o i lines : i < 3 ->
  path_function_text o i lines = ""%string :: fhead (cc_path_name (g_m o) (g_n o) (gname i)) "A, N, ansatz, truncation" :: paths_inner (gname i) lines.
Proof.
  intros H. destruct (types_are i H) as [T1 T2]. unfold path_function_text. rewrite T1. rewrite <- path_head_is. unfold cc_path_head, cc_path_name, paths_inner, paths_doc, path_list_name.
  change (specifier o) with (of_projection (g_m o) (g_n o)). cbn [app]. rewrite !append_assoc. cbn [String.append]. rewrite ?append_assoc.
  do 6 f_equal. rewrite <- ?app_assoc. cbn [app]. reflexivity.
Qed.
Lemma list_name_facts i : i < 3 -> no_special (path_list_name (gname i)) = true /\ starts (path_list_name (gname i)) = true.
Proof. intros H. destruct i as [|[|[|i]]]; [| | |lia]; split; reflexivity. Qed.
Lemma list_stmts i : i < 3 -> piece 4 [(pad 4 ++ path_list_name (gname i) ++ " = []")%string] [Simple (path_list_name (gname i) ++ " = []")]
  /\ piece 4 [(pad 4 ++ "return " ++ path_list_name (gname i))%string] [Simple ("return " ++ path_list_name (gname i))].
Proof.
  intros H. split.
  - destruct (list_name_facts i H). apply piece_statement; [|now apply starts_app|now apply ends_app|now rewrite is_head_last, last_char_app].
    apply neutral_app; [now apply neutral_plain|]. apply (neutral_app " = " "[]"); [now apply neutral_plain|]. apply (neutral_bracket ""), neutral_nil.
  - destruct i as [|[|[|i]]]; [| | |lia]; now apply stmt_piece.
Qed.
Lemma paths_opened o i lines b : i < 3 -> readable_lines lines b -> opened (join nl (path_function_text o i lines) ++ nl) [paths_block o (gname i) b].
Proof.
  intros H R. rewrite (paths_text_is o i lines H). unfold paths_block. rewrite path_head_is. destruct (list_stmts i H) as [P1 P2].
  apply function_opened; [now apply path_name_plain|reflexivity|discriminate| |].
  - unfold paths_inner. repeat (apply Forall_app; split); try (repeat constructor; fail).
    + constructor; [|constructor]. destruct i as [|[|[|i]]]; [| | |lia]; reflexivity.
    + constructor; [|constructor]. destruct i as [|[|[|i]]]; [| | |lia]; reflexivity.
    + constructor; [reflexivity|]. apply Forall_app. split; [now apply (indent_one_line lines b)|]. repeat constructor.
    + constructor; [|constructor]. destruct i as [|[|[|i]]]; [| | |lia]; reflexivity.
  - unfold paths_inner. refine (piece_app 4 [_] _ [_] _ _ _); [apply piece_doc; discriminate|].
    refine (piece_app 4 [_] _ [] _ (piece_skip 4 _ (line_blank 0)) _). refine (piece_app 4 [_] _ [_] _ P1 _). refine (piece_app 4 [_] _ [] _ (piece_skip 4 _ (line_blank 0)) _).
    refine (piece_app 4 _ _ [_] [_] _ _); [now apply if_piece_hot|]. refine (piece_app 4 [_] _ [] _ (piece_skip 4 _ (line_blank 0)) _).
    refine (piece_app 4 [_] [_] [_] [] P2 (piece_skip 4 _ (line_blank 0))).
Qed.

(** ** The functions of the amplitudes *)

Definition equation_name (m n : nat) (opt : bool) : string := ("compute_" ++ of_projection m n ++ "_amplitude" ++ optimized opt)%string.
Definition equation_args (opt : bool) : string := ("A, N, ansatz, truncation, h_args, t_args" ++ (if opt then ", opt_path_lists" else ""))%string.
Lemma equation_head_is m n opt : cc_equation_head m n opt = fhead (equation_name m n opt) (equation_args opt).
Proof. unfold cc_equation_head, fhead, equation_name, equation_args. cbn [String.append]. rewrite !append_assoc. cbn [String.append]. reflexivity. Qed.
Definition amplitude_doc (o : gop) : string := (triple ++ ("Compute the " ++ operator_text o ++ " amplitude.") ++ triple)%string.
Definition cc_zeros (k : nat) : string := ("R = np.zeros(shape=" ++ shape_text k ++ ", dtype=complex)")%string.
Definition unpack_text (mn : nat * nat) : string := ("opt_connected_path_list, opt_linked_path_list, opt_unlinked_path_list = opt_path_lists[" ++ pair_of mn ++ "]")%string.
Definition cc_call (m n : nat) (opt : bool) (g : string * string) : string :=
  (cc_terms_name m n g opt ++ "(R, ansatz, truncation, h_args, t_args" ++ (if opt then ", opt_" ++ snd g ++ "_path_list" else "") ++ ")")%string.
Definition amplitude_block (opt : bool) (o : gop) : stmt :=
  Block (cc_equation_head (g_m o) (g_n o) opt)
    ([Simple (amplitude_doc o); Simple "truncation.confirm_at_least_singles()"; Simple (cc_zeros (g_m o + g_n o))]
     ++ (if opt then [Simple (unpack_text (g_m o, g_n o))] else [])
     ++ map (fun g => Simple (cc_call (g_m o) (g_n o) opt g)) groups ++ [Simple "return R"]).
Definition amplitude_inner (opt : bool) (o : gop) : list string :=
  [(pad 4 ++ amplitude_doc o)%string] ++ [(pad 4 ++ "truncation.confirm_at_least_singles()")%string] ++ [""%string; (pad 4 ++ "# the residual tensor")%string]
  ++ [(pad 4 ++ cc_zeros (g_m o + g_n o))%string] ++ [""%string]
  ++ (if opt then [(pad 4 ++ "# unpack the optimized paths")%string; (pad 4 ++ unpack_text (g_m o, g_n o))%string; ""%string] else [])
  ++ [(pad 4 ++ "# add each of the terms")%string] ++ map (fun g => (pad 4 ++ cc_call (g_m o) (g_n o) opt g)%string) groups
  ++ [(pad 4 ++ "return R")%string] ++ [""%string].
Lemma amplitude_text_is opt o : g_rank o = g_m o + g_n o ->
  master_compute_function o opt = (join nl (""%string :: fhead (equation_name (g_m o) (g_n o) opt) (equation_args opt) :: amplitude_inner opt o) ++ nl)%string.
Proof.
  intros R. rewrite <- join_snoc by discriminate. unfold master_compute_function. rewrite <- equation_head_is, R, shape_is_text. cbn [app]. f_equal. f_equal.
  change (specifier o) with (of_projection (g_m o) (g_n o)). unfold amplitude_inner, cc_equation_head, amplitude_doc, cc_zeros, unpack_text. cbn [app map groups].
  unfold cc_call, cc_terms_name. cbn [fst snd nth term_types optnames].
  destruct opt; cbn [app optimized]; rewrite ?append_assoc; cbn [String.append]; rewrite ?append_assoc; reflexivity.
Qed.
Lemma zeros_ok k : neutral (cc_zeros k) /\ starts (cc_zeros k) = true /\ ends (cc_zeros k) = true /\ is_head (cc_zeros k) = false.
Proof.
  split; [|unfold cc_zeros; repeat split; [now do 2 apply ends_app|now rewrite is_head_last, !last_char_app]].
  replace (cc_zeros k) with ("R = np.zeros" ++ ("(" ++ ("shape=" ++ shape_text k ++ ", dtype=complex") ++ ")"))%string
    by (unfold cc_zeros; rewrite !append_assoc; cbn [String.append]; rewrite ?append_assoc; reflexivity).
  apply neutral_app; [now apply neutral_plain|]. apply neutral_paren. apply neutral_app; [now apply neutral_plain|]. apply neutral_app; [apply shape_neutral|now apply neutral_plain].
Qed.
Lemma unpack_ok mn : neutral (unpack_text mn) /\ starts (unpack_text mn) = true /\ ends (unpack_text mn) = true /\ is_head (unpack_text mn) = false.
Proof.
  split; [|unfold unpack_text; repeat split; [now do 2 apply ends_app|now rewrite is_head_last, !last_char_app]].
  apply (neutral_app "opt_connected_path_list, opt_linked_path_list, opt_unlinked_path_list = opt_path_lists" ("[" ++ pair_of mn ++ "]")); [now apply neutral_plain|].
  apply neutral_bracket, pair_neutral.
Qed.
Lemma cc_call_ok m n opt i : i < 3 -> neutral (cc_call m n opt (gname i)) /\ starts (cc_call m n opt (gname i)) = true /\ ends (cc_call m n opt (gname i)) = true /\ is_head (cc_call m n opt (gname i)) = false.
Proof.
  intros H. split; [|unfold cc_call; repeat split; [now do 3 apply ends_app|now rewrite is_head_last, !last_char_app]].
  replace (cc_call m n opt (gname i)) with (cc_terms_name m n (gname i) opt ++ ("(" ++ terms_args (gname i) opt ++ ")"))%string
    by (unfold cc_call, terms_args; rewrite !append_assoc; reflexivity).
  apply neutral_app; [now apply neutral_plain, terms_name_plain|]. now apply neutral_paren, neutral_plain, terms_args_plain.
Qed.
Lemma three {A} (P : A -> Prop) (f : nat -> A) : (forall i, i < 3 -> P (f i)) -> Forall P [f 0; f 1; f 2].
Proof. intros H. repeat constructor; apply H; lia. Qed.
Lemma groups_three : groups = [gname 0; gname 1; gname 2].
Proof. reflexivity. Qed.
Lemma pieces {A} i (t : A -> string) l : (forall x, In x l -> piece i [(pad i ++ t x)%string] [Simple (t x)]) -> piece i (map (fun x => (pad i ++ t x)%string) l) (map (fun x => Simple (t x)) l).
Proof. intros H. rewrite <- !flat_map_singleton. now apply piece_flat_map. Qed.
Lemma in_groups g : In g groups -> exists i, i < 3 /\ g = gname i.
Proof. rewrite groups_three. intros [<-|[<-|[<-|[]]]]; [exists 0|exists 1|exists 2]; split; auto. Qed.

Lemma amplitude_opened opt o : g_rank o = g_m o + g_n o -> one_line (g_name o) -> opened (master_compute_function o opt) [amplitude_block opt o].
Proof.
  intros R O. rewrite (amplitude_text_is opt o R). unfold amplitude_block. rewrite equation_head_is. pose proof (operator_one_line _ O) as OT.
  apply function_opened; [| |discriminate| |].
  - unfold equation_name. rewrite !no_special_app, projection_plain. destruct opt; reflexivity.
  - destruct opt; reflexivity.
  - unfold amplitude_inner. repeat (apply Forall_app; split); try (repeat constructor; fail).
    + constructor; [|constructor]. apply one_line_app; [reflexivity|]. unfold amplitude_doc. ol; assumption.
    + constructor; [|constructor]. apply one_line_app; [reflexivity|]. exact (proj1 (proj1 (zeros_ok _))).
    + destruct opt; [|constructor]. repeat constructor. apply one_line_app; [reflexivity|]. exact (proj1 (proj1 (unpack_ok _))).
    + apply Forall_map. apply Forall_forall. intros g Hg. apply in_groups in Hg as (i & Hi & ->). apply one_line_app; [reflexivity|]. exact (proj1 (proj1 (cc_call_ok _ _ _ _ Hi))).
  - unfold amplitude_inner. pose proof in_groups as IG. revert IG. generalize groups. intros gs IG. refine (piece_app 4 [_] _ [_] _ _ _); [apply piece_doc; discriminate|].
    refine (piece_app 4 [_] _ [_] _ _ _).
    { apply piece_statement; try reflexivity. apply (neutral_app "truncation.confirm_at_least_singles" "()"); [now apply neutral_plain|]. apply (neutral_paren ""), neutral_nil. }
    refine (piece_app 4 [_; _] _ [] _ (piece_skips 4 _ _) _); [repeat constructor; exact (line_comment 4 _)|].
    refine (piece_app 4 [_] _ [_] _ _ _); [apply ok_piece, zeros_ok|].
    refine (piece_app 4 [_] _ [] _ (piece_skip 4 _ (line_blank 0)) _). apply piece_app.
    { destruct opt; [|apply piece_nil]. refine (piece_app 4 [_] [_; _] [] [_] (piece_skip 4 _ (line_comment 4 _)) _).
      refine (piece_app 4 [_] [_] [_] [] _ (piece_skip 4 _ (line_blank 0))). apply ok_piece, unpack_ok. }
    refine (piece_app 4 [_] _ [] _ (piece_skip 4 _ (line_comment 4 _)) _). apply piece_app.
    { apply pieces. intros g Hg. apply IG in Hg as (i & Hi & ->). now apply ok_piece, cc_call_ok. }
    refine (piece_app 4 [_] [_] [_] [] _ (piece_skip 4 _ (line_blank 0))). now apply stmt_piece.
Qed.

(** ** The functions of the paths of a projection *)

Lemma grouped_head_is m n : cc_grouped_head m n = fhead (cc_grouped_name m n) "A, N, ansatz, truncation".
Proof. reflexivity. Qed.
Lemma grouped_name_plain m n : no_special (cc_grouped_name m n) = true.
Proof. unfold cc_grouped_name. rewrite !no_special_app, projection_plain. reflexivity. Qed.
Definition grouped_doc (o : gop) : string := (triple ++ ("Compute the optimized paths for this " ++ operator_text o ++ ".") ++ triple)%string.
Definition grouped_call (m n : nat) (g : string * string) : string := (snd g ++ "_opt_path_list = " ++ cc_path_name m n g ++ "(A, N, ansatz, truncation)")%string.
Definition dict_entry (mn : nat * nat) : string := (pair_of mn ++ ": [connected_opt_path_list, linked_opt_path_list, unlinked_opt_path_list]")%string.
Definition grouped_block (o : gop) : stmt :=
  Block (cc_grouped_head (g_m o) (g_n o))
    ([Simple (grouped_doc o); Simple "truncation.confirm_at_least_singles()"] ++ map (fun g => Simple (grouped_call (g_m o) (g_n o) g)) groups
     ++ [Simple ("return_dict = " ++ "{" ++ concat_str (map (fun l => " " ++ l)%string [dict_entry (g_m o, g_n o)]) ++ " " ++ "}"); Simple "return return_dict"]).
Definition grouped_inner (o : gop) : list string :=
  [(pad 4 ++ grouped_doc o)%string] ++ [(pad 4 ++ "truncation.confirm_at_least_singles()")%string] ++ [""%string]
  ++ map (fun g => (pad 4 ++ grouped_call (g_m o) (g_n o) g)%string) groups ++ [""%string]
  ++ (((pad 4 ++ "return_dict = " ++ "{")%string :: map (fun l => (pad 8 ++ l)%string) [dict_entry (g_m o, g_n o)]) ++ [(pad 4 ++ "}")%string])
  ++ [""%string] ++ [(pad 4 ++ "return return_dict")%string] ++ [""%string].
Lemma grouped_text_is o : grouped_paths_function o = (join nl (""%string :: fhead (cc_grouped_name (g_m o) (g_n o)) "A, N, ansatz, truncation" :: grouped_inner o) ++ nl)%string.
Proof.
  rewrite <- join_snoc by discriminate. unfold grouped_paths_function. rewrite <- grouped_head_is. cbn [app]. f_equal. f_equal.
  change (specifier o) with (of_projection (g_m o) (g_n o)). unfold grouped_inner, cc_grouped_head, cc_grouped_name, grouped_doc, dict_entry. cbn [app map groups].
  unfold grouped_call, cc_path_name. cbn [fst snd nth term_types optnames].
  rewrite ?append_assoc; cbn [String.append]; rewrite ?append_assoc; reflexivity.
Qed.
Lemma grouped_call_ok m n i : i < 3 -> neutral (grouped_call m n (gname i)) /\ starts (grouped_call m n (gname i)) = true /\ ends (grouped_call m n (gname i)) = true /\ is_head (grouped_call m n (gname i)) = false.
Proof.
  intros H. split; [|unfold grouped_call; repeat split; [destruct i as [|[|[|i]]]; [| | |lia]; reflexivity|now do 3 apply ends_app|now rewrite is_head_last, !last_char_app]].
  unfold grouped_call. destruct (group_plain i H). apply neutral_app; [now apply neutral_plain|]. apply neutral_app; [now apply neutral_plain|]. apply neutral_app; [now apply neutral_plain, path_name_plain|].
  apply (neutral_paren "A, N, ansatz, truncation"). now apply neutral_plain.
Qed.
Lemma entry_ok mn : neutral (dict_entry mn) /\ starts (dict_entry mn) = true /\ ends (dict_entry mn) = true.
Proof.
  split; [|split; [reflexivity|now apply ends_app]]. apply neutral_app; [apply pair_neutral|]. apply (neutral_app ": "); [now apply neutral_plain|].
  apply (neutral_bracket "connected_opt_path_list, linked_opt_path_list, unlinked_opt_path_list"). now apply neutral_plain.
Qed.
Lemma grouped_opened o : one_line (g_name o) -> opened (grouped_paths_function o) [grouped_block o].
Proof.
  intros O. rewrite grouped_text_is. unfold grouped_block. rewrite grouped_head_is. pose proof (operator_one_line _ O) as OT.
  apply function_opened; [apply grouped_name_plain|reflexivity|discriminate| |].
  - unfold grouped_inner. repeat (apply Forall_app; split); try (repeat constructor; fail).
    + constructor; [|constructor]. apply one_line_app; [reflexivity|]. unfold grouped_doc. ol; assumption.
    + apply Forall_map. apply Forall_forall. intros g Hg. apply in_groups in Hg as (i & Hi & ->). apply one_line_app; [reflexivity|]. exact (proj1 (proj1 (grouped_call_ok _ _ _ Hi))).
    + constructor; [reflexivity|]. constructor; [|constructor]. apply one_line_app; [reflexivity|]. exact (proj1 (proj1 (entry_ok _))).
  - unfold grouped_inner. pose proof in_groups as IG. revert IG. generalize groups. intros gs IG. refine (piece_app 4 [_] _ [_] _ _ _); [apply piece_doc; discriminate|].
    refine (piece_app 4 [_] _ [_] _ _ _).
    { apply piece_statement; try reflexivity. apply (neutral_app "truncation.confirm_at_least_singles" "()"); [now apply neutral_plain|]. apply (neutral_paren ""), neutral_nil. }
    refine (piece_app 4 [_] _ [] _ (piece_skip 4 _ (line_blank 0)) _). apply piece_app.
    { apply pieces. intros g Hg. apply IG in Hg as (i & Hi & ->). now apply ok_piece, grouped_call_ok. }
    refine (piece_app 4 [_] _ [] _ (piece_skip 4 _ (line_blank 0)) _). refine (piece_app 4 _ _ [_] [_] _ _).
    { apply (piece_between 4 8 "{" "}" "return_dict = " 0); try reflexivity.
      - intros t [_ N]. rewrite N. reflexivity.
      - now apply neutral_plain.
      - constructor; [apply entry_ok|constructor]. }
    refine (piece_app 4 [_] _ [] _ (piece_skip 4 _ (line_blank 0)) _). refine (piece_app 4 [_] [_] [_] [] _ (piece_skip 4 _ (line_blank 0))). now apply stmt_piece.
Qed.

(** ** The function of all paths *)

Lemma piece_doc_pads i first mids :
  (exists c, last_char first = Some c /\ is_blank c = false /\ c <> quote2) ->
  Forall (fun kl => starts (snd kl) = true /\ exists c, last_char (snd kl) = Some c /\ is_blank c = false /\ c <> quote2) mids ->
  piece i ((pad i ++ triple ++ first)%string :: map (fun kl : nat * string => (pad (fst kl) ++ snd kl)%string) mids ++ [(pad i ++ triple)%string]) [Simple (doc_text first (map snd mids))].
Proof.
  intros (c & Lc & Bc & Nc) F.
  assert (L1 : lex_line Top (pad i ++ triple ++ first) = Some (InDoc i (triple ++ first), [])).
  { unfold lex_line. rewrite drop_pad, leading_pad. destruct (drop_triple first) as [-> ->]. rewrite prefix_triple.
    assert (LT : last_char (triple ++ first) = Some c) by (rewrite last_char_app, Lc; reflexivity).
    rewrite (last_char_trim _ c LT Bc), (ends_with_last_ne triple _ c quote2 LT eq_refl Nc), andb_false_r, Nat.add_0_r. reflexivity. }
  assert (L2 : forall t, lex (InDoc i t) (map (fun kl : nat * string => (pad (fst kl) ++ snd kl)%string) mids) = Some (InDoc i (t ++ concat_str (map (String newline) (map snd mids))), [])).
  { induction F as [|[k l] mids (Sl & x & Lx & Bx & Nx) _ IH]; intros t; [cbn; now rewrite append_nil_r|]. cbn [fst snd] in *.
    cbn [map lex fst snd].
    assert (K : lex_line (InDoc i t) (pad k ++ l) = Some (InDoc i (t ++ String newline l), [])).
    { unfold lex_line. rewrite drop_pad. destruct (starts_drop _ Sl) as (-> & _ & _).
      rewrite (last_char_trim _ x Lx Bx), (ends_with_last_ne triple _ x quote2 Lx eq_refl Nx). reflexivity. }
    rewrite K, IH. rewrite append_assoc. reflexivity. }
  exists [(i, doc_text first (map snd mids))]. split.
  - unfold logical_lines. cbn [lex]. rewrite L1, (lex_app _ _ _ _ _ (L2 _)). cbn [lex]. unfold lex_line. rewrite drop_pad. unfold doc_text. rewrite <- append_assoc. reflexivity.
  - apply reads_simple; [|constructor]. unfold doc_text. rewrite is_head_last, <- append_assoc, last_char_app. reflexivity.
Qed.

Definition all_doc_mids (cc : nat) : list (nat * string) :=
  [(4, "Calculates all optimized paths for the `opt_einsum` calls up to"%string); (8, ("a maximum order of m+n=" ++ str_nat cc ++ " for a projection operator P^m_n")%string)].
Definition all_doc (cc : nat) : string := doc_text "Return dictionary containing optimized contraction paths." (map snd (all_doc_mids cc)).
Definition all_entry (mn : nat * nat) : string :=
  ("all_opt_path_lists[" ++ pair_of mn ++ "] = " ++ cc_grouped_name (fst mn) (snd mn) ++ "(A, N, ansatz, truncation)[" ++ pair_of mn ++ "]")%string.
Definition all_block (cc : nat) (ops : list gop) : stmt :=
  Block cc_all_head
    ([Simple (all_doc cc); Simple "all_opt_path_lists = []"] ++ map (fun mn => Simple (all_entry mn)) (map (fun o => (g_m o, g_n o)) ops) ++ [Simple "return all_opt_path_lists"]).
Definition all_inner (cc : nat) (ops : list gop) : list string :=
  ((pad 4 ++ triple ++ "Return dictionary containing optimized contraction paths.")%string :: map (fun kl : nat * string => (pad (fst kl) ++ snd kl)%string) (all_doc_mids cc) ++ [(pad 4 ++ triple)%string])
  ++ [(pad 4 ++ "all_opt_path_lists = []")%string] ++ [""%string]
  ++ map (fun mn => (pad 4 ++ all_entry mn)%string) (map (fun o => (g_m o, g_n o)) ops) ++ [""%string] ++ [(pad 4 ++ "return all_opt_path_lists")%string] ++ [""%string].
Lemma all_text_is cc ops : master_paths_function cc ops = (join nl (""%string :: fhead "compute_all_optimized_paths" "A, N, ansatz, truncation" :: all_inner cc ops) ++ nl)%string.
Proof.
  rewrite <- join_snoc by discriminate. unfold master_paths_function, all_inner. cbn [app map all_doc_mids fst snd]. rewrite map_map. rewrite <- !app_assoc. cbn [app].
  assert (E : forall o, (tab ++ "all_opt_path_lists[" ++ pair_text (g_m o, g_n o) ++ "] = compute_" ++ specifier o ++ "_optimized_paths(A, N, ansatz, truncation)[" ++ pair_text (g_m o, g_n o) ++ "]")%string = (pad 4 ++ all_entry (g_m o, g_n o))%string).
  { intros o. change (specifier o) with (of_projection (g_m o) (g_n o)). unfold all_entry, cc_grouped_name. cbn [fst snd]. rewrite ?append_assoc. reflexivity. }
  rewrite (map_ext _ _ E). reflexivity.
Qed.
Lemma all_entry_ok mn : neutral (all_entry mn) /\ starts (all_entry mn) = true /\ ends (all_entry mn) = true /\ is_head (all_entry mn) = false.
Proof.
  split; [|unfold all_entry; repeat split; [now do 6 apply ends_app|now rewrite is_head_last, !last_char_app]].
  replace (all_entry mn) with ("all_opt_path_lists" ++ ("[" ++ pair_of mn ++ "]") ++ " = " ++ cc_grouped_name (fst mn) (snd mn) ++ ("(" ++ "A, N, ansatz, truncation" ++ ")") ++ ("[" ++ pair_of mn ++ "]"))%string
    by (unfold all_entry; rewrite !append_assoc; cbn [String.append]; rewrite ?append_assoc; reflexivity).
  assert (B : neutral ("[" ++ pair_of mn ++ "]")) by apply neutral_bracket, pair_neutral.
  apply neutral_app; [now apply neutral_plain|]. apply neutral_app; [exact B|]. apply neutral_app; [now apply neutral_plain|]. apply neutral_app; [apply neutral_plain, grouped_name_plain|].
  apply neutral_app; [|exact B]. apply neutral_paren. now apply neutral_plain.
Qed.
Lemma all_opened cc ops : opened (master_paths_function cc ops) [all_block cc ops].
Proof.
  rewrite all_text_is. change cc_all_head with (fhead "compute_all_optimized_paths" "A, N, ansatz, truncation"). unfold all_block. change cc_all_head with (fhead "compute_all_optimized_paths" "A, N, ansatz, truncation").
  apply function_opened; [reflexivity|reflexivity|discriminate| |].
  - unfold all_inner. repeat (apply Forall_app; split); try (repeat constructor; fail).
    + constructor; [reflexivity|]. unfold all_doc_mids. cbn [map app fst snd]. repeat constructor. ol.
    + apply Forall_map, Forall_forall. intros mn _. apply one_line_app; [reflexivity|]. exact (proj1 (proj1 (all_entry_ok _))).
  - unfold all_inner. refine (piece_app 4 _ _ [_] _ _ _).
    { apply piece_doc_pads; [exists "."%char; repeat split; discriminate|]. repeat constructor; cbn [snd].
      - exists "o"%char. repeat split. discriminate.
      - exists "n"%char. rewrite !last_char_app. repeat split. discriminate. }
    refine (piece_app 4 [_] _ [_] _ _ _).
    { apply piece_statement; try reflexivity. apply (neutral_app "all_opt_path_lists = " "[]"); [now apply neutral_plain|]. apply (neutral_bracket ""), neutral_nil. }
    refine (piece_app 4 [_] _ [] _ (piece_skip 4 _ (line_blank 0)) _). apply piece_app; [apply pieces; intros; apply ok_piece, all_entry_ok|].
    refine (piece_app 4 [_] _ [] _ (piece_skip 4 _ (line_blank 0)) _). refine (piece_app 4 [_] [_] [_] [] _ (piece_skip 4 _ (line_blank 0))). now apply stmt_piece.
Qed.
