(** The text of the symmetriser. *)
From Coq Require Import List Arith Bool Ascii String Lia Permutation.
From Verif Require Import PyBase PyStr SpecPython SpecSumText SpecEtText SpecWText SpecSymmetrize ModelHelper ModelSymmetrize
  PyBaseFacts ProofsStr ProofsHelper ProofsFullCCBuckets ProofsPython ProofsParse ProofsSumText ProofsWText ProofsResidualText.
Import ListNotations.
Local Open Scope nat_scope.
Local Open Scope list_scope.

Definition doc_text : string := "'''Symmetrizing a tensor (the W operator or the residual) by tracing over all permutations.'''".
Definition order_cond (n : nat) : string := ("order == " ++ str_nat n)%string.
Definition order_stmt (n : nat) : stmt := If (order_cond n) (map (fun ax => Simple (add_transposed ax)) (symmetrizing_axes n)) [].
Definition sym_start : list stmt :=
  [Simple doc_text; Simple "X = np.zeros_like(tensor, dtype=complex)";
   If (order_cond 0) [Simple "return tensor"] []; If (order_cond 1) [Simple "return tensor"] []].
Definition sym_body (M : nat) : list stmt := sym_start ++ map order_stmt (range 2 (M + 1)) ++ [Simple "return X"].

Lemma add_transposed_ok ax : neutral (add_transposed ax) /\ starts (add_transposed ax) = true /\ ends (add_transposed ax) = true /\ is_head (add_transposed ax) = false.
Proof.
  assert (N : neutral ("(" ++ commas (map str_nat ax) ++ ")")).
  { apply neutral_paren. apply neutral_concat; [now apply neutral_plain|]. apply Forall_map, Forall_forall. intros n _. apply nat_neutral. }
  assert (E : add_transposed ax = ("X += np.transpose" ++ ("(" ++ ("tensor, " ++ "(" ++ commas (map str_nat ax) ++ ")") ++ ")"))%string).
  { unfold add_transposed. rewrite !append_assoc. reflexivity. }
  split; [|split; [reflexivity|]].
  - rewrite E. apply neutral_app; [now apply neutral_plain|]. apply neutral_paren. apply neutral_app; [now apply neutral_plain|exact N].
  - split; [unfold add_transposed; apply ends_app; now apply ends_app|].
    rewrite is_head_last. unfold add_transposed. rewrite !last_char_app. reflexivity.
Qed.

Lemma tuple_commas ax : tuple_text ax = ("(" ++ commas (map str_nat ax) ++ ")")%string.
Proof. unfold tuple_text, commas. now rewrite join_concat. Qed.

Lemma order_block n : symmetrizing_axes n <> [] -> block 4 (symmetrize_order n) [order_stmt n].
Proof.
  intros NE. unfold symmetrize_order.
  rewrite (map_ext (fun ax => tab ++ tab ++ "X += np.transpose(tensor, " ++ tuple_text ax ++ ")" ++ nl)%string (fun ax => pad 8 ++ add_transposed ax ++ nl)%string)
    by (intros ax; unfold add_transposed; rewrite tuple_commas, !append_assoc; reflexivity).
  match goal with |- block 4 ?t _ => replace t with
    ((pad 4 ++ if_line (order_cond n)) ++ nl ++ concat_str (map (fun ax => pad 8 ++ add_transposed ax ++ nl)%string (symmetrizing_axes n)))%string end.
  2:{ unfold if_line, order_cond. rewrite !append_assoc. reflexivity. }
  assert (N : neutral (if_line (order_cond n))).
  { apply neutral_plain. unfold if_line, order_cond. rewrite !no_special_app, str_nat_no_special. reflexivity. }
  apply (block_condition 4 8); [| |lia| |].
  - rewrite has_char_app. exact (proj1 N).
  - apply line_simple; [exact N|reflexivity|]. unfold if_line. apply ends_app. now apply ends_app.
  - destruct (symmetrizing_axes n); [now elim NE|discriminate].
  - apply block_map. intros ax _. destruct (add_transposed_ok ax) as (A & B & C & D). now apply block_statement.
Qed.
Lemma axes_nonempty n : symmetrizing_axes n <> [].
Proof.
  intros E. destruct (symmetrizing_axes_exact n) as (_ & _ & L). rewrite E in L. cbn in L. pose proof (Factorial.lt_O_fact n). lia.
Qed.

Lemma symmetrize_read M : python (build_symmetrizing_function M) [Block symmetrize_head (sym_body M)].
Proof.
  apply block_python.
  assert (E : build_symmetrizing_function M = (nl ++ symmetrize_head ++ nl
    ++ ((tab ++ doc_text ++ nl ++ tab ++ "X = np.zeros_like(tensor, dtype=complex)" ++ nl
        ++ tab ++ "if order == 0:" ++ nl ++ tab ++ tab ++ "return tensor" ++ nl ++ tab ++ "if order == 1:" ++ nl ++ tab ++ tab ++ "return tensor" ++ nl)
      ++ concat_str (map symmetrize_order (range 2 (M + 1))) ++ tab ++ "return X" ++ nl))%string).
  { unfold build_symmetrizing_function. rewrite !append_assoc. reflexivity. }
  rewrite E. assert (P : plain_head symmetrize_head = true) by (vm_compute; reflexivity).
  destruct (plain_head_ok _ P) as (N & L & O). apply block_def; [exact N|exact L|exact O|discriminate|].
  unfold sym_body. apply block_app; [apply block_text; vm_compute; reflexivity|].
  apply block_app; [|apply block_text; vm_compute; reflexivity].
  apply block_map. intros n _. apply order_block, axes_nonempty.
Qed.

Lemma exec_transposed flag l : exec flag (map (fun ax => Simple (add_transposed ax)) l) = map add_transposed l.
Proof. induction l as [|a r IH]; [reflexivity|]. cbn [map]. unfold exec in *. cbn [flat_map exec1 app]. now rewrite IH. Qed.
Lemma exec_orders flag k : order_is flag k -> forall l, NoDup l ->
  exec flag (map order_stmt l) = if existsb (Nat.eqb k) l then map add_transposed (symmetrizing_axes k) else [].
Proof.
  intros F. induction l as [|n l IH]; intros D; [reflexivity|]. inversion D as [|n' l' D1 D2]. subst n' l'.
  cbn [map]. unfold order_stmt at 1. rewrite exec_if. unfold order_cond. rewrite (F n), (Nat.eqb_sym n k), (IH D2). cbn [existsb].
  destruct (Nat.eqb_spec k n) as [->|X]; [|reflexivity].
  assert (E : existsb (Nat.eqb n) l = false).
  { apply not_true_iff_false. intros E. apply existsb_exists in E as (y & Y & E). apply Nat.eqb_eq in E. subst y. contradiction. }
  rewrite E, app_nil_r. cbn [orb]. apply exec_transposed.
Qed.

Lemma symmetrize_exec M flag k : order_is flag k ->
  (k <= 1 -> starts_with (exec flag (sym_body M)) [doc_text; "X = np.zeros_like(tensor, dtype=complex)"%string; "return tensor"%string]) /\
  (2 <= k -> exec flag (sym_body M) = [doc_text; "X = np.zeros_like(tensor, dtype=complex)"%string]
     ++ (if Nat.leb k M then map add_transposed (symmetrizing_axes k) else []) ++ ["return X"%string]).
Proof.
  intros F. unfold sym_body. rewrite !exec_app. rewrite (exec_orders flag k F) by apply seq_NoDup.
  unfold sym_start. change (exec flag [Simple doc_text; Simple "X = np.zeros_like(tensor, dtype=complex)"; If (order_cond 0) [Simple "return tensor"] []; If (order_cond 1) [Simple "return tensor"] []])
    with (doc_text :: "X = np.zeros_like(tensor, dtype=complex)"%string :: exec flag [If (order_cond 0) [Simple "return tensor"] []; If (order_cond 1) [Simple "return tensor"] []]).
  rewrite !exec_if. unfold order_cond. rewrite (F 0), (F 1). split; intros K.
  - destruct k as [|[|k]]; [| |lia]; cbn; eexists; reflexivity.
  - destruct k as [|[|k]]; [lia|lia|]. change (0 =? S (S k)) with false. change (1 =? S (S k)) with false. cbn iota. change (exec flag []) with (@nil string).
    assert (E : existsb (Nat.eqb (S (S k))) (range 2 (M + 1)) = Nat.leb (S (S k)) M).
    { destruct (Nat.leb_spec (S (S k)) M) as [H|H].
      - apply existsb_exists. exists (S (S k)). split; [apply in_range; lia|apply Nat.eqb_refl].
      - apply not_true_iff_false. intros E. apply existsb_exists in E as (y & Y & E). apply Nat.eqb_eq in E. apply in_range in Y. lia. }
    rewrite E. reflexivity.
Qed.

Lemma symmetrize_file M prog : python (build_symmetrizing_function M) prog ->
  exists body, prog = [Block symmetrize_head body] /\
    forall flag k, order_is flag k ->
      exists doc, String.prefix "'''" doc = true /\
      (k <= 1 -> starts_with (exec flag body) [doc; "X = np.zeros_like(tensor, dtype=complex)"%string; "return tensor"%string]) /\
      (2 <= k <= M -> exists axes, mode_orders k axes /\
         exec flag body = [doc; "X = np.zeros_like(tensor, dtype=complex)"%string] ++ map add_transposed axes ++ ["return X"%string]) /\
      (2 <= k -> M < k -> exec flag body = [doc; "X = np.zeros_like(tensor, dtype=complex)"; "return X"]%string).
Proof.
  intros P. rewrite (python_functional _ _ _ P (symmetrize_read M)). exists (sym_body M). split; [reflexivity|]. intros flag k F.
  destruct (symmetrize_exec M flag k F) as [A B]. exists doc_text. split; [reflexivity|]. split; [exact A|]. split.
  - intros K. exists (symmetrizing_axes k). destruct (symmetrizing_axes_exact k) as (I & D & _). split; [split; [exact D|exact I]|].
    rewrite B by lia. destruct (Nat.leb_spec k M); [reflexivity|lia].
  - intros K L. rewrite B by lia. destruct (Nat.leb_spec k M); [lia|reflexivity].
Qed.
