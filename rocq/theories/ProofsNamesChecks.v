(** The names and the calls of the generated modules. *)
From Coq Require Import List Arith Bool Ascii String Lia Permutation.
From Verif Require Import PyBase PyStr SpecPython SpecSumText SpecEtText SpecWText SpecDtText SpecResidualText SpecSymmetrize SpecNames SpecW SpecDt SpecResidual SpecModules
  ModelHelper ModelW ModelDt ModelResidual ModelSymmetrize
  PyBaseFacts ProofsHelper ProofsPython ProofsParse ProofsW ProofsWText ProofsDtText ProofsDtFuns ProofsResidual ProofsResidualText ProofsSymmetrize ProofsNames.
Import ListNotations.
Local Open Scope nat_scope.
Local Open Scope list_scope.

(** ** The programs do not depend on the order of sets *)
Definition keep (l : list (list nat)) : list (list nat) := l.
Lemma keep_order : set_order keep.
Proof. intros l. apply Permutation_refl. Qed.

Section So.
  Variable so : list (list nat) -> list (list nat).
  Hypothesis Hso : set_order so.

  Lemma flat_map_ext_in {A B} (f g : A -> list B) l : (forall x, In x l -> f x = g x) -> flat_map f l = flat_map g l.
  Proof. induction l as [|a l IH]; intros H; [reflexivity|]. cbn. rewrite (H a) by now left. now rewrite IH by (intros; apply H; now right). Qed.

  Lemma parts_same un k : 1 <= k -> parts so un k = parts keep un k.
  Proof. intros K. unfold parts. destruct un; [apply unlinked_so|apply linked_so]; auto using keep_order. Qed.
  Lemma contrib_same k opt p : contrib_stmt so k opt p = contrib_stmt keep k opt p.
  Proof. unfold contrib_stmt, sum_stmt, calls_of. now rewrite (unique_permutations_so so Hso keep p keep_order). Qed.
  Lemma helper_same un k opt : 1 <= k -> helper_body so un k opt = helper_body keep un k opt.
  Proof.
    intros K. unfold helper_body. destruct (Nat.ltb k (least un)); [reflexivity|]. rewrite parts_same by exact K.
    f_equal. f_equal. apply map_ext. intros p. apply contrib_same.
  Qed.
  Lemma paths_same un M : paths_body so un M = paths_body keep un M.
  Proof.
    unfold paths_body. f_equal. f_equal. apply flat_map_ext_in. intros k I. apply in_range in I.
    rewrite parts_same by (destruct un; cbn in I; lia). apply map_ext. intros p. unfold path_stmt, extend.
    now rewrite (unique_permutations_so so Hso keep p keep_order).
  Qed.
  Lemma w_prog_same M : w_prog so M = w_prog keep M.
  Proof.
    unfold w_prog, w_defs. rewrite !paths_same. f_equal. f_equal. f_equal. apply flat_map_ext_in. intros opt _.
    unfold half_defs, helpers. f_equal; [|f_equal]; apply map_ext_in; intros k I; apply in_seq in I; rewrite helper_same by lia; reflexivity.
  Qed.

  Lemma dparts_same un k : 1 <= k -> dparts so un k = dparts keep un k.
  Proof. intros K. unfold dparts. destruct un; [apply unlinked_so|apply linked_so]; auto using keep_order. Qed.
  Lemma dpairs_same p : dpairs so p = dpairs keep p.
  Proof. unfold dpairs. now rewrite (unique_permutations_so so Hso keep p keep_order). Qed.
  Lemma dterms_same un k opt : 1 <= k -> dterms_body so un k opt = dterms_body keep un k opt.
  Proof.
    intros K. unfold dterms_body. destruct (Nat.ltb k (dleast un)); [reflexivity|]. rewrite dparts_same by exact K.
    f_equal. f_equal. apply map_ext. intros p. unfold dsum, dcalls. now rewrite dpairs_same.
  Qed.
  Lemma dpaths_same un M : dpaths_body so un M = dpaths_body keep un M.
  Proof.
    unfold dpaths_body. f_equal. f_equal. apply flat_map_ext_in. intros k I. apply in_range in I.
    rewrite dparts_same by (destruct un; cbn in I; lia). apply map_ext. intros p. unfold dpath_stmt, dextend. now rewrite dpairs_same.
  Qed.
  Lemma dt_prog_same M : dt_prog so M = dt_prog keep M.
  Proof.
    unfold dt_prog, dt_defs. rewrite !dpaths_same. f_equal. f_equal. f_equal. apply flat_map_ext_in. intros opt _.
    unfold dhalf_defs, dterms_defs. f_equal; [|f_equal]; apply map_ext_in; intros k I; apply in_seq in I; rewrite dterms_same by lia; reflexivity.
  Qed.
End So.

(** ** Checks of the programs *)
Fixpoint bound_ok (e : list string) (ts : list string) : bool :=
  match ts with [] => true | t :: r => all_in (names_read t) e && bound_ok (names_bound t ++ e) r end.
Lemma bound_ok_complete ts : forall e, bound_when_read e ts -> bound_ok e ts = true.
Proof.
  induction ts as [|t r IH]; intros e H; [reflexivity|]. destruct H as [H1 H2]. cbn. rewrite (IH _ H2), andb_true_r.
  unfold all_in. apply forallb_forall. intros x X. apply member_in, H1, X.
Qed.

Definition w_names_ok (M : nat) (prog : list stmt) : bool :=
  forallb (fun s => match s with
    | Block h b => if existsb (fun opt => String.eqb h (compute_w_head opt)) [false; true]
                   then function_ok prog (w_functions_above M) h b else function_ok prog [] h b
    | _ => true end) prog.
Definition all_given (c : string) : bool := negb (String.prefix "not " c).
Definition w_names_fail (M : nat) (prog : list stmt) : bool :=
  existsb (fun s => match s with
    | Block h b => negb (bound_ok (parameters h ++ module_names prog ++ builtins ++ []) (visited all_given b))
    | _ => false end) prog.

Lemma w_checks : forallb (fun M => let p := w_prog keep M in
  w_names_ok M p && ProofsNames.calls_ok p && Bool.eqb (w_names_fail M p) (Nat.ltb M 6)) (seq 0 7) = true.
Proof. vm_cast_no_check (eq_refl true). Qed.
Lemma dt_checks : forallb (fun M => let p := dt_prog keep M in functions_ok p && ProofsNames.calls_ok p) (seq 0 7) = true.
Proof. vm_cast_no_check (eq_refl true). Qed.
Lemma residual_checks : forallb (fun M => forallb (fun r => let p := rprog M r in functions_ok p && ProofsNames.calls_ok p) (seq 0 3)) (seq 0 7) = true.
Proof. vm_cast_no_check (eq_refl true). Qed.
Lemma cross_checks : forallb (fun M => let c := module_calls "residual_equations" (dt_prog keep M) in
  forallb (fun M' => forallb (fun r => Bool.eqb (forallb (known (signatures (rprog M' r))) c) (Nat.leb M M')) (seq 0 3)) (seq 0 7)) (seq 0 7) = true.
Proof. vm_cast_no_check (eq_refl true). Qed.
Definition sym_calls (p : list stmt) : list nat :=
  map snd (filter (fun c => String.eqb (fst c) "symmetrize_tensor") (flat_map calls (all_lines p))).
Lemma sym_checks :
  forallb (fun M => forallb (Nat.eqb 3) (sym_calls (w_prog keep M)) && Nat.eqb (List.length (sym_calls (w_prog keep M))) (2 * (M - 1))
                    && forallb (Nat.eqb 3) (sym_calls (dt_prog keep M)) && Nat.eqb (List.length (sym_calls (dt_prog keep M))) (2 * M)) (seq 0 7)
  && forallb (fun M => forallb (fun r => Nat.eqb (List.length (sym_calls (rprog M r))) 0) (seq 0 3)) (seq 0 7) = true.
Proof. vm_cast_no_check (eq_refl true). Qed.
