(** The names and calls of the module of the full coupled cluster equations. *)
From Coq Require Import List Arith Bool Ascii String Lia.
From Verif Require Import PyBase PyStr ModelFullCC ModelFullCCPy SpecFullCC SpecFullCCPy SpecPython SpecEtText SpecFullCCText SpecNames
  ProofsStr ProofsFullCC ProofsPython ProofsEtRead ProofsFullCCRead ProofsFullCCProgram ProofsFullCCText ProofsNames ProofsNamesText.
Import ListNotations.
Local Open Scope nat_scope.
Local Open Scope list_scope.

Ltac fixed := eapply moves_run; [vm_compute; reflexivity|vm_compute; reflexivity].
Ltac via X := apply (moves_app _ _ _ (Code X)).

Lemma pair_moves N mn : moves N (Code "") (pair_of mn) (Code "").
Proof.
  unfold pair_of. via ""%string; [fixed|].
  replace (str_nat (fst mn) ++ ", " ++ str_nat (snd mn) ++ ")")%string with ((str_nat (fst mn) ++ ",") ++ " " ++ (str_nat (snd mn) ++ ")"))%string by (rewrite append_assoc; reflexivity).
  via ""%string; [now apply moves_number|]. via ""%string; [fixed|]. now apply moves_number.
Qed.
Lemma h_moves N mn : member "h_args" N = true -> moves N (Code "") (h_operand mn) (Code "").
Proof.
  intros H. unfold h_operand. via ""%string.
  - eapply moves_run; [vm_compute; reflexivity|]. cbn [within dot_after]. rewrite H. reflexivity.
  - via ""%string; [apply pair_moves|]. eapply moves_run; vm_compute; reflexivity.
Qed.
Lemma t_moves N l : member "t_args" N = true -> moves N (Code "") (t_operands l) (Code "").
Proof.
  intros H. unfold t_operands. apply moves_concat; [|fixed]. apply Forall_map, Forall_forall. intros mn _. via ""%string.
  - eapply moves_run; [vm_compute; reflexivity|]. cbn [within dot_after]. rewrite H. reflexivity.
  - via ""%string; [apply pair_moves|]. fixed.
Qed.

Definition default_names : list string := ["R"; "factorial"; "np"; "h_args"; "t_args"; "truncation"]%string.
Definition next_names : list string := ["R"; "factorial"; "next"; "optimized_einsum"; "h_args"; "t_args"; "truncation"]%string.
Definition path_names (name : string) : list string := [name; "oe"; "A"; "N"; "truncation"]%string.

Lemma quote_free c : good_einsum c -> has_char quote1 (String.concat ", " (e_inputs c) ++ " -> " ++ e_output c) = false.
Proof.
  intros [I O]. rewrite !has_char_app. rewrite (proj1 O). change (has_char quote1 " -> ") with false. rewrite !orb_false_r. revert I. generalize (e_inputs c). intros l I.
  induction l as [|a l IH]; [reflexivity|]. destruct l as [|b l]; [apply I; now left|].
  change (String.concat ", " (a :: b :: l)) with (a ++ ", " ++ String.concat ", " (b :: l))%string. rewrite !has_char_app, IH by (intros; apply I; now right).
  rewrite (proj1 (I a (or_introl eq_refl))). reflexivity.
Qed.
Lemma einsum_moves c : good_einsum c -> moves default_names (Code "") (einsum_text c) (Code "").
Proof.
  intros G. unfold einsum_text. set (X := (String.concat ", " (e_inputs c) ++ " -> " ++ e_output c)%string).
  replace ("np.einsum('" ++ String.concat ", " (e_inputs c) ++ " -> " ++ e_output c ++ "', " ++ h_operand (e_h c) ++ ", " ++ t_operands (e_ts c) ++ ")")%string
    with ("np.einsum(" ++ String quote1 (X ++ String quote1 "") ++ ", " ++ h_operand (e_h c) ++ ", " ++ t_operands (e_ts c) ++ ")")%string
    by (unfold X; cbn [String.append]; rewrite ?append_assoc; cbn [String.append]; rewrite ?append_assoc; reflexivity).
  via ""%string; [fixed|]. via ""%string; [now apply moves_literal, quote_free|]. via ""%string; [fixed|]. via ""%string; [now apply h_moves|]. via ""%string; [fixed|].
  via ""%string; [now apply t_moves|]. fixed.
Qed.
Lemma next_moves c : moves next_names (Code "") (next_text c) (Code "").
Proof. unfold next_text. via ""%string; [fixed|]. via ""%string; [now apply h_moves|]. via ""%string; [fixed|]. via ""%string; [now apply t_moves|]. fixed. Qed.

Lemma factorials_moves N l c : l <> [] -> member "factorial" N = true -> word_char c = false -> Ascii.eqb c quote1 || Ascii.eqb c quote2 = false -> Ascii.eqb c "." = false ->
  moves N (Code "") (factorials_text l ++ String c "") (Code "").
Proof.
  intros NE F A B D. destruct l as [|x l]; [congruence|]. unfold factorials_text. rewrite !append_assoc. via ""%string; [fixed|]. via ""%string.
  - apply moves_concat; [|fixed]. apply Forall_map, Forall_forall. intros n _. via ""%string.
    + eapply moves_run; [vm_compute; reflexivity|]. cbn [within dot_after]. rewrite F. reflexivity.
    + now apply moves_number.
  - via ""%string; [fixed|]. now apply moves_after.
Qed.
Lemma prefactor_moves N num den : member "factorial" N = true -> moves N (Code "") (prefactor_text num den) (Code "").
Proof.
  intros F. assert (U : forall l c, word_char c = false -> Ascii.eqb c quote1 || Ascii.eqb c quote2 = false -> Ascii.eqb c "." = false -> moves N (Code "") (factorials_text l ++ String c "") (Code "")).
  { intros l c A B D. destruct l as [|x l]; [exact (moves_number N 1 c A B D)|]. now apply factorials_moves. }
  assert (G : moves N (Code "") (factorials_text num ++ "/" ++ factorials_text den ++ " * ") (Code "")).
  { replace (factorials_text num ++ "/" ++ factorials_text den ++ " * ")%string with ((factorials_text num ++ "/") ++ (factorials_text den ++ " ") ++ "* ")%string by (rewrite !append_assoc; reflexivity).
    via ""%string; [now apply U|]. via ""%string; [now apply U|]. fixed. }
  unfold prefactor_text. destruct num, den; [apply moves_nil|exact G..].
Qed.
Lemma sum_moves N l : Forall (fun s => moves N (Code "") s (Code "")) l -> moves N (Code "") (sum_text l) (Code "").
Proof.
  intros F. assert (G : moves N (Code "") ("( " ++ String.concat " + " l ++ " )") (Code "")).
  { via ""%string; [fixed|]. via ""%string; [|fixed]. apply moves_concat; [exact F|fixed]. }
  unfold sum_text. destruct l as [|a [|b l]]; [exact G| |exact G]. now apply Forall_cons_iff in F.
Qed.

Lemma sum_line {C} (render : C -> string) (good : C -> Prop) N pc : (forall c, good c -> moves N (Code "") (render c) (Code "")) ->
  member "R" N = true -> member "factorial" N = true -> Forall good (snd pc) -> reads_only N (cc_sum_text render pc).
Proof.
  intros H R F G. unfold cc_sum_text. eapply (line_reads N "R += " _ (Word "R") (Sign "+") [Sign "="]); try reflexivity; [intros w X; injection X as <-; reflexivity| |].
  - cbn [within]. rewrite R. reflexivity.
  - via ""%string; [now apply prefactor_moves|]. apply sum_moves. apply Forall_map. eapply Forall_impl; [|exact G]. exact H.
Qed.
Lemma bare_line N h : member "R" N = true -> member "h_args" N = true -> reads_only N (bare_text h).
Proof.
  intros R F. unfold bare_text. eapply (line_reads N "R += " _ (Word "R") (Sign "+") [Sign "="]); try reflexivity; [intros w X; injection X as <-; reflexivity| |now apply h_moves].
  cbn [within]. rewrite R. reflexivity.
Qed.

(** paths *)
Lemma shape_moves N k : member "A" N = true -> member "N" N = true -> moves N (Code "") (shape_text k) (Code "").
Proof.
  intros HA HN. unfold shape_text. via "A"%string.
  - eapply moves_run; [vm_compute; reflexivity|]. cbn [within dot_after is_sign negb]. rewrite HA. reflexivity.
  - destruct k as [|k].
    + apply (moves_after N "A" ")"); try reflexivity. rewrite HA. apply orb_true_r.
    + assert (S1 : moves N (Code "A") ", N" (Code "N")).
      { eapply moves_run; [vm_compute; reflexivity|]. cbn [within dot_after is_sign negb]. rewrite HA. reflexivity. }
      assert (S2 : moves N (Code "N") ", N" (Code "N")).
      { eapply moves_run; [vm_compute; reflexivity|]. cbn [within dot_after is_sign negb]. rewrite HN. reflexivity. }
      cbn [repeat]. rewrite concat_cons_empty. rewrite append_assoc. via "N"%string; [exact S1|]. via "N"%string.
      * apply moves_concat; [|apply moves_nil]. apply Forall_forall. intros x Hx. apply repeat_spec in Hx as ->. exact S2.
      * apply (moves_after N "N" ")"); try reflexivity. rewrite HN. apply orb_true_r.
Qed.
Lemma contract_moves name c : moves (path_names name) (Code "") (contract_text c) (Code "").
Proof.
  unfold contract_text. via ""%string; [eapply moves_run; [vm_compute; reflexivity|]|].
  - cbn [within dot_after is_sign negb orb]. unfold path_names. cbn [member existsb]. rewrite String.eqb_refl. rewrite !orb_true_r. reflexivity.
  - via ""%string; [|fixed]. apply moves_concat; [|fixed]. apply Forall_map, Forall_forall. intros k _. apply shape_moves; unfold path_names; cbn [member existsb]; rewrite String.eqb_refl; rewrite ?orb_true_r; reflexivity.
Qed.
Lemma extend_line g pc : In g groups -> reads_only (path_names (path_list_name g)) (extend_text contract_text (path_list_name g) pc).
Proof.
  intros Hg. set (N := path_names (path_list_name g)).
  assert (L : forall l, moves N (Code "") (String.concat ", " (map contract_text l)) (Code "")).
  { intros l. apply moves_concat; [|fixed]. apply Forall_map, Forall_forall. intros c _. apply contract_moves. }
  assert (X : forall c, reads_only N (path_list_name g ++ ".append(" ++ contract_text c ++ ")")).
  { intros c. rewrite <- append_assoc. unfold N. destruct Hg as [<-|[<-|[<-|[]]]]; cbn [path_list_name fst];
      (eapply line_reads_run; [vm_compute; reflexivity|reflexivity|intros w Y; injection Y as <-; reflexivity|reflexivity..|]);
      (via ""%string; [apply contract_moves|fixed]). }
  assert (Y : forall l, reads_only N (path_list_name g ++ ".extend([ " ++ String.concat ", " (map contract_text l) ++ " ])")).
  { intros l. rewrite <- append_assoc. specialize (L l). unfold N in *. destruct Hg as [<-|[<-|[<-|[]]]]; cbn [path_list_name fst] in *;
      (eapply line_reads_run; [vm_compute; reflexivity|reflexivity|intros w Z; injection Z as <-; reflexivity|reflexivity..|]);
      (via ""%string; [exact L|fixed]). }
  unfold extend_text. destruct (snd pc) as [|a [|b l]]; [apply (Y [])|apply X|apply (Y (a :: b :: l))].
Qed.

(** ** Bodies *)

Section Body.
  Context {C : Type}.
  Variables (good : C -> Prop) (text : prefactor * list C -> string) (N : list string).
  Hypothesis line : forall pc, Forall good (snd pc) -> reads_only N (text pc).
  Hypothesis HT : member "truncation" N = true.
  Lemma t_condition_line j : reads_only N (cc_t_condition j).
  Proof. apply (reads_only_more ["truncation"%string]); [intros x [<-|[]]; now apply member_in|]. apply reads_checked. do 7 (destruct j as [|j]; [vm_compute; reflexivity|]). destruct j; vm_compute; reflexivity. Qed.
  Lemma h_condition_line i : reads_only N (cc_h_condition i).
  Proof. apply (reads_only_more ["truncation"%string]); [intros x [<-|[]]; now apply member_in|]. apply reads_checked. do 6 (destruct i as [|i]; [vm_compute; reflexivity|]). destruct i; vm_compute; reflexivity. Qed.
  Lemma sums_read l : Forall (good_sum good) l -> body_reads N (sums_stmts text l).
  Proof.
    intros F. unfold body_reads, sums_stmts. induction F as [|pc l [_ G] F IH]; [constructor|]. cbn [map flat_map lines1 app]. constructor; [now apply line|exact IH].
  Qed.
  Lemma if_reads c yes : reads_only N c -> body_reads N yes -> body_reads N [If c yes []].
  Proof. intros A B. unfold body_reads. cbn [flat_map lines1]. rewrite !app_nil_r. now constructor. Qed.
  Lemma block_reads b : good_block good b -> (forall h, b = BBare h -> reads_only N (bare_text h)) -> body_reads N (block_stmts text b).
  Proof.
    assert (I : forall js, good_if good js -> body_reads N [if_stmt text js]).
    { intros js [_ F]. apply if_reads; [apply t_condition_line|now apply sums_read]. }
    intros G B. destruct b as [h|p calls|j sums|i sums ifs|]; cbn [good_block block_stmts] in *.
    - constructor; [now apply B|constructor].
    - destruct G as [_ G]. constructor; [now apply line|constructor].
    - now apply I.
    - destruct G as (_ & F1 & F2). apply if_reads; [apply h_condition_line|]. apply body_reads_app; [now apply sums_read|].
      clear - F2 I. induction F2 as [|js ifs G F IH]; [constructor|]. cbn [map]. change (if_stmt text js :: map (if_stmt text) ifs) with ([if_stmt text js] ++ map (if_stmt text) ifs). apply body_reads_app; [now apply I|exact IH].
    - constructor; [|constructor]. apply (reads_only_more []); [intros x []|]. apply reads_checked. reflexivity.
  Qed.
  Lemma body_reads_all l : written_body good l -> (run_bare l <> [] -> member "R" N = true /\ member "h_args" N = true) -> body_reads N (cc_body_stmts text l).
  Proof.
    intros W R. pose proof (written_body_good _ _ W) as G. clear W. unfold cc_body_stmts. induction G as [|b l Gb G IH]; [constructor|]. cbn [flat_map]. apply body_reads_app.
    - apply block_reads; [exact Gb|]. intros h ->. destruct R as [R1 R2]; [cbn; discriminate|]. now apply bare_line.
    - apply IH. intros NE. apply R. destruct b; try exact NE. discriminate.
  Qed.
End Body.

Lemma default_reads l : written_body good_einsum l -> body_reads default_names (default_stmts l).
Proof.
  intros W. apply (body_reads_all good_einsum); try reflexivity; [|exact W|intros _; split; reflexivity].
  intros pc G. apply (sum_line _ good_einsum); try reflexivity; [|exact G]. intros c Gc. rewrite einsum_is. now apply einsum_moves.
Qed.
Lemma next_reads l : written_body (fun _ => True) l -> body_reads next_names (next_stmts l).
Proof.
  intros W. apply (body_reads_all (fun _ => True)); try reflexivity; [|exact W|intros _; split; reflexivity].
  intros pc G. apply (sum_line _ (fun _ => True)); try reflexivity; [|exact G]. intros c _. rewrite next_is. apply next_moves.
Qed.
Lemma path_reads g l : In g groups -> written_body (fun _ => True) l -> run_bare l = [] -> body_reads (path_names (path_list_name g)) (path_stmts (path_list_name g) l).
Proof.
  intros Hg W B. apply (body_reads_all (fun _ => True)); [| |exact W|congruence].
  - intros pc _. assert (X : extend_text render_path (path_list_name g) pc = extend_text contract_text (path_list_name g) pc).
    { destruct pc as [q [|c [|c' r]]]; unfold extend_text; cbn [snd]; [reflexivity| |]; [now rewrite path_is|]. now rewrite (map_ext _ _ path_is). }
    rewrite X. now apply extend_line.
  - unfold path_names. cbn [member existsb]. rewrite String.eqb_refl. rewrite !orb_true_r. reflexivity.
Qed.
