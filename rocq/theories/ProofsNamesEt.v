(** The names and calls of the module of the e^T ansatz. *)
From Coq Require Import List Arith Bool Ascii String Lia.
From Verif Require Import PyBase PyBaseFacts PyStr ModelHelper ModelFullCC ModelFullCCPy ModelZhz ModelEt ModelEtPy SpecEt SpecEtPy SpecPython SpecEtText
  ProofsStr ProofsFullCC ProofsFullCCBuckets ProofsPython ProofsEtBody ProofsEtGen ProofsEtFile ProofsEtRead ProofsEtProgram SpecNames ProofsNames ProofsNamesText.
Import ListNotations.
Local Open Scope nat_scope.
Local Open Scope list_scope.

Ltac fixed := eapply moves_run; [vm_compute; reflexivity|vm_compute; reflexivity].
Ltac via X := apply (moves_app _ _ _ (Code X)).

Definition operand_names (s : side) : list string := match s with RHS => ["t_args"; "h_args"; "z_args"] | LHS => ["t_conj"; "dT"; "z_args"; "dz_args"] end%string.
Definition side_names (s : side) : list string := result_name s :: "np"%string :: "truncation"%string :: operand_names s.
Definition named_call (s : side) (c : ecall) : Prop := sound_call c /\ forall o, In o (c_operands c) -> In (fst o) (operand_names s).

(** ** Lines *)

Lemma operand_moves s o : In (fst o) (operand_names s) -> moves (side_names s) (Code "") (operand_text o) (Code "").
Proof.
  destruct o as [name [m n]]. cbn [fst]. intros H. unfold operand_text. cbn [fst snd]. rewrite <- append_assoc.
  replace (str_nat m ++ ", " ++ str_nat n ++ ")]")%string with ((str_nat m ++ ",") ++ " " ++ (str_nat n ++ ")") ++ "]")%string by (rewrite !append_assoc; reflexivity).
  via ""%string.
  - destruct s; cbn [operand_names In] in H; (repeat destruct H as [<-|H]); try destruct H; fixed.
  - via ""%string; [now apply moves_number|]. via ""%string; [fixed|]. via ""%string; [now apply moves_number|]. fixed.
Qed.
Lemma call_quote_free c : sound_call c -> has_char quote1 (String.concat ", " (c_inputs c) ++ " -> " ++ c_output c) = false.
Proof. intros (I & O & _). apply nq_app; [apply nq_concat; [split; reflexivity|exact I]|]. apply nq_app; [split; reflexivity|exact O]. Qed.
Lemma call_moves s c : named_call s c -> moves (side_names s) (Code "") (call_text c) (Code "").
Proof.
  intros [G O]. unfold call_text. set (X := (String.concat ", " (c_inputs c) ++ " -> " ++ c_output c)%string).
  replace ("np.einsum('" ++ String.concat ", " (c_inputs c) ++ " -> " ++ c_output c ++ "', " ++ String.concat ", " (map operand_text (c_operands c)) ++ ")")%string
    with ("np.einsum(" ++ String quote1 (X ++ String quote1 "") ++ ", " ++ String.concat ", " (map operand_text (c_operands c)) ++ ")")%string
    by (unfold X; cbn [String.append]; rewrite ?append_assoc; cbn [String.append]; rewrite ?append_assoc; reflexivity).
  via ""%string; [destruct s; fixed|]. via ""%string; [now apply moves_literal, call_quote_free|]. via ""%string; [fixed|]. via ""%string; [|fixed].
  apply moves_concat; [|fixed]. apply Forall_map, Forall_forall. intros o Ho. now apply operand_moves, O.
Qed.
Lemma prefactor_moves N p : moves N (Code "") (eT_prefactor_text p) (Code "").
Proof.
  unfold eT_prefactor_text. destruct (Nat.eqb _ _); [apply moves_nil|].
  replace ("(" ++ str_nat (fst p) ++ " / " ++ str_nat (snd p) ++ ") * ")%string with ("(" ++ (str_nat (fst p) ++ " ") ++ "/ " ++ (str_nat (snd p) ++ ")") ++ " * ")%string by (rewrite !append_assoc; reflexivity).
  via ""%string; [fixed|]. via ""%string; [now apply moves_number|]. via ""%string; [fixed|]. via ""%string; [now apply moves_number|]. fixed.
Qed.
Lemma sum_moves N l : Forall (fun s => moves N (Code "") s (Code "")) l -> moves N (Code "") (sum_text l) (Code "").
Proof.
  intros F. assert (G : moves N (Code "") ("( " ++ String.concat " + " l ++ " )") (Code "")).
  { via ""%string; [fixed|]. via ""%string; [|fixed]. apply moves_concat; [exact F|fixed]. }
  unfold sum_text. destruct l as [|a [|b l]]; [exact G| |exact G]. now apply Forall_cons_iff in F.
Qed.
Definition named_sum (s : side) (pc : nat * nat * list ecall) : Prop := Forall (named_call s) (snd pc).
Lemma sum_line s pc : named_sum s pc -> body_reads (side_names s) [sum_stmt s pc].
Proof.
  intros G. constructor; [|constructor]. rewrite <- append_assoc.
  assert (M : moves (side_names s) (Code "") (eT_prefactor_text (fst pc) ++ sum_text (map call_text (snd pc))) (Code "")).
  { via ""%string; [apply prefactor_moves|]. apply sum_moves. apply Forall_map. eapply Forall_impl; [|exact G]. apply call_moves. }
  destruct s; cbn [result_name String.append] in *.
  - eapply (line_reads _ "Z += " _ (Word "Z") (Sign "+") [Sign "="]); try reflexivity; [intros w X; injection X as <-; reflexivity|exact M].
  - eapply (line_reads _ "R += " _ (Word "R") (Sign "+") [Sign "="]); try reflexivity; [intros w X; injection X as <-; reflexivity|exact M].
Qed.

Lemma truncation_line s t : reads_ok ["truncation"%string] t = true -> reads_only (side_names s) t.
Proof. intros H. apply (reads_only_more ["truncation"%string]); [intros x [<-|[]]; right; right; now left|]. now apply reads_checked. Qed.
Lemma z_line s k : reads_only (side_names s) (z_condition k).
Proof. apply truncation_line. do 6 (destruct k as [|k]; [vm_compute; reflexivity|]). destruct k; vm_compute; reflexivity. Qed.
Lemma h_line s k : reads_only (side_names s) (h_condition k).
Proof. apply truncation_line. do 6 (destruct k as [|k]; [vm_compute; reflexivity|]). destruct k; vm_compute; reflexivity. Qed.
Lemma t_line s k : reads_only (side_names s) (t_condition k).
Proof. apply truncation_line. do 7 (destruct k as [|k]; [vm_compute; reflexivity|]). destruct k; vm_compute; reflexivity. Qed.

(** ** Bodies *)

Definition named_zsums (s : side) (b : zsums) : Prop := Forall (fun kp => Forall (named_sum s) (snd kp)) b.
Definition named_ifs (s : side) (l : list (nat * zsums)) : Prop := Forall (fun jb => named_zsums s (snd jb)) l.
Definition named_body (s : side) (b : ebody) : Prop :=
  match b with
  | EBody b00 b0 bh => named_zsums s b00 /\ named_ifs s b0 /\ Forall (fun ib => named_zsums s (fst (snd ib)) /\ named_ifs s (snd (snd ib))) bh
  | _ => True
  end.
Lemma body_reads_flat {A} N (f : A -> list stmt) l : Forall (fun x => body_reads N (f x)) l -> body_reads N (flat_map f l).
Proof. induction 1 as [|x l X F IH]; [constructor|]. cbn [flat_map]. now apply body_reads_app. Qed.
Lemma body_reads_map {A} N (f : A -> stmt) l : Forall (fun x => body_reads N [f x]) l -> body_reads N (map f l).
Proof. intros F. rewrite <- flat_map_singleton. now apply body_reads_flat. Qed.
Lemma if_reads N c yes : reads_only N c -> body_reads N yes -> body_reads N [If c yes []].
Proof. intros A B. unfold body_reads. cbn [flat_map lines1]. rewrite !app_nil_r. now constructor. Qed.
Lemma z_reads s b : named_zsums s b -> body_reads (side_names s) (z_stmts s b).
Proof.
  intros F. apply body_reads_flat. eapply Forall_impl; [|exact F]. intros [k l] G. cbn [fst snd] in *.
  assert (X : body_reads (side_names s) (map (sum_stmt s) l)) by (apply body_reads_map; eapply Forall_impl; [|exact G]; apply sum_line).
  destruct k as [|k]; [exact X|]. apply if_reads; [apply z_line|exact X].
Qed.
Lemma t_reads s l : named_ifs s l -> body_reads (side_names s) (t_stmts s l).
Proof. intros F. apply body_reads_map. eapply Forall_impl; [|exact F]. intros [j b] G. apply if_reads; [apply t_line|now apply z_reads]. Qed.
Lemma body_names s b : named_body s b -> body_reads (side_names s) (body_stmts s b).
Proof.
  assert (X : body_reads (side_names s) [Simple "pass"]).
  { constructor; [|constructor]. apply (reads_only_more []); [intros x []|]. now apply reads_checked. }
  destruct b as [| |b00 b0 bh]; [auto|auto|]. intros (A & B & C). cbn [body_stmts]. apply body_reads_app; [now apply z_reads|]. apply body_reads_app; [now apply t_reads|].
  apply body_reads_flat. eapply Forall_impl; [|exact C]. intros [i [u v]] [D E]. unfold block_stmts. cbn [fst snd] in *.
  assert (Y : body_reads (side_names s) (z_stmts s u ++ t_stmts s v)) by (apply body_reads_app; [now apply z_reads|now apply t_reads]).
  destruct (z_stmts s u ++ t_stmts s v) as [|y ys]; [constructor|]. apply if_reads; [apply h_line|exact Y].
Qed.

(** ** The bodies of the file *)

Lemma operand_named s h z ts : (forall o, In o (eT_h_operand s h ++ [eT_z_operand s h z]) -> In (fst o) (operand_names s)) /\
  (forall o, In o (map (eT_t_operand s) ts ++ (eT_h_operand s h ++ [eT_z_operand s h z])) -> In (fst o) (operand_names s)).
Proof.
  assert (A : forall o, In o (eT_h_operand s h ++ [eT_z_operand s h z]) -> In (fst o) (operand_names s)).
  { intros o H. apply in_app_iff in H as [H|[<-|[]]].
    - unfold eT_h_operand in H. destruct s; [destruct (Nat.eqb _ 0 && _); [destruct H|]|]; destruct H as [<-|[]]; cbn; auto.
    - unfold eT_z_operand. destruct s; [destruct (Nat.eqb _ 0 && _)|]; cbn; auto. }
  split; [exact A|]. intros o H. apply in_app_iff in H as [H|H]; [|auto]. apply in_map_iff in H as (t & <- & _). destruct s; cbn; auto.
Qed.
Lemma calls_named s t calls : eT_calls s t = Ok calls -> Forall (named_call s) calls.
Proof.
  intros E. destruct (calls_sound s t calls E) as [_ F]. apply Forall_forall. intros c Hc. split; [rewrite Forall_forall in F; auto|]. clear F. revert E Hc. unfold eT_calls.
  destruct (eT_vibrational_components (tt_ts t) (tt_h t) (tt_z t)) as [[v r]|]; [|discriminate]. cbn [bind]. destruct (operand_named s (tt_h t) (tt_z t) (tt_ts t)) as [O1 O2]. cbv zeta.
  destruct (dedup ett_eqb (tt_ts t)) as [|d0 [|d1 ds]]; [discriminate| |].
  - destruct (Nat.eqb (et_rank d0) 0); [destruct (String.eqb r "")|]; intros E Hc; apply (f_equal (fun x => match x with Ok y => y | Err _ => [] end)) in E; cbv beta iota in E; subst calls.
    + destruct Hc as [<-|[]]. exact O1. + apply repeat_spec in Hc as ->. exact O1. + destruct Hc as [<-|[]]. exact O2.
  - intros E Hc. apply (f_equal (fun x => match x with Ok y => y | Err _ => [] end)) in E; cbv beta iota in E; subst calls. destruct Hc as [<-|[]]. exact O2.
Qed.
Lemma zsums_named s d i j : Forall (fun e => named_call s (en_call e)) d -> named_zsums s (zsums_of d i j).
Proof.
  intros F. unfold zsums_of. set (here := filter _ d). apply Forall_map, Forall_forall. intros k _. cbn [snd]. set (at_z := filter (fun e => Nat.eqb (en_z e) k) here).
  apply Forall_map, Forall_forall. intros p _. destruct (unique_calls_spec (map en_call (filter (fun e => same_pref (en_pref e) p) at_z))) as (_ & U1 & _).
  apply Forall_forall. cbn [snd]. intros c Hc. apply U1, in_map_iff in Hc as (e' & <- & He'). apply filter_In in He' as [He' _]. apply filter_In in He' as [He' _]. apply filter_In in He' as [He' _].
  rewrite Forall_forall in F. auto.
Qed.
Lemma ifs_named s d cc i : Forall (fun e => named_call s (en_call e)) d -> named_ifs s (ifs_of d cc i).
Proof. intros F. apply Forall_flat_map_intro. intros j _. pose proof (zsums_named s d i j F) as Z. destruct (zsums_of d i j); constructor; [|constructor]. exact Z. Qed.
Lemma body_of_named s d H cc : Forall (fun e => named_call s (en_call e)) d -> named_body s (body_of d H cc).
Proof.
  intros F. split; [now apply zsums_named|]. split; [now apply ifs_named|]. apply Forall_map, Forall_forall. intros i _. split; [now apply zsums_named|now apply ifs_named].
Qed.
Lemma written_named s H CC l b : write_third_eTz_einsum_python s H CC l = Ok b -> named_body s b.
Proof.
  intros E. destruct l as [|t0 l0]; [injection E as <-; exact I|].
  cbn [write_third_eTz_einsum_python] in E. destruct (concatM (eT_entries s H) (t0 :: l0)) as [d|] eqn:Ed; [|discriminate]. cbn [bind] in E. apply body_ok in E as ->.
  destruct (concatM_in (eT_entries s H) _ (concatM_Ok _ _ _ Ed)) as (d' & Ed' & Id). rewrite Ed in Ed'. injection Ed' as <-.
  apply body_of_named, Forall_forall. intros e He. apply Id in He as (t & y & _ & Ey & Iy). unfold eT_entries in Ey. destruct (negb _); [discriminate|].
  destruct (build_eT_zhz_python_prefactor _ _ _) as [nd|]; [|discriminate]. cbn [bind] in Ey. destruct (Nat.ltb _ _); [discriminate|]. destruct (eT_calls s t) as [calls|] eqn:Ec; [|discriminate].
  cbn [bind] in Ey. injection Ey as <-. apply calls_named in Ec. apply in_map_iff in Iy as (c & <- & Hc). rewrite Forall_forall in Ec. exact (Ec c Hc).
Qed.
Lemma einsums_named s Proj ops gs b1 b2 : generate_eT_zhz_einsums s Proj ops gs = Ok (b1, b2) -> named_body s b1 /\ named_body s b2.
Proof.
  unfold generate_eT_zhz_einsums. destruct (if gs then _ else _) as [H Z]. destruct (eT_zhz_terms _ _ _ _ _) as [[zl tl]|]; [|discriminate]. cbn [bind]. intros E.
  assert (W : (b1 = EInvalid /\ b2 = EInvalid) \/ (write_third_eTz_einsum_python s (op_h_rank ops) (op_cc_rank ops) zl = Ok b1 /\ write_third_eTz_einsum_python s (op_h_rank ops) (op_cc_rank ops) tl = Ok b2)).
  { assert (G : (do a <- write_third_eTz_einsum_python s (op_h_rank ops) (op_cc_rank ops) zl; do b <- write_third_eTz_einsum_python s (op_h_rank ops) (op_cc_rank ops) tl; Ok (a, b)) = Ok (b1, b2) ->
      write_third_eTz_einsum_python s (op_h_rank ops) (op_cc_rank ops) zl = Ok b1 /\ write_third_eTz_einsum_python s (op_h_rank ops) (op_cc_rank ops) tl = Ok b2).
    { clear E. destruct (write_third_eTz_einsum_python s _ _ zl) as [w1|]; [|discriminate]. destruct (write_third_eTz_einsum_python s _ _ tl) as [w2|]; [|discriminate]. cbn [bind]. intros E. injection E as <- <-. auto. }
    destruct zl; [destruct tl|]; [left; injection E as <- <-; auto|right; now apply G..]. }
  destruct W as [[-> ->]|[W1 W2]]; [split; exact I|]. split; [exact (written_named _ _ _ _ _ W1)|exact (written_named _ _ _ _ _ W2)].
Qed.

(** ** The fixed lines *)

Definition argument_list (s : side) : list string := match s with RHS => ["ansatz"; "truncation"; "t_args"; "h_args"; "z_args"] | LHS => ["ansatz"; "truncation"; "t_conj"; "dT"; "z_args"; "dz_args"] end%string.
Definition terms_parameters (s : side) (opt : bool) : list string := result_name s :: argument_list s ++ (if opt then ["opt_einsum"%string] else []).
Definition equation_parameters (s : side) (opt : bool) : list string := ["A"; "N"]%string ++ argument_list s ++ (if opt then ["opt_paths"%string] else []).
Definition equation_code (s : side) (opt : bool) (p : nat) : list stmt :=
  map (fun x => Simple ("truncation.confirm_at_least_" ++ x ++ "()")) (firstn (Nat.max 1 p) check_names)
  ++ [Simple (zeros_stmt s p)]
  ++ (if opt then [Simple "optimized_HZ_paths, optimized_eT_HZ_paths = opt_paths"] else [])
  ++ [Simple (call_stmt s p opt "HZ"); Simple (call_stmt s p opt "eT_HZ"); Simple ("return " ++ equation_result s)].
Definition kinds : list string := ["HZ"; "eT_HZ"]%string.
Definition equation_name (p : nat) (opt : bool) : string := ("compute_m0_n" ++ str_nat p ++ "_amplitude" ++ optimized opt)%string.
Definition projection_ok (s : side) (opt : bool) (p : nat) : bool :=
  forallb (fun k => head_ok (terms_head s p k opt) (terms_name s p k opt) (terms_parameters s opt)) kinds
  && head_ok (equation_head s p opt) (equation_name p opt) (equation_parameters s opt)
  && flows (equation_parameters s opt ++ map (fun k => terms_name s p k opt) kinds ++ ["np"; "complex"]%string) (equation_code s opt p)
  && calls_known (map (fun k => (terms_name s p k opt, List.length (terms_parameters s opt))) kinds) (equation_code s opt p).
Lemma projections_checked : forallb (fun s => forallb (fun opt => forallb (projection_ok s opt) (seq 0 9)) [false; true]) [LHS; RHS] = true.
Proof. vm_compute. reflexivity. Qed.
Lemma projection_checked s opt p : p <= 8 -> projection_ok s opt p = true.
Proof.
  intros H. pose proof projections_checked as C. rewrite forallb_forall in C. specialize (C s ltac:(destruct s; cbn; auto)). rewrite forallb_forall in C.
  specialize (C opt ltac:(destruct opt; cbn; auto)). rewrite forallb_forall in C. apply C, in_seq. lia.
Qed.

(** ** The program *)

Section Program.
  Variables (s : side) (g : bool) (H CC P : nat) (ser : list series_term).
  Let ps := eT_projections CC P.
  Let prog := program s g H CC P ser.
  Hypothesis HCC : CC <= 8.

  Lemma ps_small o : In o ps -> g_n o <= 8.
  Proof. intros Ho. apply projection_facts in Ho as (_ & L & _). lia. Qed.

  Inductive eT_fun : stmt -> Prop :=
  | of_terms o opt k b : In o ps -> In k kinds -> named_body s b -> eT_fun (terms_block s o opt k (body_stmts s b) (others_of g s b))
  | of_equation o opt : In o ps -> eT_fun (equation_block s opt o).

  Lemma bodies_named o : named_body s (fst (bodies_of s g H CC ser o)) /\ named_body s (snd (bodies_of s g H CC ser o)).
  Proof.
    unfold bodies_of. destruct (generate_eT_zhz_einsums _ _ _ _) as [[b1 b2]|] eqn:E; [|split; exact I]. exact (einsums_named _ _ _ _ _ _ E).
  Qed.
  Lemma functions_are x : In x prog -> (exists t, In t eT_imports /\ x = Simple t) \/ eT_fun x.
  Proof.
    assert (X : forall opt, In x (half s g H CC P ser opt) -> eT_fun x).
    { intros opt Hx. unfold half in Hx. fold ps in Hx. apply in_app_iff in Hx as [Hx|Hx]; apply in_flat_map in Hx as (o & Ho & Hx).
      - destruct (bodies_named o) as [B1 B2]. destruct Hx as [<-|[<-|[]]]; apply of_terms; auto; cbn; auto.
      - destruct Hx as [<-|[]]. now apply of_equation. }
    unfold prog, program. rewrite !in_app_iff. intros [Hx|[Hx|Hx]]; [|right; now apply (X false)|right; now apply (X true)].
    left. apply in_map_iff in Hx as (t & <- & Ht). now exists t.
  Qed.
  Lemma in_half opt x : In x (half s g H CC P ser opt) -> In x prog.
  Proof. intros Hx. unfold prog, program. apply in_or_app. right. apply in_or_app. destruct opt; [right|left]; exact Hx. Qed.
  Lemma has_terms o opt k : In o ps -> In k kinds -> exists b, In (Block (terms_head s (g_n o) k opt) b) prog.
  Proof.
    intros Ho Hk. assert (X : exists b, In (Block (terms_head s (g_n o) k opt) b) (terms_blocks s g opt o (bodies_of s g H CC ser o))).
    { unfold terms_blocks, terms_block. destruct Hk as [<-|[<-|[]]]; eexists; [left|right; left]; reflexivity. }
    destruct X as [b X]. exists b. apply (in_half opt). unfold half. apply in_or_app. left. apply in_flat_map. exists o. now split.
  Qed.
  Lemma has_np : In "np"%string (module_names prog).
  Proof.
    apply (import_name _ "import numpy as np"); [|vm_compute; now left]. unfold prog, program. apply in_or_app. left. apply in_map. right. now left.
  Qed.

  Lemma facts o opt : In o ps ->
    (forall k, In k kinds -> head_name (terms_head s (g_n o) k opt) = terms_name s (g_n o) k opt /\ parameters (terms_head s (g_n o) k opt) = terms_parameters s opt /\ local_name (terms_name s (g_n o) k opt) = true) /\
    (head_name (equation_head s (g_n o) opt) = equation_name (g_n o) opt /\ parameters (equation_head s (g_n o) opt) = equation_parameters s opt /\ local_name (equation_name (g_n o) opt) = true) /\
    flows (equation_parameters s opt ++ map (fun k => terms_name s (g_n o) k opt) kinds ++ ["np"; "complex"]%string) (equation_code s opt (g_n o)) = true /\
    calls_known (map (fun k => (terms_name s (g_n o) k opt, List.length (terms_parameters s opt))) kinds) (equation_code s opt (g_n o)) = true.
  Proof.
    intros Ho. pose proof (projection_checked s opt (g_n o) (ps_small o Ho)) as C. unfold projection_ok in C. apply andb_prop in C as [C C4]. apply andb_prop in C as [C C3]. apply andb_prop in C as [C1 C2].
    split; [|split; [now apply head_ok_all|split; [exact C3|exact C4]]]. rewrite forallb_forall in C1. intros k Hk. now apply head_ok_all, C1.
  Qed.

  Lemma signature_names f : In f (map fst (signatures prog)) -> local_name f = true.
  Proof.
    intros Hf. apply in_map_iff in Hf as ([f' n] & <- & Hs). apply in_flat_map in Hs as (x & Hx & Hs). cbn [fst]. destruct (functions_are x Hx) as [(t & _ & ->)|F]; [destruct Hs|].
    destruct F as [o opt k b Ho Hk _|o opt Ho]; cbn [In terms_block equation_block] in Hs; destruct Hs as [Hs|[]]; injection Hs as <- _; destruct (facts o opt Ho) as (F1 & F2 & _).
    - destruct (F1 k Hk) as (-> & _ & L). exact L.
    - destruct F2 as (-> & _ & L). exact L.
  Qed.

  Lemma condition_reads : names_read "ansatz.ground_state" = ["ansatz"%string] /\ names_bound "ansatz.ground_state" = [].
  Proof. vm_compute. auto. Qed.
  Lemma hot_reads : names_read eT_hot_band = ["NotImplementedError"%string] /\ names_bound eT_hot_band = [].
  Proof. vm_compute. auto. Qed.

  Lemma eT_names_resolved : names_resolved prog.
  Proof.
    intros head body Hb flag. destruct (functions_are _ Hb) as [(t & _ & X)|F]; [discriminate|]. set (e := parameters head ++ module_names prog ++ builtins ++ []).
    assert (PE : incl (parameters head) e) by apply incl_appl, incl_refl.
    assert (ME : incl (module_names prog) e) by apply incl_appr, incl_appl, incl_refl.
    assert (BE : incl builtins e) by apply incl_appr, incl_appr, incl_appl, incl_refl.
    clearbody e. inversion F as [o opt k b Ho Hk W X|o opt Ho X]; subst head body; destruct (facts o opt Ho) as (F1 & F2 & F3 & _).
    - destruct (F1 k Hk) as (_ & P1 & _). rewrite P1 in PE. apply visited_bound. cbn [flat_map]. change (visited1 flag (Simple (doc_of o opt k))) with [doc_of o opt k]. cbn [app].
      apply bound_doc; [reflexivity|].
      assert (N : incl (side_names s) e).
      { intros x Hx. destruct Hx as [<-|[<-|[<-|Hx]]]; [apply PE; now left|apply ME, has_np|apply PE; destruct s; cbn; auto|]. apply PE. right. apply in_or_app. left. destruct s; cbn in *; tauto. }
      assert (A : In "ansatz"%string e) by (apply PE; right; destruct s; now left). assert (NI : In "NotImplementedError"%string e) by (apply BE; cbn; auto).
      assert (R : body_reads (side_names s) (body_stmts s b)) by now apply body_names. destruct (body_bound _ e flag _ R N) as [R1 R2].
      assert (Q : bound_when_read e (flat_map (visited1 flag) (others_of g s b)) /\ after_lines e (flat_map (visited1 flag) (others_of g s b)) = e).
      { unfold others_of. destruct g; [|now split]. destruct hot_reads as [H1 H2]. cbn [flat_map visited1 app bound_when_read after_lines]. rewrite H1, H2. repeat split. intros x [<-|[]]. exact NI. }
      destruct Q as [Q1 Q2]. destruct condition_reads as [C1 C2]. apply bound_app; cbn [visited1 bound_when_read after_lines]; rewrite ?C1, C2; cbn [app].
      + split; [intros x [<-|[]]; exact A|]. destruct (flag _); assumption.
      + destruct (flag _); [rewrite R2|rewrite Q2]; cbn [flat_map visited1 app]; apply return_bound.
    - destruct F2 as (_ & P1 & _). rewrite P1 in PE.
      refine (fixed_body _ e (equation_doc o) (equation_code s opt (g_n o)) flag _ F3 _); [reflexivity|]. apply incl_app; [exact PE|]. apply incl_app.
      + intros x Hx. apply in_map_iff in Hx as (k & <- & Hk). apply ME. destruct (has_terms o opt k Ho Hk) as [b Hin]. apply block_name in Hin. now rewrite (proj1 (F1 k Hk)) in Hin.
      + intros x [<-|[<-|[]]]; [apply ME, has_np|apply BE; cbn; auto].
  Qed.

  Lemma eT_calls_match : calls_match prog.
  Proof.
    intros t f n Ht. revert f n. change (fits prog t). unfold all_lines in Ht. apply in_flat_map in Ht as (x & Hx & Ht). pose proof signature_names as L.
    assert (FO : forall s, foreign_calls s = true -> fits prog s) by (intros s' Hs; apply fits_other; [exact L|now apply foreign_ok]).
    assert (DO : forall s, String.prefix triple s = true -> fits prog s).
    { intros s' Hs f n Hf. destruct (doc_effect s' Hs) as (_ & _ & C). rewrite C in Hf. destruct Hf. }
    destruct (functions_are x Hx) as [(s' & Hs & ->)|F].
    { destruct Ht as [<-|[]]. apply FO. unfold eT_imports in Hs. cbn [In] in Hs. destruct Hs as [<-|[<-|[<-|[<-|[<-|[]]]]]]; vm_compute; reflexivity. }
    inversion F as [o opt k b Ho Hk W X|o opt Ho X]; subst x; destruct (facts o opt Ho) as (F1 & F2 & F3 & F4).
    - unfold terms_block in Ht. rewrite lines1_block in Ht. 
      assert (BO : In t (flat_map lines1 (body_stmts s b)) -> fits prog t).
      { intros Hb. pose proof (body_names s b W) as R. unfold body_reads in R. rewrite Forall_forall in R. apply fits_other; [exact L|]. apply (reads_local (side_names s) t (R t Hb)). destruct s; reflexivity. }
      apply in_cons_lines in Ht as [Ht%in_simple|[Ht|[Ht%in_simple|[]]%in_cons_lines]%in_cons_lines]; [subst t; now apply DO| |subst t; apply FO; vm_compute; reflexivity].
      cbn [lines1] in Ht. destruct Ht as [<-|Ht]; [apply FO; vm_compute; reflexivity|]. apply in_app_iff in Ht as [Ht|Ht]; [now apply BO|]. unfold others_of in Ht. destruct g; [|now apply BO].
      destruct Ht as [<-|[]]. apply FO. vm_compute. reflexivity.
    - change (In t (flat_map lines1 (Simple (equation_doc o) :: equation_code s opt (g_n o)))) in Ht. apply in_cons_lines in Ht as [Ht%in_simple|Ht]; [subst t; now apply DO|].
      refine (proj1 (Forall_forall _ _) (calls_known_fits prog _ _ L _ F4) t Ht). intros y Hy. apply in_map_iff in Hy as (k & <- & Hk). destruct (has_terms o opt k Ho Hk) as [b Hin]. apply block_signature in Hin.
      destruct (F1 k Hk) as (E1 & E2 & _). now rewrite E1, E2 in Hin.
  Qed.
End Program.

Lemma program_of s g H CC e P text prog : 1 <= CC <= 8 -> generate_eT_zhz_python s g H CC 1 e P = Ok text -> python text prog -> exists ser, prog = program s g H CC P ser.
Proof.
  intros HCC E R. assert (exists ser, generate_eT_taylor_expansion 1 e = Ok ser) as [ser ET].
  { unfold generate_eT_zhz_python, generate_eT_zhz_python_file_contents in E. destruct (generate_eT_taylor_expansion 1 e) as [ser|]; [eauto|discriminate]. }
  exists ser. apply (python_functional text); [exact R|]. exact (program_read s g H CC e P ser HCC ET text E).
Qed.
Theorem eT_file_names s g H CC e P text prog : 1 <= CC <= 8 -> generate_eT_zhz_python s g H CC 1 e P = Ok text -> python text prog -> names_resolved prog /\ calls_match prog.
Proof.
  intros HCC E R. destruct (program_of _ _ _ _ _ _ _ _ HCC E R) as [ser ->]. split; [apply eT_names_resolved; lia|apply eT_calls_match; lia].
Qed.

(** the optimized paths are not used *)
Theorem eT_paths_unused s g H CC e P text prog : 1 <= CC <= 8 -> generate_eT_zhz_python s g H CC 1 e P = Ok text -> python text prog ->
  forall p k, p <= CC -> p <= P -> In k ["HZ"; "eT_HZ"]%string ->
  exists doc doc' body, In (Block (terms_head s p k false) (Simple doc :: body)) prog /\ In (Block (terms_head s p k true) (Simple doc' :: body)) prog /\
    String.prefix triple doc = true /\ String.prefix triple doc' = true /\
    In "opt_einsum"%string (parameters (terms_head s p k true)) /\
    forall t, In t (doc' :: flat_map lines1 body) -> ~ In "opt_einsum"%string (names_read t).
Proof.
  intros HCC E R p k C1 C2 Hk. destruct (program_of _ _ _ _ _ _ _ _ HCC E R) as [ser ->].
  destruct (proj2 (projections_of CC P p)) as (o & Ho & <-); [lia|].
  set (b := (if String.eqb k "HZ" then fst else snd) (bodies_of s g H CC ser o)). set (body := [If "ansatz.ground_state" (body_stmts s b) (others_of g s b); Simple "return"]).
  assert (B : named_body s b) by (unfold b; destruct (bodies_named s g H CC ser o); destruct (String.eqb k "HZ"); assumption).
  assert (X : forall opt, In (Block (terms_head s (g_n o) k opt) (Simple (doc_of o opt k) :: body)) (program s g H CC P ser)).
  { intros opt. apply (in_half s g H CC P ser opt). unfold half. apply in_or_app. left. apply in_flat_map. exists o. split; [exact Ho|]. unfold terms_blocks, body, b. destruct Hk as [<-|[<-|[]]]; [left|right; left]; reflexivity. }
  exists (doc_of o false k), (doc_of o true k), body. split; [apply X|]. split; [apply X|]. split; [reflexivity|]. split; [reflexivity|].
  assert (NO : ~ In "opt_einsum"%string (side_names s)) by (destruct s; cbn; intuition discriminate).
  split.
  - destruct (facts s CC P ltac:(lia) o true Ho) as (F1 & _). destruct (F1 k Hk) as (_ & -> & _). right. apply in_or_app. right. now left.
  - assert (BO : forall t, In t (flat_map lines1 (body_stmts s b)) -> ~ In "opt_einsum"%string (names_read t)).
    { intros t Ht K. pose proof (body_names s b B) as Q. unfold body_reads in Q. rewrite Forall_forall in Q. destruct (Q t Ht) as (Q1 & _). exact (NO (Q1 _ K)). }
    intros t [<-|Ht]; [intros K; destruct K|]. unfold body in Ht.
    apply in_cons_lines in Ht as [Ht|[Ht%in_simple|[]]%in_cons_lines]; [|subst t; rewrite (proj1 return_reads); intros []].
    cbn [lines1] in Ht. destruct Ht as [<-|Ht]; [rewrite (proj1 condition_reads); intros [K|[]]; discriminate|]. apply in_app_iff in Ht as [Ht|Ht]; [now apply BO|]. unfold others_of in Ht. destruct g; [|now apply BO].
    destruct Ht as [<-|[]]. rewrite (proj1 hot_reads). intros [K|[]]; discriminate.
Qed.
