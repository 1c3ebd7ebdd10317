(** All functions of the module of the full coupled cluster equations. *)
From Coq Require Import List Arith Bool Ascii String Lia.
From Verif Require Import PyBase PyStr ModelFullCC ModelFullCCPy SpecFullCC SpecFullCCPy SpecPython SpecEtText SpecFullCCText SpecNames
  ProofsStr ProofsFullCC ProofsPython ProofsFullCCFile ProofsEtRead ProofsFullCCRead ProofsFullCCProgram ProofsFullCCText ProofsNames ProofsNamesText ProofsNamesFullCC.
Import ListNotations.
Local Open Scope nat_scope.
Local Open Scope list_scope.

(** ** The fixed lines, for all projections *)

Definition ranks : list (nat * nat) := list_prod (seq 0 7) (seq 0 7).
Lemma in_ranks m n : m + n <= 6 -> In (m, n) ranks.
Proof. intros H. apply in_prod; apply in_seq; lia. Qed.

Definition terms_params (g : string * string) (opt : bool) : list string :=
  ["R"; "ansatz"; "truncation"; "h_args"; "t_args"]%string ++ (if opt then [("opt_" ++ snd g ++ "_path_list")%string] else []).
Definition path_params : list string := ["A"; "N"; "ansatz"; "truncation"]%string.
Definition amplitude_params (opt : bool) : list string := ["A"; "N"; "ansatz"; "truncation"; "h_args"; "t_args"]%string ++ (if opt then ["opt_path_lists"%string] else []).

Definition projection_heads_ok (mn : nat * nat) : bool :=
  let (m, n) := mn in
  forallb (fun opt => forallb (fun g => head_ok (cc_terms_head m n g opt) (cc_terms_name m n g opt) (terms_params g opt)) groups
                      && head_ok (cc_equation_head m n opt) (equation_name m n opt) (amplitude_params opt)) [false; true]
  && forallb (fun g => head_ok (cc_path_head m n g) (cc_path_name m n g) path_params) groups
  && head_ok (cc_grouped_head m n) (cc_grouped_name m n) path_params.
Lemma heads_checked : forallb projection_heads_ok ranks = true.
Proof. vm_compute. reflexivity. Qed.

Definition amplitude_code (m n : nat) (opt : bool) : list stmt :=
  [Simple "truncation.confirm_at_least_singles()"; Simple (cc_zeros (m + n))]
  ++ (if opt then [Simple (unpack_text (m, n))] else []) ++ map (fun g => Simple (cc_call m n opt g)) groups ++ [Simple "return R"].
Definition grouped_code (m n : nat) : list stmt :=
  [Simple "truncation.confirm_at_least_singles()"] ++ map (fun g => Simple (grouped_call m n g)) groups
  ++ [Simple ("return_dict = " ++ "{" ++ concat_str (map (fun l => " " ++ l)%string [dict_entry (m, n)]) ++ " " ++ "}"); Simple "return return_dict"].
Definition projection_code_ok (mn : nat * nat) : bool :=
  let (m, n) := mn in
  forallb (fun opt =>
    flows (amplitude_params opt ++ map (fun g => cc_terms_name m n g opt) groups ++ ["np"; "complex"]%string) (amplitude_code m n opt)
    && calls_known (map (fun g => (cc_terms_name m n g opt, List.length (terms_params g opt))) groups) (amplitude_code m n opt)) [false; true]
  && flows (path_params ++ map (fun g => cc_path_name m n g) groups) (grouped_code m n)
  && calls_known (map (fun g => (cc_path_name m n g, 4)) groups) (grouped_code m n)
  && all_in (names_read (all_entry mn)) ("all_opt_path_lists"%string :: cc_grouped_name m n :: path_params) && strings_eqb (names_bound (all_entry mn)) []
  && calls_known [(cc_grouped_name m n, 4)] [Simple (all_entry mn)].
Lemma code_checked : forallb projection_code_ok ranks = true.
Proof. vm_compute. reflexivity. Qed.

(** ** The program *)

Section Program.
  Variable sot : list (list tamp) -> list (list tamp).
  Variable so : list nat -> list nat.
  Variable son : list (list nat) -> list (list nat).
  Variable soc : list (list ascii) -> list (list ascii).
  Hypothesis Hsot : set_order sot.
  Hypothesis Hson : set_order son.
  Hypothesis Hsoc : set_order soc.
  Variables H cc S P : nat.
  Hypothesis HA : accepted H cc S.
  Hypothesis HH : H <= 5.
  Let ops := generate_omega_operator cc P.
  Let prog := cc_program sot so son soc H cc S P.

  Lemma ops_rank o : In o ops -> g_m o + g_n o <= 6.
  Proof. intros Ho. apply projections_exact in Ho as (_ & R & C & _). destruct HA as (B & _). lia. Qed.

  Inductive cc_function : stmt -> Prop :=
  | of_default o g l : In o ops -> In g groups -> written_body good_einsum l -> cc_function (terms_block o false g (default_stmts l))
  | of_next o g l : In o ops -> In g groups -> written_body (fun _ => True) l -> cc_function (terms_block o true g (next_stmts l))
  | of_paths o g l : In o ops -> In g groups -> written_body (fun _ => True) l -> run_bare l = [] -> cc_function (paths_block o g (path_stmts (path_list_name g) l))
  | of_amplitude o opt : In o ops -> cc_function (amplitude_block opt o)
  | of_grouped o : In o ops -> cc_function (grouped_block o)
  | of_all : cc_function (all_block cc ops).

  Lemma in_three {A B} (f : nat * A -> B) x y z w : In w (map f (number [x; y; z])) -> w = f (0, x) \/ w = f (1, y) \/ w = f (2, z).
  Proof. change (number [x; y; z]) with [(0, x); (1, y); (2, z)]. cbn [map In]. intuition. Qed.
  Lemma group_in i : i < 3 -> In (gname i) groups.
  Proof. intros L. destruct i as [|[|[|i]]]; [| | |lia]; cbn; auto. Qed.

  Lemma functions_are x : In x prog -> (exists t, In t cc_imports /\ x = Simple t) \/ cc_function x.
  Proof.
    unfold prog, cc_program. fold ops. rewrite !in_app_iff. intros [Hx|[[Hx|Hx]|[[Hx|Hx]|[[Hx|Hx]|Hx]]]].
    - left. apply in_map_iff in Hx as (t & <- & Ht). now exists t.
    - right. apply in_flat_map in Hx as (o & Ho & Hx). unfold default_blocks in Hx.
      destruct (group_data sot so son soc Hsot Hson Hsoc H cc S HA HH o) as (l1 & l2 & l3 & b1 & b2 & b3 & n1 & n2 & n3 & p1 & p2 & p3 & _ & E & _ & _ & G1 & G2 & G3); [pose proof (ops_rank o Ho); lia|].
      rewrite E in Hx. cbn [ok_list] in Hx. apply in_three in Hx as [->|[->| ->]]; cbn [fst snd]; apply of_default; auto using group_in.
      + apply G1. + apply G2. + apply G3.
    - right. apply in_flat_map in Hx as (o & Ho & [<-|[]]). now apply of_amplitude.
    - right. apply in_flat_map in Hx as (o & Ho & Hx). unfold next_blocks in Hx.
      destruct (group_data sot so son soc Hsot Hson Hsoc H cc S HA HH o) as (l1 & l2 & l3 & b1 & b2 & b3 & n1 & n2 & n3 & p1 & p2 & p3 & _ & _ & E & _ & G1 & G2 & G3); [pose proof (ops_rank o Ho); lia|].
      rewrite E in Hx. cbn [ok_list] in Hx. apply in_three in Hx as [->|[->| ->]]; cbn [fst snd]; apply of_next; auto using group_in.
      + apply G1. + apply G2. + apply G3.
    - right. apply in_flat_map in Hx as (o & Ho & [<-|[]]). now apply of_amplitude.
    - right. apply in_flat_map in Hx as (o & Ho & Hx). unfold path_blocks in Hx.
      destruct (group_data sot so son soc Hsot Hson Hsoc H cc S HA HH o) as (l1 & l2 & l3 & b1 & b2 & b3 & n1 & n2 & n3 & p1 & p2 & p3 & _ & _ & _ & E & G1 & G2 & G3); [pose proof (ops_rank o Ho); lia|].
      rewrite E in Hx. cbn [ok_list] in Hx. apply in_three in Hx as [->|[->| ->]]; cbn [fst snd]; apply of_paths; auto using group_in.
      + apply G1. + apply G1. + apply G2. + apply G2. + apply G3. + apply G3.
    - right. apply in_flat_map in Hx as (o & Ho & [<-|[]]). now apply of_grouped.
    - right. destruct Hx as [<-|[]]. apply of_all.
  Qed.

  Lemma number_three {A} (x y z : A) : number [x; y; z] = [(0, x); (1, y); (2, z)].
  Proof. reflexivity. Qed.
  Lemma has_terms o opt g : In o ops -> In g groups -> exists b, In (Block (cc_terms_head (g_m o) (g_n o) g opt) b) prog.
  Proof.
    intros Ho Hg. destruct (group_data sot so son soc Hsot Hson Hsoc H cc S HA HH o) as (l1 & l2 & l3 & b1 & b2 & b3 & n1 & n2 & n3 & p1 & p2 & p3 & _ & E2 & E3 & _); [pose proof (ops_rank o Ho); lia|].
    unfold prog, cc_program. fold ops. destruct opt.
    - assert (X : exists b, In (Block (cc_terms_head (g_m o) (g_n o) g true) b) (next_blocks sot so son soc H cc S o)).
      { unfold next_blocks. rewrite E3. cbn [ok_list]. rewrite number_three. cbn [map fst snd In]. destruct Hg as [<-|[<-|[<-|[]]]]; unfold terms_block, gname; cbn [nth groups];
          eexists; [left|right; left|right; right; left]; reflexivity. }
      destruct X as [b X]. exists b. do 2 (apply in_or_app; right). apply in_or_app. left. apply in_or_app. left. apply in_flat_map. exists o. now split.
    - assert (X : exists b, In (Block (cc_terms_head (g_m o) (g_n o) g false) b) (default_blocks sot so son soc H cc S o)).
      { unfold default_blocks. rewrite E2. cbn [ok_list]. rewrite number_three. cbn [map fst snd In]. destruct Hg as [<-|[<-|[<-|[]]]]; unfold terms_block, gname; cbn [nth groups];
          eexists; [left|right; left|right; right; left]; reflexivity. }
      destruct X as [b X]. exists b. apply in_or_app. right. apply in_or_app. left. apply in_or_app. left. apply in_flat_map. exists o. now split.
  Qed.
  Lemma has_paths o g : In o ops -> In g groups -> exists b, In (Block (cc_path_head (g_m o) (g_n o) g) b) prog.
  Proof.
    intros Ho Hg. destruct (group_data sot so son soc Hsot Hson Hsoc H cc S HA HH o) as (l1 & l2 & l3 & b1 & b2 & b3 & n1 & n2 & n3 & p1 & p2 & p3 & _ & _ & _ & E & _); [pose proof (ops_rank o Ho); lia|].
    unfold prog, cc_program. fold ops.
    assert (X : exists b, In (Block (cc_path_head (g_m o) (g_n o) g) b) (path_blocks sot so son soc H cc S o)).
    { unfold path_blocks. rewrite E. cbn [ok_list]. rewrite number_three. cbn [map fst snd In]. destruct Hg as [<-|[<-|[<-|[]]]]; unfold paths_block, gname; cbn [nth groups];
        eexists; [left|right; left|right; right; left]; reflexivity. }
    destruct X as [b X]. exists b. do 3 (apply in_or_app; right). apply in_or_app. left. apply in_or_app. left. apply in_flat_map. exists o. now split.
  Qed.
  Lemma has_grouped o : In o ops -> exists b, In (Block (cc_grouped_head (g_m o) (g_n o)) b) prog.
  Proof.
    intros Ho. unfold prog, cc_program. fold ops. eexists. do 3 (apply in_or_app; right). apply in_or_app. left. apply in_or_app. right. apply in_flat_map. exists o. split; [exact Ho|]. left. reflexivity.
  Qed.
  Lemma has_import x : In x ["factorial"; "np"; "oe"]%string -> In x (module_names prog).
  Proof.
    intros Hx. assert (Y : forall t, In t cc_imports -> In (Simple t) prog).
    { intros t Ht. unfold prog, cc_program. apply in_or_app. left. now apply in_map. }
    destruct Hx as [<-|[<-|[<-|[]]]].
    - apply (import_name _ "from math import factorial"); [apply Y; now left|]. vm_compute. now left.
    - apply (import_name _ "import numpy as np"); [apply Y; right; now left|]. vm_compute. now left.
    - apply (import_name _ "import opt_einsum as oe"); [apply Y; right; right; now left|]. vm_compute. now left.
  Qed.

  (** heads *)
  Lemma head_facts o : In o ops ->
    (forall opt g, In g groups -> head_ok (cc_terms_head (g_m o) (g_n o) g opt) (cc_terms_name (g_m o) (g_n o) g opt) (terms_params g opt) = true) /\
    (forall opt, head_ok (cc_equation_head (g_m o) (g_n o) opt) (equation_name (g_m o) (g_n o) opt) (amplitude_params opt) = true) /\
    (forall g, In g groups -> head_ok (cc_path_head (g_m o) (g_n o) g) (cc_path_name (g_m o) (g_n o) g) path_params = true) /\
    head_ok (cc_grouped_head (g_m o) (g_n o)) (cc_grouped_name (g_m o) (g_n o)) path_params = true.
  Proof.
    intros Ho. pose proof heads_checked as C. rewrite forallb_forall in C. specialize (C _ (in_ranks _ _ (ops_rank o Ho))). unfold projection_heads_ok in C.
    apply andb_prop in C as [C C4]. apply andb_prop in C as [C C3]. rewrite forallb_forall in C, C3. assert (D : forall opt, In opt [false; true]) by (intros []; cbn; auto).
    split; [|split; [|split; [exact C3|exact C4]]].
    - intros opt g Hg. specialize (C opt (D opt)). apply andb_prop in C as [C _]. rewrite forallb_forall in C. now apply C.
    - intros opt. specialize (C opt (D opt)). now apply andb_prop in C as [_ C].
  Qed.
  Lemma signature_names f : In f (map fst (signatures prog)) -> local_name f = true.
  Proof.
    intros Hf. apply in_map_iff in Hf as ([f' n] & <- & Hs). apply in_flat_map in Hs as (x & Hx & Hs). cbn [fst].
    destruct (functions_are x Hx) as [(t & _ & ->)|F]; [destruct Hs|].
    destruct F as [o g l Ho Hg _|o g l Ho Hg _|o g l Ho Hg _ _|o opt Ho|o Ho|]; cbn [In terms_block paths_block amplitude_block grouped_block all_block] in Hs; destruct Hs as [Hs|[]]; injection Hs as <- _;
      try (destruct (head_facts o Ho) as (F1 & F2 & F3 & F4)).
    - destruct (head_ok_all _ _ _ (F1 false g Hg)) as (-> & _ & L). exact L.
    - destruct (head_ok_all _ _ _ (F1 true g Hg)) as (-> & _ & L). exact L.
    - destruct (head_ok_all _ _ _ (F3 g Hg)) as (-> & _ & L). exact L.
    - destruct (head_ok_all _ _ _ (F2 opt)) as (-> & _ & L). exact L.
    - destruct (head_ok_all _ _ _ F4) as (-> & _ & L). exact L.
    - reflexivity.
  Qed.

  Lemma code_facts o : In o ops -> projection_code_ok (g_m o, g_n o) = true.
  Proof. intros Ho. pose proof code_checked as C. rewrite forallb_forall in C. exact (C _ (in_ranks _ _ (ops_rank o Ho))). Qed.

  (** ** Names *)

  Definition hot_line := "raise NotImplementedError('Hot Band amplitudes not implemented properly and have not been theoretically verified!')"%string.

  Lemma all_init_reads : names_read "all_opt_path_lists = []" = [] /\ names_bound "all_opt_path_lists = []" = ["all_opt_path_lists"%string].
  Proof. vm_compute. auto. Qed.
  Lemma all_return_reads : names_read "return all_opt_path_lists" = ["all_opt_path_lists"%string].
  Proof. vm_compute. auto. Qed.
  Lemma all_head_parameters : parameters cc_all_head = path_params.
  Proof. vm_compute. auto. Qed.
  Lemma branch_bound N e flag b post : (forall x, In x ["ansatz"; "NotImplementedError"]%string -> In x e) -> incl N e -> body_reads N b ->
    bound_when_read e post -> bound_when_read e (visited1 flag (If "ansatz.ground_state" b [no_hot_band]) ++ post).
  Proof.
    intros A I R Q. cbn [visited1]. apply bound_app.
    - split; [intros x [<-|[]]; apply A; now left|]. change (names_bound "ansatz.ground_state" ++ e) with e. destruct (flag _); [now apply (body_bound N)|].
      cbn [flat_map visited1 no_hot_band app]. split; [|exact Logic.I]. intros x Hx. vm_compute in Hx. destruct Hx as [<-|[]]. apply A. right; now left.
    - cbn [after_lines]. change (names_bound "ansatz.ground_state" ++ e) with e. destruct (flag _); [rewrite (proj2 (body_bound N e flag b R I)); exact Q|].
      cbn [flat_map visited1 no_hot_band app after_lines]. exact Q.
  Qed.

  Definition resolved (x : stmt) : Prop :=
    match x with Block head body => forall flag e, incl (parameters head) e -> incl (module_names prog) e -> incl builtins e -> bound_when_read e (visited flag body) | _ => True end.
  Lemma default_resolved o g l : In o ops -> In g groups -> written_body good_einsum l -> resolved (terms_block o false g (default_stmts l)).
  Proof.
    intros Ho Hg W. intros flag e PE ME BE. destruct (head_facts o Ho) as (F1 & F2 & F3 & F4). 
    destruct (head_ok_all _ _ _ (F1 false g Hg)) as (_ & P1 & _). rewrite P1 in PE. apply visited_bound.
      cbn [app flat_map]. change (visited1 flag (Simple (terms_doc o g false))) with [terms_doc o g false]. cbn [app]. apply bound_doc; [reflexivity|].
      assert (I : incl default_names e).
      { intros x Hx. unfold default_names in Hx. cbn [In] in Hx. destruct Hx as [<-|[<-|[<-|[<-|[<-|[<-|[]]]]]]]; try (apply PE; cbn; tauto); apply ME, has_import; cbn; auto. }
      apply (branch_bound default_names e flag (default_stmts l) ["return"%string]); auto.
      + intros x [<-|[<-|[]]]; [apply PE; cbn; auto|apply BE; cbn; auto]. + now apply default_reads. + apply return_bound.
  Qed.
  Lemma next_resolved o g l : In o ops -> In g groups -> written_body (fun _ => True) l -> resolved (terms_block o true g (next_stmts l)).
  Proof.
    intros Ho Hg W. intros flag e PE ME BE. destruct (head_facts o Ho) as (F1 & F2 & F3 & F4). 
    destruct (head_ok_all _ _ _ (F1 true g Hg)) as (_ & P1 & _). rewrite P1 in PE. apply visited_bound.
      cbn [app flat_map]. change (visited1 flag (Simple (terms_doc o g true))) with [terms_doc o g true]. change (visited1 flag (Simple (iter_text g))) with [iter_text g]. cbn [app]. apply bound_doc; [reflexivity|].
      assert (T : effect (iter_text g) = (["iter"; ("opt_" ++ snd g ++ "_path_list")]%string, ["optimized_einsum"%string])) by (destruct Hg as [<-|[<-|[<-|[]]]]; vm_compute; reflexivity).
      assert (T1 : names_read (iter_text g) = ["iter"; ("opt_" ++ snd g ++ "_path_list")]%string) by (unfold names_read; now rewrite T).
      assert (T2 : names_bound (iter_text g) = ["optimized_einsum"%string]) by (unfold names_bound; now rewrite T). cbn [bound_when_read]. rewrite T1, T2.
      split; [intros x [<-|[<-|[]]]; [apply BE; cbn; auto 6|apply PE, in_or_app; right; now left]|]. set (e' := ["optimized_einsum"%string] ++ e).
      assert (I : incl next_names e').
      { intros x Hx. unfold next_names in Hx. cbn [In] in Hx. unfold e'. destruct Hx as [<-|[<-|[<-|[<-|[<-|[<-|[<-|[]]]]]]]]; try (right; apply PE; cbn; tauto); [right; apply ME, has_import; cbn; auto|right; apply BE; cbn; tauto|now left]. }
      apply (branch_bound next_names e' flag (next_stmts l) ["return"%string]); auto.
      + intros x [<-|[<-|[]]]; right; [apply PE; cbn; auto|apply BE; cbn; auto]. + now apply next_reads. + apply return_bound.
  Qed.
  Lemma paths_resolved o g l : In o ops -> In g groups -> written_body (fun _ => True) l -> run_bare l = [] -> resolved (paths_block o g (path_stmts (path_list_name g) l)).
  Proof.
    intros Ho Hg W R. intros flag e PE ME BE. destruct (head_facts o Ho) as (F1 & F2 & F3 & F4). 
    destruct (head_ok_all _ _ _ (F3 g Hg)) as (_ & P1 & _). rewrite P1 in PE. apply visited_bound.
      cbn [flat_map]. change (visited1 flag (Simple (paths_doc g))) with [paths_doc g]. change (visited1 flag (Simple (path_list_name g ++ " = []"))) with [(path_list_name g ++ " = []")%string]. cbn [app]. apply bound_doc; [reflexivity|].
      assert (T : effect (path_list_name g ++ " = []") = ([], [path_list_name g])) by (destruct Hg as [<-|[<-|[<-|[]]]]; vm_compute; reflexivity).
      assert (T1 : names_read (path_list_name g ++ " = []") = []) by (unfold names_read; now rewrite T).
      assert (T2 : names_bound (path_list_name g ++ " = []") = [path_list_name g]) by (unfold names_bound; now rewrite T). cbn [bound_when_read]. rewrite T1, T2.
      split; [intros x []|]. set (e' := [path_list_name g] ++ e).
      assert (I : incl (path_names (path_list_name g)) e').
      { intros x Hx. unfold path_names in Hx. cbn [In] in Hx. unfold e'. destruct Hx as [<-|[<-|[<-|[<-|[<-|[]]]]]]; [now left|right; apply ME, has_import; cbn; auto|right; apply PE; cbn; auto..]. }
      apply (branch_bound (path_names (path_list_name g)) e' flag (path_stmts (path_list_name g) l) [("return " ++ path_list_name g)%string]); auto.
      + intros x [<-|[<-|[]]]; right; [apply PE; cbn; auto|apply BE; cbn; auto]. + now apply path_reads.
      + assert (T3 : names_read ("return " ++ path_list_name g) = [path_list_name g]) by (destruct Hg as [<-|[<-|[<-|[]]]]; vm_compute; reflexivity).
        split; [rewrite T3; intros x [<-|[]]; now left|exact Logic.I].
  Qed.
  Lemma amplitude_resolved o opt : In o ops -> resolved (amplitude_block opt o).
  Proof.
    intros Ho. intros flag e PE ME BE. destruct (head_facts o Ho) as (F1 & F2 & F3 & F4). 
    destruct (head_ok_all _ _ _ (F2 opt)) as (_ & P1 & _). rewrite P1 in PE.
      pose proof (code_facts o Ho) as C. unfold projection_code_ok in C. do 5 apply andb_prop in C as [C _]. rewrite forallb_forall in C. specialize (C opt ltac:(destruct opt; cbn; auto)). apply andb_prop in C as [C _].
      refine (fixed_body _ e (amplitude_doc o) (amplitude_code (g_m o) (g_n o) opt) flag _ C _); [reflexivity|].
      apply incl_app; [exact PE|]. apply incl_app.
      + intros x Hx. apply in_map_iff in Hx as (g & <- & Hg). apply ME. destruct (has_terms o opt g Ho Hg) as [b Hin]. apply block_name in Hin. now rewrite (proj1 (head_ok_all _ _ _ (F1 opt g Hg))) in Hin.
      + intros x [<-|[<-|[]]]; [apply ME, has_import; cbn; auto|apply BE; cbn; auto].
  Qed.
  Lemma grouped_resolved o : In o ops -> resolved (grouped_block o).
  Proof.
    intros Ho. intros flag e PE ME BE. destruct (head_facts o Ho) as (F1 & F2 & F3 & F4). 
    destruct (head_ok_all _ _ _ F4) as (_ & P1 & _). rewrite P1 in PE.
      pose proof (code_facts o Ho) as C. unfold projection_code_ok in C. do 4 apply andb_prop in C as [C _]. apply andb_prop in C as [_ C].
      refine (fixed_body _ e (grouped_doc o) (grouped_code (g_m o) (g_n o)) flag _ C _); [reflexivity|].
      apply incl_app; [exact PE|].
      intros x Hx. apply in_map_iff in Hx as (g & <- & Hg). apply ME. destruct (has_paths o g Ho Hg) as [b Hin]. apply block_name in Hin. now rewrite (proj1 (head_ok_all _ _ _ (F3 g Hg))) in Hin.
  Qed.
  Lemma all_resolved : resolved (all_block cc ops).
  Proof.
    intros flag e PE ME BE. 
    rewrite all_head_parameters in PE. apply visited_bound. unfold all_block. cbn [app flat_map visited1]. apply bound_doc; [reflexivity|].
      cbn [bound_when_read]. destruct all_init_reads as [A1 A2]. rewrite A1, A2. split; [intros x []|]. cbn [app]. rewrite map_map.
      rewrite flat_map_app. set (e' := ("all_opt_path_lists"%string :: e)).
      assert (X : forall l, incl l ops -> bound_when_read e' (flat_map (visited1 flag) (map (fun o => Simple (all_entry (g_m o, g_n o))) l)) /\ after_lines e' (flat_map (visited1 flag) (map (fun o => Simple (all_entry (g_m o, g_n o))) l)) = e').
      { induction l as [|o l IH]; intros I; [split; [exact Logic.I|reflexivity]|]. assert (Ho : In o ops) by (apply I; now left). cbn [map flat_map visited1 app bound_when_read after_lines].
        pose proof (code_facts o Ho) as C. unfold projection_code_ok in C. apply andb_prop in C as [C _]. apply andb_prop in C as [C C2]. apply andb_prop in C as [_ C1].
        apply strings_eqb_eq in C2. rewrite C2. cbn [app]. destruct (IH ltac:(intros y Hy; apply I; now right)) as [I1 I2]. split; [split; [|exact I1]|exact I2].
        apply (all_in_incl _ _ e' C1). intros x [<-|[<-|Hx]]; [now left| |right; now apply PE]. right. apply ME. destruct (has_grouped o Ho) as [b Hin]. apply block_name in Hin.
        destruct (head_facts o Ho) as (_ & _ & _ & F4). now rewrite (proj1 (head_ok_all _ _ _ F4)) in Hin. }
      destruct (X ops (incl_refl _)) as [X1 X2]. apply bound_app; [exact X1|]. rewrite X2. cbn [flat_map visited1 app bound_when_read]. rewrite all_return_reads. split; [intros x [<-|[]]; now left|exact Logic.I].
  Qed.
  Lemma cc_names_resolved : names_resolved prog.
  Proof.
    intros head body Hb flag. destruct (functions_are _ Hb) as [(t & _ & X)|F]; [discriminate|].
    assert (X : resolved (Block head body)).
    { destruct F; [now apply default_resolved|now apply next_resolved|now apply paths_resolved|now apply amplitude_resolved|now apply grouped_resolved|apply all_resolved]. }
    apply X; [apply incl_appl, incl_refl|apply incl_appr, incl_appl, incl_refl|apply incl_appr, incl_appr, incl_appl, incl_refl].
  Qed.

  (** ** Calls *)

  Lemma in_branch t b : In t (lines1 (If "ansatz.ground_state" b [no_hot_band])) -> t = "ansatz.ground_state"%string \/ In t (flat_map lines1 b) \/ t = hot_line.
  Proof. cbn [lines1]. intros [<-|K]; [now left|]. apply in_app_or in K as [K|[<-|[]]]; auto. Qed.
  Lemma cc_calls_match : calls_match prog.
  Proof.
    intros t f n Ht. revert f n. change (fits prog t). unfold all_lines in Ht. apply in_flat_map in Ht as (x & Hx & Ht).
    pose proof signature_names as L.
    assert (FO : forall s, foreign_calls s = true -> fits prog s) by (intros s Hs; apply fits_other; [exact L|now apply foreign_ok]).
    assert (DO : forall s, String.prefix triple s = true -> fits prog s).
    { intros s Hs f n Hf. destruct (doc_effect s Hs) as (_ & _ & C). rewrite C in Hf. destruct Hf. }
    destruct (functions_are x Hx) as [(s & Hs & ->)|F].
    { destruct Ht as [<-|[]]. apply FO. unfold cc_imports in Hs. cbn [In] in Hs. destruct Hs as [<-|[<-|[<-|[<-|[<-|[]]]]]]; vm_compute; reflexivity. }
    assert (BO : forall N b, body_reads N b -> forallb (fun x => negb (local_name x)) N = true -> In t (flat_map lines1 b) -> fits prog t).
    { intros N b R HN Hb. unfold body_reads in R. rewrite Forall_forall in R. apply fits_other; [exact L|]. exact (reads_local N t (R t Hb) HN). }
    inversion F as [o g l Ho Hg W X|o g l Ho Hg W X|o g l Ho Hg W R X|o opt Ho X|o Ho X|X]; subst x; unfold terms_block, paths_block, amplitude_block, grouped_block, all_block in Ht; try (destruct (head_facts o Ho) as (F1 & F2 & F3 & F4)).
    - cbn [app] in Ht. rewrite lines1_block in Ht.       apply in_cons_lines in Ht as [Ht%in_simple|[[Ht|[Ht|Ht]]%in_branch|[Ht%in_simple|[]]%in_cons_lines]%in_cons_lines]; try subst t; try (apply FO; vm_compute; reflexivity). apply (BO default_names (default_stmts l)); [now apply default_reads|reflexivity|exact Ht].
    - cbn [app] in Ht. rewrite lines1_block in Ht.       apply in_cons_lines in Ht as [Ht%in_simple|[Ht%in_simple|[[Ht|[Ht|Ht]]%in_branch|[Ht%in_simple|[]]%in_cons_lines]%in_cons_lines]%in_cons_lines]; try subst t; try (apply FO; vm_compute; reflexivity); [apply FO; destruct Hg as [<-|[<-|[<-|[]]]]; vm_compute; reflexivity|].
      apply (BO next_names (next_stmts l)); [now apply next_reads|reflexivity|exact Ht].
    - cbn [app] in Ht. rewrite lines1_block in Ht.       apply in_cons_lines in Ht as [Ht%in_simple|[Ht%in_simple|[[Ht|[Ht|Ht]]%in_branch|[Ht%in_simple|[]]%in_cons_lines]%in_cons_lines]%in_cons_lines]; try subst t; try (apply FO; vm_compute; reflexivity); [apply FO; destruct Hg as [<-|[<-|[<-|[]]]]; vm_compute; reflexivity| |apply FO; destruct Hg as [<-|[<-|[<-|[]]]]; vm_compute; reflexivity].
      apply (BO (path_names (path_list_name g)) (path_stmts (path_list_name g) l)); [now apply path_reads| |exact Ht]. destruct Hg as [<-|[<-|[<-|[]]]]; reflexivity.
    - change (In t (flat_map lines1 (Simple (amplitude_doc o) :: amplitude_code (g_m o) (g_n o) opt))) in Ht. cbn [flat_map] in Ht. apply in_app_iff in Ht as [[<-|[]]|Ht]; [now apply DO|].
      pose proof (code_facts o Ho) as C. unfold projection_code_ok in C. do 5 apply andb_prop in C as [C _]. rewrite forallb_forall in C. specialize (C opt ltac:(destruct opt; cbn; auto)). apply andb_prop in C as [_ C].
      refine (proj1 (Forall_forall _ _) (calls_known_fits prog _ _ L _ C) t Ht). intros y Hy. apply in_map_iff in Hy as (g & <- & Hg). destruct (has_terms o opt g Ho Hg) as [b Hin]. apply block_signature in Hin.
      destruct (head_ok_all _ _ _ (F1 opt g Hg)) as (E1 & E2 & _). now rewrite E1, E2 in Hin.
    - change (In t (flat_map lines1 (Simple (grouped_doc o) :: grouped_code (g_m o) (g_n o)))) in Ht. cbn [flat_map] in Ht. apply in_app_iff in Ht as [[<-|[]]|Ht]; [now apply DO|].
      pose proof (code_facts o Ho) as C. unfold projection_code_ok in C. do 3 apply andb_prop in C as [C _]. apply andb_prop in C as [_ C].
      refine (proj1 (Forall_forall _ _) (calls_known_fits prog _ _ L _ C) t Ht). intros y Hy. apply in_map_iff in Hy as (g & <- & Hg). destruct (has_paths o g Ho Hg) as [b Hin]. apply block_signature in Hin.
      destruct (head_ok_all _ _ _ (F3 g Hg)) as (E1 & E2 & _). now rewrite E1, E2 in Hin.
    - cbn [app flat_map lines1] in Ht. destruct Ht as [<-|[<-|Ht]]; [now apply DO|apply FO; vm_compute; reflexivity|]. rewrite flat_map_app in Ht. apply in_app_iff in Ht as [Ht|[<-|[]]]; [|apply FO; vm_compute; reflexivity].
      apply in_flat_map in Ht as (s & Hs & Ht). apply in_map_iff in Hs as (mn & <- & Hs). apply in_map_iff in Hs as (o & <- & Ho). destruct Ht as [<-|[]].
      pose proof (code_facts o Ho) as C. unfold projection_code_ok in C. apply andb_prop in C as [_ C].
      refine (proj1 (Forall_forall _ _) (calls_known_fits prog _ _ L _ C) _ (or_introl eq_refl)). intros y [<-|[]]. destruct (has_grouped o Ho) as [b Hin]. apply block_signature in Hin.
      destruct (head_facts o Ho) as (_ & _ & _ & F4). destruct (head_ok_all _ _ _ F4) as (E1 & E2 & _). now rewrite E1, E2 in Hin.
  Qed.
End Program.

Theorem cc_file_names sot so son soc H cc S P text prog :
  set_order sot -> set_order son -> set_order soc -> 1 <= cc <= 6 -> S <= 6 -> H <= 5 ->
  generate_full_cc_python sot so son soc H cc S P = Ok text -> python text prog -> names_resolved prog /\ calls_match prog.
Proof.
  intros Hsot Hson Hsoc C1 C2 C3 E R. assert (HA : accepted H cc S) by (split; [exact C1|split; [exact C2|lia]]).
  assert (prog = cc_program sot so son soc H cc S P) as -> by (apply (python_functional text); [exact R|now apply (cc_program_read sot so son soc)]).
  split; [now apply cc_names_resolved|now apply cc_calls_match].
Qed.
