(** The whole file of the full coupled cluster equations, read as python. *)
From Coq Require Import List Arith Bool Ascii String Lia Permutation.
From Verif Require Import PyBase PyStr ModelHelper ModelW ModelFullCC ModelPrefactor ModelFullCCPy SpecFullCC SpecFullCCPy SpecPython SpecEtText SpecFullCCText
  PyBaseFacts ProofsStr ProofsW ProofsFullCC ProofsPython ProofsFullCCBuckets ProofsFullCCPaths ProofsFullCCFile ProofsEtRead ProofsEtProgram ProofsFullCCRead ProofsFullCCProgram.
Import ListNotations.
Local Open Scope nat_scope.
Local Open Scope list_scope.

(** ** The three kinds of bodies *)

Definition default_stmts (l : list (block einsum)) : list stmt := cc_body_stmts (cc_sum_text render_einsum) l.
Definition next_stmts (l : list (block next_call)) : list stmt := cc_body_stmts (cc_sum_text render_next) l.
Definition path_stmts (name : string) (l : list (block path_call)) : list stmt := cc_body_stmts (extend_text render_path name) l.

Lemma body_not_nil {C} (text : prefactor * list C -> string) (good : C -> Prop) l : written_body good l -> cc_body_stmts text l <> [].
Proof.
  intros [->|(N & _)]; [discriminate|]. destruct l as [|b l]; [congruence|]. unfold cc_body_stmts. cbn [flat_map]. destruct b; discriminate.
Qed.

Lemma adds_ext {C} (r r' : C -> string) : (forall c, r c = r' c) -> forall t l, sum_adds r t l -> sum_adds r' t l.
Proof. intros H t l (p & cs & N & E & T). exists p, cs. split; [exact N|]. split; [exact E|]. rewrite T. now rewrite (map_ext _ _ H). Qed.

Lemma default_body l : written_body good_einsum l ->
  readable_lines (render_body (render_sum render_einsum) l) (default_stmts l) /\
  branch_does (sum_adds einsum_text) (run_bare l) (fun fh ft => run fh ft l) (default_stmts l).
Proof.
  intros W. assert (OK : forall c, good_einsum c -> call_ok (render_einsum c)) by (intros c G; rewrite einsum_is; now apply einsum_ok).
  pose proof (written_body_good _ _ W) as G. split; [split; [|split]|].
  - refine (cc_body_piece good_einsum _ _ _ l G). intros n pc Hpc. now apply (sum_piece _ good_einsum).
  - exact (body_not_nil _ _ _ W).
  - refine (cc_body_no_doc good_einsum _ _ l G). intros n pc Hpc. now apply (sum_no_doc _ good_einsum).
  - refine (written_body_does good_einsum _ _ _ l W). intros pc Hpc. apply (adds_ext render_einsum); [apply einsum_is|]. now apply (sum_adds_text _ good_einsum).
Qed.
Lemma next_body l : written_body (fun _ => True) l ->
  readable_lines (render_body (render_sum render_next) l) (next_stmts l) /\
  branch_does (sum_adds next_text) (run_bare l) (fun fh ft => run fh ft l) (next_stmts l).
Proof.
  intros W. assert (OK : forall c, True -> call_ok (render_next c)) by (intros c G; rewrite next_is; now apply next_ok).
  pose proof (written_body_good _ _ W) as G. split; [split; [|split]|].
  - refine (cc_body_piece (fun _ => True) _ _ _ l G). intros n pc Hpc. now apply (sum_piece _ (fun _ => True)).
  - exact (body_not_nil _ _ _ W).
  - refine (cc_body_no_doc (fun _ => True) _ _ l G). intros n pc Hpc. now apply (sum_no_doc _ (fun _ => True)).
  - refine (written_body_does (fun _ => True) _ _ _ l W). intros pc Hpc. apply (adds_ext render_next); [apply next_is|]. now apply (sum_adds_text _ (fun _ => True)).
Qed.

Lemma order_map {D D'} (f : D -> D') (a : string -> list D -> Prop) (a' : string -> list D' -> Prop) ts l :
  (forall t x, a t x -> a' t (map f x)) -> in_order a ts l -> in_order a' ts (map f l).
Proof.
  intros H (ls & F & ->). exists (map (map f) ls). split; [|now rewrite concat_map]. induction F; cbn [map]; constructor; auto.
Qed.
Lemma does_map {D D'} (f : D -> D') (a : string -> list D -> Prop) (a' : string -> list D' -> Prop) bares what b :
  (forall t x, a t x -> a' t (map f x)) -> branch_does a bares what b -> branch_does a' bares (fun fh ft => map f (what fh ft)) b.
Proof.
  intros H (N & [(E & B & W)|W]); (split; [exact N|]); [left|right].
  - split; [exact E|]. split; [exact B|]. intros fh ft. now rewrite W.
  - intros flag. destruct (W flag) as (ts & E & O). exists ts. split; [exact E|]. exact (order_map f a a' _ _ H O).
Qed.
Lemma does_ext {D} (a : string -> list D -> Prop) bares what what' b : (forall fh ft, what fh ft = what' fh ft) -> branch_does a bares what b -> branch_does a bares what' b.
Proof.
  intros H (N & [(E & B & W)|W]); (split; [exact N|]); [left|right].
  - split; [exact E|]. split; [exact B|]. intros fh ft. now rewrite <- H.
  - intros flag. destruct (W flag) as (ts & E & O). exists ts. split; [exact E|]. now rewrite <- H.
Qed.

Lemma path_body name l : no_special name = true -> starts name = true -> written_body (fun _ => True) l ->
  readable_lines (render_body (render_extend render_path name) l) (path_stmts name l) /\
  branch_does (list_adds name) (run_bare l) (fun fh ft => map snd (run fh ft l)) (path_stmts name l).
Proof.
  intros PN SN W. assert (OK : forall c, True -> call_ok (render_path c)) by (intros c G; rewrite path_is; now apply path_ok).
  pose proof (written_body_good _ _ W) as G. split; [split; [|split]|].
  - refine (cc_body_piece (fun _ => True) _ _ _ l G). intros n pc Hpc. now apply (extend_piece _ (fun _ => True)).
  - exact (body_not_nil _ _ _ W).
  - refine (cc_body_no_doc (fun _ => True) _ _ l G). intros n pc Hpc. now apply (extend_no_doc _ (fun _ => True)).
  - apply (does_map snd (fun t x => list_adds name t (map snd x))); [auto|].
    refine (written_body_does (fun _ => True) _ (fun t x => list_adds name t (map snd x)) _ l W). intros pc Hpc.
    assert (X : extend_text render_path name pc = extend_text contract_text name pc).
    { destruct pc as [q [|c [|c' r]]]; unfold extend_text; cbn [snd]; [reflexivity| |]; [now rewrite path_is|]. now rewrite (map_ext _ _ path_is). }
    rewrite X. now apply list_adds_text.
Qed.

(** ** The groups of a projection *)

Record good_group (so : list nat -> list nat) (calls_of : term -> res (list einsum)) (l : list term)
    (b : list (block einsum)) (n : list (block next_call)) (p : list (block path_call)) : Prop := mkgg {
  gg_keeps : keeps_last so calls_of l b;
  gg_b : written_body good_einsum b;
  gg_n : written_body (fun _ => True) n;
  gg_bares : run_bare n = run_bare b;
  gg_calls : forall fh ft, run fh ft n = map without_subscripts (run fh ft b);
  gg_p : written_body (fun _ => True) p;
  gg_none : run_bare p = [];
  gg_shapes : forall fh ft, map snd (run fh ft p) = map (fun pc => shapes (snd pc)) (run fh ft n) }.

Section Projection.
  Variable sot : list (list tamp) -> list (list tamp).
  Variable so : list nat -> list nat.
  Variable son : list (list nat) -> list (list nat).
  Variable soc : list (list ascii) -> list (list ascii).
  Hypothesis Hsot : set_order sot.
  Hypothesis Hson : set_order son.
  Hypothesis Hsoc : set_order soc.
  Variables H cc S : nat.
  Hypothesis HA : accepted H cc S.
  Hypothesis HH : H <= 5.

  Lemma group_data o : g_m o + g_n o <= 8 -> exists l1 l2 l3 b1 b2 b3 n1 n2 n3 p1 p2 p3,
    python_groups sot H cc S o true = Ok (l1, l2, l3) /\
    generate_full_cc_einsums sot so son soc H cc S o true = Ok [b1; b2; b3] /\
    generate_full_cc_nexts sot so son soc H cc S o true = Ok [n1; n2; n3] /\
    generate_full_cc_optimized_paths sot so son soc H cc S o true = Ok [p1; p2; p3] /\
    good_group so (einsum_calls son soc) l1 b1 n1 p1 /\
    good_group so (einsum_calls son soc) l2 b2 n2 p2 /\
    good_group so (einsum_calls son soc) l3 b3 n3 p3.
  Proof.
    intros Ho. destruct (groups_ok sot Hsot H cc S HA o Ho true) as (a & b & c & E & G & _).
    assert (W : forall l, (forall t, In t l -> of_group H cc S o true t) -> exists body next path,
      write_cc_einsum_python_from_list so H cc (einsum_calls son soc) l = Ok body /\
      write_cc_einsum_python_from_list so H cc (next_calls son soc) l = Ok next /\
      write_cc_optimized_paths_from_list so son soc H cc l = Ok path /\
      good_group so (einsum_calls son soc) l body next path).
    { intros l Hl. destruct (group_code so son soc Hson Hsoc H cc S HA o Ho true l Hl HH) as (body & Eb & K).
      pose proof (write_map to_next so H cc _ _ l body (fun t cs => next_of_einsum son soc t cs) Eb) as En.
      destruct (paths_match so son soc H cc l _ (fun t Ht => group_rank H cc S o true t (Hl t Ht)) En) as (path & Ep & Rp).
      exists body, (map (mapB to_next) body), path. do 3 (split; [assumption|]).
      assert (NE : body <> []).
      { destruct l as [|t l]; [cbn in Eb; injection Eb as <-; discriminate|]. apply (keeps_nonempty so (einsum_calls son soc) (t :: l)); [discriminate|exact K]. }
      destruct (paths_written _ _ _ _ _ _ _ Ep) as [P1 P2].
      constructor; try assumption.
      - exact (write_written good_einsum _ (einsum_calls_good son soc) so H cc l body Eb NE).
      - apply (write_written (fun _ => True) (next_calls son soc)) with (so := so) (H := H) (cc := cc) (l := l); [|exact En|].
        + intros t cs _. apply Forall_forall. intros; exact I.
        + destruct body; [congruence|discriminate].
      - clear. unfold run_bare. induction body as [|x body IH]; [reflexivity|]. cbn [map flat_map]. rewrite IH. destruct x; reflexivity.
      - intros fh ft. rewrite run_map. reflexivity. }
    destruct (W a ltac:(intros; apply G; apply in_or_app; auto)) as (a1 & a2 & a3 & A1 & A2 & A3 & A4).
    destruct (W b ltac:(intros; apply G; rewrite !in_app_iff; auto)) as (b1 & b2 & b3 & B1 & B2 & B3 & B4).
    destruct (W c ltac:(intros; apply G; rewrite !in_app_iff; auto)) as (c1 & c2 & c3 & C1 & C2 & C3 & C4).
    exists a, b, c, a1, b1, c1, a2, b2, c2, a3, b3, c3.
    unfold generate_full_cc_einsums, generate_full_cc_nexts, generate_full_cc_bodies, generate_full_cc_optimized_paths.
    rewrite E. cbn [bind mapM]. rewrite A1, A2, A3, B1, B2, B3, C1, C2, C3. repeat (split; [reflexivity|]). auto.
  Qed.

  Definition ok_list {A} (r : res (list A)) : list A := match r with Ok l => l | Err _ => [] end.
  Definition default_blocks (o : gop) : list stmt :=
    map (fun ix => terms_block o false (gname (fst ix)) (default_stmts (snd ix))) (number (ok_list (generate_full_cc_einsums sot so son soc H cc S o true))).
  Definition next_blocks (o : gop) : list stmt :=
    map (fun ix => terms_block o true (gname (fst ix)) (next_stmts (snd ix))) (number (ok_list (generate_full_cc_nexts sot so son soc H cc S o true))).
  Definition path_blocks (o : gop) : list stmt :=
    map (fun ix => paths_block o (gname (fst ix)) (path_stmts (path_list_name (gname (fst ix))) (snd ix))) (number (ok_list (generate_full_cc_optimized_paths sot so son soc H cc S o true))).

  Lemma three_opened {A} (f : nat * A -> string) (g : nat * A -> stmt) x y z :
    opened (f (0, x)) [g (0, x)] -> opened (f (1, y)) [g (1, y)] -> opened (f (2, z)) [g (2, z)] ->
    opened (concat_str (map f (number [x; y; z]))) (map g (number [x; y; z])).
  Proof.
    intros A1 A2 A3. change (number [x; y; z]) with [(0, x); (1, y); (2, z)]. rewrite <- (flat_map_singleton g). apply opened_concat; [discriminate|].
    intros k [<-|[<-|[<-|[]]]]; assumption.
  Qed.
  Lemma map_number {A B} (f : A -> B) x y z : number (map f [x; y; z]) = map (fun ix => (fst ix, f (snd ix))) (number [x; y; z]).
  Proof. reflexivity. Qed.

  Lemma default_opened o t : g_m o + g_n o <= 8 -> one_line (g_name o) -> generate_full_cc_compute_functions sot so son soc H cc S o false = Ok t -> opened t (default_blocks o).
  Proof.
    intros Ho O. destruct (group_data o Ho) as (l1 & l2 & l3 & b1 & b2 & b3 & n1 & n2 & n3 & p1 & p2 & p3 & E1 & E2 & E3 & E4 & G1 & G2 & G3).
    unfold generate_full_cc_compute_functions, default_blocks. rewrite E2. cbn [bind ok_list]. intros E. assert (Y : forall a b : string, Ok a = Ok b -> a = b) by (now injection 1). apply Y in E. subst t.
    rewrite map_number, map_map. cbn [fst snd].
    apply (three_opened (fun ix => join nl (compute_function_text o false (fst ix) (render_body (render_sum render_einsum) (snd ix))) +++ nl) (fun ix => terms_block o false (gname (fst ix)) (default_stmts (snd ix)))); cbn [fst snd]; (apply terms_opened; [lia|exact O|]).
    - apply default_body, G1. - apply default_body, G2. - apply default_body, G3.
  Qed.
  Lemma next_opened o t : g_m o + g_n o <= 8 -> one_line (g_name o) -> generate_full_cc_compute_functions sot so son soc H cc S o true = Ok t -> opened t (next_blocks o).
  Proof.
    intros Ho O. destruct (group_data o Ho) as (l1 & l2 & l3 & b1 & b2 & b3 & n1 & n2 & n3 & p1 & p2 & p3 & E1 & E2 & E3 & E4 & G1 & G2 & G3).
    unfold generate_full_cc_compute_functions, next_blocks. rewrite E3. cbn [bind ok_list]. intros E. assert (Y : forall a b : string, Ok a = Ok b -> a = b) by (now injection 1). apply Y in E. subst t.
    rewrite map_number, map_map. cbn [fst snd].
    apply (three_opened (fun ix => join nl (compute_function_text o true (fst ix) (render_body (render_sum render_next) (snd ix))) +++ nl) (fun ix => terms_block o true (gname (fst ix)) (next_stmts (snd ix)))); cbn [fst snd]; (apply terms_opened; [lia|exact O|]).
    - apply next_body, G1. - apply next_body, G2. - apply next_body, G3.
  Qed.
  Lemma path_opened o t : g_m o + g_n o <= 8 -> generate_optimized_paths_functions sot so son soc H cc S o = Ok t -> opened t (path_blocks o).
  Proof.
    intros Ho. destruct (group_data o Ho) as (l1 & l2 & l3 & b1 & b2 & b3 & n1 & n2 & n3 & p1 & p2 & p3 & E1 & E2 & E3 & E4 & G1 & G2 & G3).
    unfold generate_optimized_paths_functions, path_blocks. rewrite E4. cbn [bind ok_list]. intros E. assert (Y : forall a b : string, Ok a = Ok b -> a = b) by (now injection 1). apply Y in E. subst t.
    apply (three_opened (fun ix => join nl (path_function_text o (fst ix) (render_body (render_extend render_path (nth (fst ix) term_types ""%string +++ "_opt_path_list")) (snd ix))) +++ nl) (fun ix => paths_block o (gname (fst ix)) (path_stmts (path_list_name (gname (fst ix))) (snd ix)))); cbn [fst snd]; (apply paths_opened; [lia|]).
    - apply (path_body (path_list_name (gname 0))); try reflexivity. apply G1.
    - apply (path_body (path_list_name (gname 1))); try reflexivity. apply G2.
    - apply (path_body (path_list_name (gname 2))); try reflexivity. apply G3.
  Qed.

  (** ** The file *)
  Variable P : nat.
  Let ops := generate_omega_operator cc P.

  Lemma ops_facts o : In o ops -> g_m o + g_n o <= 8 /\ one_line (g_name o) /\ g_rank o = g_m o + g_n o.
  Proof.
    intros Ho. apply projections_exact in Ho as (Sp & R & C & _). destruct HA as (B & _). split; [lia|]. split; [|exact R].
    apply spells_name in Sp. rewrite Sp. clear. apply one_line_app; [|]; apply one_line_repeat; reflexivity.
  Qed.
  Lemma ops_not_nil : ops <> [].
  Proof.
    assert (X : projection cc P (mkgop "" 0 0 0)) by (repeat split; cbn; auto with arith; lia).
    apply projections_exact in X. intros E. unfold ops in E. now rewrite E in X.
  Qed.

  Definition cc_program : list stmt :=
    map Simple cc_imports
    ++ (flat_map default_blocks ops ++ flat_map (fun o => [amplitude_block false o]) ops)
    ++ (flat_map next_blocks ops ++ flat_map (fun o => [amplitude_block true o]) ops)
    ++ (flat_map path_blocks ops ++ flat_map (fun o => [grouped_block o]) ops) ++ [all_block cc ops].

  Lemma cc_program_read text : generate_full_cc_python sot so son soc H cc S P = Ok text -> python text cc_program.
  Proof.
    unfold generate_full_cc_python, generate_full_cc_python_file_contents. fold ops. cbv zeta.
    destruct (wrap_generation ops "FUNCTIONS" "TERMS" 28 (fun o => generate_full_cc_compute_functions sot so son soc H cc S o false)) as [t1|] eqn:E1; [|discriminate]. cbn [bind].
    destruct (wrap_generation ops "FUNCTIONS" "TERMS" 28 (fun o => generate_full_cc_compute_functions sot so son soc H cc S o true)) as [t2|] eqn:E2; [|discriminate]. cbn [bind].
    destruct (wrap_generation ops "OPTIMIZED PATHS" "OPTIMIZED PATHS" 25 (generate_optimized_paths_functions sot so son soc H cc S)) as [t3|] eqn:E3; [|discriminate]. cbn [bind].
    intros E. assert (Y : forall a b : string, Ok a = Ok b -> a = b) by (now injection 1). apply Y in E. subst text.
    assert (OL : forall o, In o ops -> one_line (g_name o)) by (intros o Ho; apply (ops_facts o Ho)).
    apply (wrap_closed ops _ _ _ _ _ default_blocks) in E1; [|reflexivity|reflexivity|exact OL|intros o b Ho Eb; destruct (ops_facts o Ho) as (F1 & F2 & _); now apply default_opened].
    apply (wrap_closed ops _ _ _ _ _ next_blocks) in E2; [|reflexivity|reflexivity|exact OL|intros o b Ho Eb; destruct (ops_facts o Ho) as (F1 & F2 & _); now apply next_opened].
    apply (wrap_closed ops _ _ _ _ _ path_blocks) in E3; [|reflexivity|reflexivity|exact OL|intros o b Ho Eb; destruct (ops_facts o Ho) as (F1 & F2 & _); now apply path_opened].
    assert (M : forall opt, opened (concat_str (map (fun o => master_compute_function o opt) ops)) (flat_map (fun o => [amplitude_block opt o]) ops)).
    { intros opt. apply opened_concat; [apply ops_not_nil|]. intros o Ho. destruct (ops_facts o Ho) as (F1 & F2 & F3). now apply amplitude_opened. }
    pose proof (M false) as M1. pose proof (M true) as M2. clear M.
    assert (M3 : opened (concat_str (map grouped_paths_function ops)) (flat_map (fun o => [grouped_block o]) ops)).
    { apply opened_concat; [apply ops_not_nil|]. intros o Ho. destruct (ops_facts o Ho) as (F1 & F2 & F3). now apply grouped_opened. }
    pose proof (all_opened cc ops) as M4. unfold cc_program.
    revert E1 E2 E3 M1 M2 M3 M4. generalize (flat_map default_blocks ops), (flat_map next_blocks ops), (flat_map path_blocks ops),
      (flat_map (fun o => [amplitude_block false o]) ops), (flat_map (fun o => [amplitude_block true o]) ops), (flat_map (fun o => [grouped_block o]) ops).
    generalize (concat_str (map (fun o => master_compute_function o false) ops)), (concat_str (map (fun o => master_compute_function o true) ops)), (concat_str (map grouped_paths_function ops)), (master_paths_function cc ops).
    intros m1 m2 m3 m4 c1 c2 c3 d1 d2 d3 E1 E2 E3 M1 M2 M3 M4.
    set (L1 := long_spaced_named_line "DEFAULT FUNCTIONS" 45). set (L2 := long_spaced_named_line "OPTIMIZED FUNCTIONS" 44). set (L3 := long_spaced_named_line "OPTIMIZED PATHS FUNCTIONS" 41).
    assert (C1 : closed L1 []) by now apply closed_long. assert (C2 : closed L2 []) by now apply closed_long. assert (C3 : closed L3 []) by now apply closed_long.
    set (N1 := named_line "INDIVIDUAL TERMS" 45). set (N2 := named_line "RESIDUAL FUNCTIONS" 45). set (N3 := named_line "INDIVIDUAL OPTIMIZED PATHS" 41).
    set (N4 := named_line "GROUPED BY PROJECTION OPERATOR" 41). set (N5 := named_line "MASTER OPTIMIZED PATH FUNCTION" 41).
    assert (S1 : silent N1) by now apply silent_named. assert (S2 : silent N2) by now apply silent_named. assert (S3 : silent N3) by now apply silent_named.
    assert (S4 : silent N4) by now apply silent_named. assert (S5 : silent N5) by now apply silent_named.
    assert (PART : forall L N N' t m c d, closed L [] -> silent N -> silent N' -> closed t c -> opened m d ->
      closed (L ++ nl ++ (N ++ nl) ++ nl ++ t ++ nl ++ (N' ++ m)) (c ++ d)).
    { intros L N N' t m c d CL SN SN' Ct Om. apply (closed_app _ _ []); [exact CL|]. apply (closed_app _ _ []); [apply closed_nl|]. apply (closed_app _ _ []); [now apply closed_comment|].
      apply (closed_app _ _ []); [apply closed_nl|]. apply closed_app; [exact Ct|]. apply (closed_app _ _ []); [apply closed_nl|]. now apply closed_silent. }
    match goal with |- python ?t _ => replace t with ((full_cc_import_statements ++ ((L1 ++ nl ++ (N1 ++ nl) ++ nl ++ t1 ++ nl ++ (N2 ++ m1)) ++ (L2 ++ nl ++ (N1 ++ nl) ++ nl ++ t2 ++ nl ++ (N2 ++ m2))
      ++ (L3 ++ nl ++ (N3 ++ nl) ++ nl ++ t3 ++ nl ++ (N4 ++ m3)) ++ nl ++ (N5 ++ m4) ++ nl)) ++ "")%string by (rewrite !append_assoc; reflexivity) end.
    apply closed_python; [|split; [reflexivity|exact (line_blank 0)]]. apply closed_app; [exact imports_closed|]. apply closed_app; [now apply PART|]. apply closed_app; [now apply PART|].
    apply closed_app; [now apply PART|]. apply (closed_app nl _ []); [apply closed_nl|].
    change [all_block cc ops] with ([all_block cc ops] ++ []). apply closed_app; [now apply closed_silent|apply closed_nl].
  Qed.
End Projection.

(** ** The names of the functions *)

Definition nth_head (k : nat) (mn : nat * nat) : string := nth k (cc_heads (fst mn) (snd mn)) ""%string.
Definition start_of (k : nat) : string :=
  nth k ["def add_m"; "def add_m"; "def add_m"; "def compute_m"; "def add_m"; "def add_m"; "def add_m"; "def compute_m";
         "def compute_m"; "def compute_m"; "def compute_m"; "def compute_m"]%string ""%string.
Definition rest_of (k : nat) : string :=
  nth k (map (fun g => fst g ++ "_terms(R, ansatz, truncation, h_args, t_args):")%string groups
         ++ ["amplitude(A, N, ansatz, truncation, h_args, t_args):"%string]
         ++ map (fun g => fst g ++ "_terms_optimized(R, ansatz, truncation, h_args, t_args, opt_" ++ snd g ++ "_path_list):")%string groups
         ++ ["amplitude_optimized(A, N, ansatz, truncation, h_args, t_args, opt_path_lists):"%string]
         ++ map (fun g => fst g ++ "_optimized_paths(A, N, ansatz, truncation):")%string groups
         ++ ["optimized_paths(A, N, ansatz, truncation):"%string]) ""%string.
Lemma nth_head_split k mn : k < 12 -> nth_head k mn = (start_of k ++ str_nat (fst mn) ++ String "_" (String "n" (str_nat (snd mn) ++ String "_" (rest_of k))))%string.
Proof.
  destruct mn as [m n]. intros K. do 12 (destruct k as [|k];
    [unfold nth_head, cc_heads, cc_terms_head, cc_terms_name, cc_equation_head, cc_path_head, cc_path_name, cc_grouped_head, cc_grouped_name, of_projection;
     cbn [fst snd flat_map map groups app nth String.append optimized]; rewrite ?append_assoc; cbn [String.append]; rewrite ?append_assoc; reflexivity|]). lia.
Qed.
Lemma app_cut (s t t' : string) : (s ++ t = s ++ t')%string -> t = t'.
Proof. induction s as [|c s IH]; [auto|]. cbn [String.append]. intros E. apply IH. now injection E. Qed.
Lemma start_inj k k' x x' : k < 12 -> k' < 12 -> (start_of k ++ x = start_of k' ++ x')%string -> start_of k = start_of k'.
Proof.
  intros K K'. do 12 (destruct k as [|k]; [do 12 (destruct k' as [|k']; [cbn [start_of nth String.append]; first [reflexivity|discriminate]|]); lia|]). lia.
Qed.
Lemma rest_inj k k' : k < 12 -> k' < 12 -> start_of k = start_of k' -> rest_of k = rest_of k' -> k = k'.
Proof.
  intros K K'. do 12 (destruct k as [|k]; [do 12 (destruct k' as [|k']; [cbn [start_of rest_of nth]; first [reflexivity|discriminate]|]); lia|]). lia.
Qed.
Lemma nth_head_inj k mn k' mn' : k < 12 -> k' < 12 -> nth_head k mn = nth_head k' mn' -> k = k' /\ mn = mn'.
Proof.
  intros K K' E. rewrite (nth_head_split k mn K), (nth_head_split k' mn' K') in E. pose proof (start_inj _ _ _ _ K K' E) as B. rewrite B in E. apply app_cut in E.
  assert (N : forall n, has_char "_" (str_nat n) = false) by (intros n; now apply str_nat_no_char).
  apply cut_at in E as [E1 E2]; [|apply N|apply N]. apply str_nat_inj in E1.
  assert (E3 : (str_nat (snd mn) ++ String "_" (rest_of k) = str_nat (snd mn') ++ String "_" (rest_of k'))%string) by (now injection E2).
  apply cut_at in E3 as [E3 E4]; [|apply N|apply N]. apply str_nat_inj in E3. split; [now apply rest_inj|]. destruct mn, mn'. cbn [fst snd] in *. congruence.
Qed.
Lemma all_head_other k mn : k < 12 -> nth_head k mn <> cc_all_head.
Proof.
  intros K. rewrite (nth_head_split k mn K). do 12 (destruct k as [|k]; [cbn [start_of nth String.append]; discriminate|]). lia.
Qed.
Lemma in_cc_heads h m n : In h (cc_heads m n) <-> exists k, k < 12 /\ h = nth_head k (m, n).
Proof.
  split.
  - intros Hh. destruct (In_nth _ _ ""%string Hh) as (k & K & E). exists k. split; [exact K|]. now rewrite <- E.
  - intros (k & K & ->). apply nth_In. exact K.
Qed.

Definition head_keys (ks : list (list nat)) (l : list (nat * nat)) : list (nat * (nat * nat)) :=
  flat_map (fun k => flat_map (fun mn => map (fun i => (i, mn)) k) l) ks.
Definition parts : list (list nat) := [[0; 1; 2]; [3]; [4; 5; 6]; [7]; [8; 9; 10]; [11]].
Lemma in_part (k : list nat) (l : list (nat * nat)) i mn : In (i, mn) (flat_map (fun mn => map (fun i => (i, mn)) k) l) <-> In i k /\ In mn l.
Proof.
  rewrite in_flat_map. split.
  - intros (x & Hx & Hi). apply in_map_iff in Hi as (j & E & Hj). injection E as -> ->. auto.
  - intros [A B]. exists mn. split; [exact B|]. apply in_map_iff. exists i. auto.
Qed.
Lemma part_distinct (k : list nat) (l : list (nat * nat)) : NoDup k -> NoDup l -> NoDup (flat_map (fun mn => map (fun i => (i, mn)) k) l).
Proof.
  intros K L. induction L as [|x l X L IH]; [constructor|]. cbn [flat_map]. apply NoDup_app_intro; [|exact IH|].
  - apply FinFun.Injective_map_NoDup; [|exact K]. intros a b E. now injection E.
  - intros [i mn] A B. apply in_map_iff in A as (j & E & _). injection E as -> ->. apply in_part in B as [_ B]. now apply X.
Qed.
Lemma in_head_keys ks l i mn : In (i, mn) (head_keys ks l) <-> In i (List.concat ks) /\ In mn l.
Proof.
  unfold head_keys. induction ks as [|k ks IH]; cbn [flat_map List.concat]; [split; [intros []|intros [[] _]]|]. rewrite !in_app_iff, IH, in_part. tauto.
Qed.
Lemma NoDup_parts {A} (l l' : list A) : NoDup (l ++ l') -> NoDup l /\ NoDup l'.
Proof.
  induction l as [|x l IH]; cbn [app]; intros N; [split; [constructor|exact N]|]. apply NoDup_cons_iff in N as [N1 N2]. destruct (IH N2) as [A1 A2].
  split; [|exact A2]. constructor; [|exact A1]. intros K. apply N1, in_app_iff. now left.
Qed.
Lemma head_keys_distinct ks l : NoDup (List.concat ks) -> NoDup l -> NoDup (head_keys ks l).
Proof.
  intros K L. induction ks as [|k ks IH]; cbn [head_keys flat_map List.concat] in *; [constructor|]. fold (head_keys ks l).
  apply NoDup_app_intro; [|apply IH; now apply NoDup_parts in K|].
  - apply part_distinct; [now apply NoDup_parts in K|exact L].
  - intros [i mn] A B. apply in_part in A as [A _]. apply in_head_keys in B as [B _]. clear - K A B.
    induction k as [|x k IH]; [destruct A|]. cbn [app] in K. apply NoDup_cons_iff in K as [K1 K2]. destruct A as [->|A]; [apply K1, in_app_iff; now right|auto].
Qed.

Section Places.
  Variables cc P : nat.
  Let ops := generate_omega_operator cc P.
  Definition places : list (nat * nat) := map (fun o => (g_m o, g_n o)) ops.

  Lemma in_places m n : In (m, n) places <-> m + n <= cc /\ m + n <= P.
  Proof.
    unfold places. rewrite in_map_iff. split.
    - intros (o & E & Ho). apply projections_exact in Ho as (_ & R & A & B). injection E as <- <-. lia.
    - intros [A B]. exists (mkgop (omega_name m n) (m + n) m n). split; [reflexivity|]. apply projections_exact. split; [now apply spells_name|]. cbn. auto.
  Qed.
  Lemma place_unique a b : In a ops -> In b ops -> g_m a = g_m b -> g_n a = g_n b -> a = b.
  Proof.
    intros Ha Hb E1 E2. apply projections_exact in Ha as (Sa & Ra & _). apply projections_exact in Hb as (Sb & Rb & _). apply spells_name in Sa, Sb.
    destruct a as [na ra ma xa], b as [nb rb mb xb]. cbn [g_name g_rank g_m g_n] in *. subst. reflexivity.
  Qed.
  Lemma places_distinct : NoDup places.
  Proof.
    assert (N : NoDup ops) by apply projections_exact. assert (I := place_unique). unfold places. revert N I. generalize ops. intros l N I.
    induction N as [|a l A N IH]; [constructor|]. cbn [map]. constructor; [|apply IH; intros; apply I; auto; now right].
    intros K. apply in_map_iff in K as (b & Eb & Hb). injection Eb as E1 E2. assert (b = a) by (apply I; [now right|now left|exact E1|exact E2]). now subst.
  Qed.
End Places.

Section Names.
  Variable sot : list (list tamp) -> list (list tamp).
  Variable so : list nat -> list nat.
  Variable son : list (list nat) -> list (list nat).
  Variable soc : list (list ascii) -> list (list ascii).
  Hypothesis Hsot : set_order sot.
  Hypothesis Hson : set_order son.
  Hypothesis Hsoc : set_order soc.
  Variables H cc S P : nat.
  Hypothesis HA : accepted H cc S.
  Hypothesis HH : H <= 5.
  Let ops := generate_omega_operator cc P.
  Let prog := cc_program sot so son soc H cc S P.

  Lemma heads_flat_map {A} (f : A -> list stmt) l : heads (flat_map f l) = flat_map (fun x => heads (f x)) l.
  Proof. induction l as [|x l IH]; [reflexivity|]. cbn [flat_map]. now rewrite heads_app, IH. Qed.
  Lemma part_heads (f : gop -> list stmt) k : (forall o, In o ops -> heads (f o) = map (fun i => nth_head i (g_m o, g_n o)) k) ->
    heads (flat_map f ops) = map (fun x => nth_head (fst x) (snd x)) (flat_map (fun mn => map (fun i => (i, mn)) k) (places cc P)).
  Proof.
    intros E. rewrite heads_flat_map. unfold places. fold ops. revert E. generalize ops. intros l E. induction l as [|o l IH]; [reflexivity|]. cbn [flat_map map].
    rewrite (E o) by now left. rewrite IH by (intros; apply E; now right). rewrite map_app, map_map. reflexivity.
  Qed.
  Lemma cc_program_heads : heads prog = map (fun x => nth_head (fst x) (snd x)) (head_keys parts (places cc P)) ++ [cc_all_head].
  Proof.
    assert (D : forall o, In o ops -> exists b1 b2 b3 n1 n2 n3 p1 p2 p3,
      generate_full_cc_einsums sot so son soc H cc S o true = Ok [b1; b2; b3] /\
      generate_full_cc_nexts sot so son soc H cc S o true = Ok [n1; n2; n3] /\
      generate_full_cc_optimized_paths sot so son soc H cc S o true = Ok [p1; p2; p3]).
    { intros o Ho. destruct (group_data sot so son soc Hsot Hson Hsoc H cc S HA HH o) as (l1 & l2 & l3 & b1 & b2 & b3 & n1 & n2 & n3 & p1 & p2 & p3 & _ & E2 & E3 & E4 & _).
      - apply projections_exact in Ho as (_ & R & A & _). destruct HA. lia.
      - repeat eexists; eassumption. }
    unfold prog, cc_program. fold ops. rewrite !heads_app.
    rewrite (part_heads (default_blocks sot so son soc H cc S) [0; 1; 2]) by (intros o Ho; destruct (D o Ho) as (b1 & b2 & b3 & n1 & n2 & n3 & p1 & p2 & p3 & E1 & E2 & E3); unfold default_blocks; rewrite E1; reflexivity).
    rewrite (part_heads (next_blocks sot so son soc H cc S) [4; 5; 6]) by (intros o Ho; destruct (D o Ho) as (b1 & b2 & b3 & n1 & n2 & n3 & p1 & p2 & p3 & E1 & E2 & E3); unfold next_blocks; rewrite E2; reflexivity).
    rewrite (part_heads (path_blocks sot so son soc H cc S) [8; 9; 10]) by (intros o Ho; destruct (D o Ho) as (b1 & b2 & b3 & n1 & n2 & n3 & p1 & p2 & p3 & E1 & E2 & E3); unfold path_blocks; rewrite E3; reflexivity).
    rewrite (part_heads (fun o => [amplitude_block false o]) [3]) by reflexivity.
    rewrite (part_heads (fun o => [amplitude_block true o]) [7]) by reflexivity.
    rewrite (part_heads (fun o => [grouped_block o]) [11]) by reflexivity.
    unfold head_keys, parts. cbn [flat_map]. rewrite !map_app. cbn [map]. rewrite app_nil_r, <- !app_assoc. reflexivity.
  Qed.

  Lemma parts_below i : In i (List.concat parts) <-> i < 12.
  Proof.
    cbn [parts List.concat app In]. split; [lia|]. lia.
  Qed.
  Lemma cc_heads_distinct : NoDup (heads prog).
  Proof.
    rewrite cc_program_heads. apply NoDup_app_intro; [|repeat constructor; intros []|].
    - assert (D : NoDup (head_keys parts (places cc P))) by (apply head_keys_distinct; [|apply places_distinct]; repeat constructor; cbn; lia).
      assert (B : forall x, In x (head_keys parts (places cc P)) -> fst x < 12) by (intros [i mn] Hx; apply in_head_keys in Hx as [Hx _]; now apply parts_below).
      revert D B. generalize (head_keys parts (places cc P)). intros l D B. induction D as [|x l X D IH]; [constructor|]. cbn [map]. constructor; [|apply IH; intros; apply B; now right].
      intros K. apply in_map_iff in K as (y & Ey & Hy). apply nth_head_inj in Ey as [E1 E2]; [|apply B; now right|apply B; now left].
      destruct x, y. cbn [fst snd] in *. subst. now apply X.
    - intros h A [<-|[]]. apply in_map_iff in A as ([i mn] & E & Hx). apply in_head_keys in Hx as [Hx _]. apply parts_below in Hx. now apply (all_head_other i mn).
  Qed.
  Lemma in_program_heads h : In h (heads prog) <-> h = cc_all_head \/ exists m n, m + n <= cc /\ m + n <= P /\ In h (cc_heads m n).
  Proof.
    rewrite cc_program_heads, in_app_iff, in_map_iff. split.
    - intros [([i [m n]] & <- & Hx)|[<-|[]]]; [right|now left]. apply in_head_keys in Hx as [Hx Hp]. apply in_places in Hp as [A B]. apply parts_below in Hx.
      exists m, n. split; [exact A|]. split; [exact B|]. apply in_cc_heads. exists i. auto.
    - intros [->|(m & n & A & B & Hh)]; [right; now left|left]. apply in_cc_heads in Hh as (k & K & ->). exists (k, (m, n)). split; [reflexivity|].
      apply in_head_keys. split; [now apply parts_below|now apply in_places].
  Qed.

  Lemma exec_cc_program flag : exec flag prog = cc_imports.
  Proof.
    unfold prog, cc_program. fold ops. rewrite exec_app.
    match goal with |- _ ++ exec flag ?l = _ => assert (E : exec flag l = []) end.
    { apply exec_nothing. repeat (apply Forall_app; split); try (repeat constructor; fail); apply Forall_forall; intros x Hx; apply in_flat_map in Hx as (o & _ & Hx);
        try (destruct Hx as [<-|[]]; exact I);
        [unfold default_blocks in Hx|unfold next_blocks in Hx|unfold path_blocks in Hx]; apply in_map_iff in Hx as (ix & <- & _); exact I. }
    rewrite E. reflexivity.
  Qed.

  (** ** The functions of a projection *)

  Lemma in_program x : (exists o, In o ops /\ In x (default_blocks sot so son soc H cc S o ++ [amplitude_block false o] ++ next_blocks sot so son soc H cc S o
      ++ [amplitude_block true o] ++ path_blocks sot so son soc H cc S o ++ [grouped_block o])) \/ x = all_block cc ops -> In x prog.
  Proof.
    intros [(o & Ho & Hx)| ->]; unfold prog, cc_program; fold ops.
    - apply in_or_app. right. rewrite !in_app_iff, !in_flat_map. rewrite !in_app_iff in Hx.
      destruct Hx as [Hx|[Hx|[Hx|[Hx|[Hx|Hx]]]]]; [left; left|left; right|right; left; left|right; left; right|right; right; left; left|right; right; left; right]; exists o; auto.
    - rewrite !in_app_iff. do 4 right. now left.
  Qed.

  Lemma equation_defined o opt : In o ops -> defines_cc_equation prog (g_m o) (g_n o) opt.
  Proof.
    intros Ho. exists (amplitude_doc o). split; [|reflexivity]. apply in_program. left. exists o. split; [exact Ho|]. rewrite !in_app_iff.
    destruct opt; [do 3 right; left|right; left]; left; reflexivity.
  Qed.
  Lemma grouped_defined o : In o ops -> defines_cc_grouped prog (g_m o) (g_n o).
  Proof.
    intros Ho. exists (grouped_doc o). split; [|reflexivity]. apply in_program. left. exists o. split; [exact Ho|]. rewrite !in_app_iff.
    do 5 right. left. unfold grouped_block, dict_entry. cbn [map concat_str fold_right]. rewrite append_nil_r. rewrite ?append_assoc. cbn [String.append]. reflexivity.
  Qed.
  Lemma all_defined : defines_cc_all prog (places cc P).
  Proof. exists (all_doc cc). split; [|reflexivity]. apply in_program. now right. Qed.
End Names.

Section Functions.
  Variable sot : list (list tamp) -> list (list tamp).
  Variable so : list nat -> list nat.
  Variable son : list (list nat) -> list (list nat).
  Variable soc : list (list ascii) -> list (list ascii).
  Hypothesis Hsot : set_order sot.
  Hypothesis Hso : set_order so.
  Hypothesis Hson : set_order son.
  Hypothesis Hsoc : set_order soc.
  Variables H cc S P : nat.
  Hypothesis HA : accepted H cc S.
  Hypothesis HH : H <= 5.
  Let ops := generate_omega_operator cc P.
  Let prog := cc_program sot so son soc H cc S P.

  Lemma one_group o i l b n p bodies nexts paths : In o ops -> i < 3 ->
    generate_full_cc_einsums sot so son soc H cc S o true = Ok bodies -> In (i, b) (number bodies) ->
    generate_full_cc_nexts sot so son soc H cc S o true = Ok nexts -> In (i, n) (number nexts) ->
    generate_full_cc_optimized_paths sot so son soc H cc S o true = Ok paths -> In (i, p) (number paths) ->
    good_group so (einsum_calls son soc) l b n p ->
    group_functions prog so (einsum_calls son soc) H cc S (g_m o) (g_n o) (gname i) l.
  Proof.
    intros Ho Hi E1 I1 E2 I2 E3 I3 [K B1 N1 NB NC P1 PN PS].
    assert (Ho8 : g_m o + g_n o <= 8) by (apply projections_exact in Ho as (_ & R & A & _); destruct HA; lia).
    assert (IB : In b bodies) by exact (in_number _ _ _ I1).
    exists (run_bare b), (fun fh ft => run fh ft b).
    assert (IP : forall x, In x (default_blocks sot so son soc H cc S o ++ [amplitude_block false o] ++ next_blocks sot so son soc H cc S o
      ++ [amplitude_block true o] ++ path_blocks sot so son soc H cc S o ++ [grouped_block o]) -> In x prog).
    { intros x Hx. apply in_program. left. exists o. auto. }
    split; [|split; [|split; [|split; [|split]]]].
    - exists (terms_doc o (gname i) false), (default_stmts b). split; [|split; [reflexivity|now apply default_body]].
      apply IP, in_or_app. left. unfold default_blocks. rewrite E1. cbn [ok_list]. apply in_map_iff. exists (i, b). split; [reflexivity|exact I1].
    - exact K.
    - intros fh ft [x c] Hin. exact (code_sound sot so son soc Hsot Hso Hson Hsoc H cc S HA HH o Ho8 true bodies E1 b IB fh ft x c Hin).
    - intros fh ft [x c]. exact (code_flags sot so son soc Hsot Hson Hsoc H cc S HA HH o Ho8 true bodies E1 b IB fh ft x c).
    - exists (terms_doc o (gname i) true), (next_stmts n). split; [|split; [reflexivity|]].
      + apply IP. rewrite !in_app_iff. do 2 right. left. unfold next_blocks. rewrite E2. cbn [ok_list]. apply in_map_iff. exists (i, n). split; [reflexivity|exact I2].
      + destruct (next_body n N1) as [_ D]. rewrite NB in D. exact (does_ext _ _ _ _ _ NC D).
    - exists (paths_doc (gname i)), (path_stmts (path_list_name (gname i)) p). split; [|split; [reflexivity|]].
      + apply IP. rewrite !in_app_iff. do 4 right. left. unfold path_blocks. rewrite E3. cbn [ok_list]. apply in_map_iff. exists (i, p). split; [reflexivity|exact I3].
      + destruct (list_name_facts i Hi) as [F1 F2]. destruct (path_body _ p F1 F2 P1) as [_ D]. rewrite PN in D. refine (does_ext _ _ _ _ _ _ D).
        intros fh ft. rewrite PS, NC, map_map. reflexivity.
  Qed.

  Lemma projection_functions o : In o ops -> exists a b c,
    python_groups sot H cc S o true = Ok (a, b, c) /\
    Forall2 (group_functions prog so (einsum_calls son soc) H cc S (g_m o) (g_n o)) groups [a; b; c].
  Proof.
    intros Ho. assert (Ho8 : g_m o + g_n o <= 8) by (apply projections_exact in Ho as (_ & R & A & _); destruct HA; lia).
    destruct (group_data sot so son soc Hsot Hson Hsoc H cc S HA HH o Ho8) as (l1 & l2 & l3 & b1 & b2 & b3 & n1 & n2 & n3 & p1 & p2 & p3 & E1 & E2 & E3 & E4 & G1 & G2 & G3).
    exists l1, l2, l3. split; [exact E1|]. rewrite groups_three.
    constructor; [|constructor; [|constructor; [|constructor]]].
    - apply (one_group o 0 l1 b1 n1 p1 _ _ _ Ho ltac:(lia) E2 ltac:(now left) E3 ltac:(now left) E4 ltac:(now left) G1).
    - apply (one_group o 1 l2 b2 n2 p2 _ _ _ Ho ltac:(lia) E2 ltac:(right; now left) E3 ltac:(right; now left) E4 ltac:(right; now left) G2).
    - apply (one_group o 2 l3 b3 n3 p3 _ _ _ Ho ltac:(lia) E2 ltac:(right; right; now left) E3 ltac:(right; right; now left) E4 ltac:(right; right; now left) G3).
  Qed.
End Functions.

(** ** The theorems *)

Theorem cc_file_program sot so son soc H cc S P text :
  set_order sot -> set_order son -> set_order soc -> 1 <= cc <= 6 -> S <= 6 -> H <= 5 ->
  generate_full_cc_python sot so son soc H cc S P = Ok text ->
  exists prog, python text prog /\
    (forall flag, exec flag prog = cc_imports) /\
    NoDup (heads prog) /\
    (forall h, In h (heads prog) <-> h = cc_all_head \/ exists m n, m + n <= cc /\ m + n <= P /\ In h (cc_heads m n)) /\
    (forall m n, m + n <= cc -> m + n <= P ->
       defines_cc_equation prog m n false /\ defines_cc_equation prog m n true /\ defines_cc_grouped prog m n).
Proof.
  intros Hsot Hson Hsoc C1 C2 C3 E. assert (HA : accepted H cc S) by (split; [exact C1|split; [exact C2|lia]]).
  exists (cc_program sot so son soc H cc S P). split; [now apply (cc_program_read sot so son soc)|]. split; [intros; apply exec_cc_program|].
  split; [now apply cc_heads_distinct|]. split; [intros h; now apply in_program_heads|].
  intros m n A B. pose proof (proj2 (in_places cc P m n) (conj A B)) as Hp. apply in_map_iff in Hp as (o & Eo & Ho). injection Eo as <- <-.
  split; [now apply equation_defined|]. split; [now apply equation_defined|now apply grouped_defined].
Qed.

Lemma group_contents sot H cc S o a b c : set_order sot -> 1 <= cc -> python_groups sot H cc S o true = Ok (a, b, c) ->
  Forall2 (group_terms H cc S (g_m o) (g_n o)) (kinds (g_m o) (g_n o)) [a; b; c].
Proof.
  intros Hs Hc E. unfold python_groups in E.
  destruct (separation_exact sot o H cc S true true Hs Hc) as (l & a' & b' & c' & El & Es & Pm & _ & _ & _ & G).
  rewrite El in E. cbn [bind] in E. rewrite Es in E. injection E as -> -> ->.
  destruct (full_cc_sound sot o H cc S true true Hs Hc) as (l1 & E1 & Sd). assert (l1 = l) by congruence. subst l1.
  destruct (full_cc_complete sot o H cc S true true Hs Hc) as (l1 & E2 & Cp). assert (l1 = l) by congruence. subst l1.
  destruct (full_cc_once sot o H cc S true true Hs Hc) as (l1 & E3 & N & _). assert (l1 = l) by congruence. subst l1.
  apply (Permutation_NoDup Pm) in N. apply NoDup_parts in N as [Na N]. apply NoDup_parts in N as [Nb Nc].
  assert (Sub : forall t, In t a \/ In t b \/ In t c -> In t l).
  { intros t Ht. apply (Permutation_in t (Permutation_sym Pm)). now rewrite !in_app_iff. }
  assert (W : forall (k : list tamp -> Prop) x, NoDup x -> (forall t, In t x -> In t l) -> (forall us us', Permutation us us' -> k us -> k us') ->
    (forall t hm hn us f fbar, In t l -> requested (g_m o) (g_n o) H cc S true true hm hn us f fbar -> describes (g_m o) (g_n o) hm hn us f fbar t -> (In t x <-> k us)) ->
    group_terms H cc S (g_m o) (g_n o) k x).
  { intros k x Nx Sx Pk Kx. split; [exact Nx|]. split.
    - intros t Ht. destruct (Sd t (Sx t Ht)) as (hm & hn & us & f & fb & R & D). exists hm, hn, us, f, fb. split; [exact R|]. split; [|exact D]. now apply (Kx t hm hn us f fb (Sx t Ht) R D).
    - intros hm hn us f fb R K. destruct (Cp hm hn us f fb R) as (us' & t & Pu & _ & D & Ht). exists us', t. split; [exact Pu|]. split; [exact D|].
      assert (R' : requested (g_m o) (g_n o) H cc S true true hm hn us' f fb).
      { destruct R as (R1 & R2 & R3 & R4 & R5). split; [exact R1|]. split; [now rewrite <- (Permutation_length Pu)|]. split; [|split; [|exact R5]].
        - rewrite Forall_forall in *. intros u Hu. apply R3. apply (Permutation_in u (Permutation_sym Pu) Hu).
        - assert (T : forall g : tamp -> nat, total g us' = total g us).
          { intros g. clear - Pu. unfold total. induction Pu; cbn [fold_right]; lia. }
          unfold contraction in *. now rewrite !T. }
      apply (Kx t hm hn us' f fb Ht R' D). now apply (Pk us). }
  assert (GG : forall t hm hn us f fbar, In t l -> requested (g_m o) (g_n o) H cc S true true hm hn us f fbar -> describes (g_m o) (g_n o) hm hn us f fbar t ->
    (In t a <-> fully_connected us) /\ (In t b <-> linked (g_m o) (g_n o) us) /\ (In t c <-> unlinked (g_m o) (g_n o) us)).
  { intros t hm hn us f fb Ht (R1 & R2 & R3 & R4 & R5) D. exact (G t hm hn us f fb Ht R3 R4 D). }
  constructor; [|constructor; [|constructor; [|constructor]]].
  - apply W; [exact Na|auto| |intros; now apply (GG t hm hn us f fbar)]. intros us us' Pu K. unfold fully_connected in *. rewrite Forall_forall in *.
    intros u Hu. apply K. exact (Permutation_in u (Permutation_sym Pu) Hu).
  - apply W; [exact Nb|auto| |intros; now apply (GG t hm hn us f fbar)]. intros us us' Pu [(u & Hu & D) K]. split; [exists u; split; [exact (Permutation_in u Pu Hu)|exact D]|].
    intros v Hv. apply K. exact (Permutation_in v (Permutation_sym Pu) Hv).
  - apply W; [exact Nc|auto| |intros; now apply (GG t hm hn us f fbar)]. intros us us' Pu (u & Hu & D). exists u. split; [exact (Permutation_in u Pu Hu)|exact D].
Qed.

Theorem cc_file_functions sot so son soc H cc S P text prog :
  set_order sot -> set_order so -> set_order son -> set_order soc -> 1 <= cc <= 6 -> S <= 6 -> H <= 5 ->
  generate_full_cc_python sot so son soc H cc S P = Ok text -> python text prog ->
  forall m n, m + n <= cc -> m + n <= P ->
  exists terms, Forall2 (group_terms H cc S m n) (kinds m n) terms /\
    Forall2 (group_functions prog so (einsum_calls son soc) H cc S m n) groups terms.
Proof.
  intros Hsot Hso Hson Hsoc C1 C2 C3 E R m n A B. assert (HA : accepted H cc S) by (split; [exact C1|split; [exact C2|lia]]).
  assert (prog = cc_program sot so son soc H cc S P) as -> by (apply (python_functional text); [exact R|now apply (cc_program_read sot so son soc)]).
  pose proof (proj2 (in_places cc P m n) (conj A B)) as Hp. apply in_map_iff in Hp as (o & Eo & Ho). injection Eo as <- <-.
  destruct (projection_functions sot so son soc Hsot Hso Hson Hsoc H cc S P HA C3 o Ho) as (a & b & c & G & F).
  exists [a; b; c]. split; [|exact F]. apply (group_contents sot); [exact Hsot|lia|exact G].
Qed.

Theorem cc_file_all_paths sot so son soc H cc S P text prog :
  set_order sot -> set_order son -> set_order soc -> 1 <= cc <= 6 -> S <= 6 -> H <= 5 ->
  generate_full_cc_python sot so son soc H cc S P = Ok text -> python text prog ->
  (exists ps, defines_cc_all prog ps /\ NoDup ps /\ forall m n, In (m, n) ps <-> m + n <= cc /\ m + n <= P) /\
  (exists body, In (Block cc_all_head body) prog /\ forall flag, pair_index_into_list (exec flag body)).
Proof.
  intros Hsot Hson Hsoc C1 C2 C3 E R. assert (HA : accepted H cc S) by (split; [exact C1|split; [exact C2|lia]]).
  assert (prog = cc_program sot so son soc H cc S P) as -> by (apply (python_functional text); [exact R|now apply (cc_program_read sot so son soc)]).
  pose proof (all_defined sot so son soc H cc S P) as D. split.
  - exists (places cc P). split; [exact D|]. split; [apply places_distinct|apply in_places].
  - destruct D as (doc & D & _). eexists. split; [exact D|]. intros flag.
    assert (NE : places cc P <> []) by (intros Q; assert (X : In (0, 0) (places cc P)) by (apply (in_places cc P 0 0); lia); rewrite Q in X; destruct X).
    destruct (places cc P) as [|mn ps]; [congruence|].
    exists [doc], (map (fun mn => "all_opt_path_lists[" ++ pair_of mn ++ "] = " ++ cc_grouped_name (fst mn) (snd mn) ++ "(A, N, ansatz, truncation)[" ++ pair_of mn ++ "]")%string ps ++ ["return all_opt_path_lists"%string]),
      "all_opt_path_lists"%string, mn, (cc_grouped_name (fst mn) (snd mn) ++ "(A, N, ansatz, truncation)[" ++ pair_of mn ++ "]")%string.
    cbn [map app]. unfold exec. cbn [flat_map exec1 app]. do 3 f_equal.
    rewrite flat_map_app. cbn [flat_map exec1 app]. f_equal. clear. induction ps as [|x ps IH]; [reflexivity|]. cbn [map flat_map exec1 app]. now rewrite IH.
Qed.
