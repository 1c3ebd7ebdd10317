(** Property theorems C45 (text) and C62: the generated file of the e^T ansatz,
    read as python. *)
From Coq Require Import List Arith Ascii String Lia.
From Verif Require Import PyBase ModelHelper ModelFullCC ModelFullCCPy ModelZhz ModelEt ModelEtPy SpecEt SpecEtPy SpecPython SpecEtText
  ProofsPython ProofsEtRead ProofsEtProgram.
Import ListNotations.
Local Open Scope nat_scope.
Local Open Scope list_scope.

(** A text has at most one reading as a program. *)
Theorem C62_one_reading : forall text b b', python text b -> python text b' -> b = b'.
Proof. exact python_functional. Qed.
Print Assumptions C62_one_reading.

(** The reader: blocks are given by the indentation, lines are joined in
    brackets, comments and empty lines are skipped ... *)
Example python_example :
  python (join nl ["if a:  # first"; "    x += ("; "        f('#') +"; "        g"; "    )"; ""; "    y"; "else:"; "    pass"; "z"]%string)
    [If "a" [Simple "x += ( f('#') + g )"; Simple "y"] [Simple "pass"]; Simple "z"]%string.
Proof.
  eexists. split; [vm_compute; reflexivity|].
  refine (reads_if_else 0 "a" 4 [(4, "x += ( f('#') + g )"); (4, "y")]%string 4 [(4, "pass")]%string [(0, "z")]%string _ _ _ _ _ _ _ _ _ _);
    try lia; try discriminate; repeat (first [apply reads_simple; [reflexivity|] | apply reads_nil]).
Qed.
(** ... and a condition without a block, or an open bracket, is no program. *)
Example not_python_example :
  (~ exists b, python (join nl ["if a:"; "x"]%string) b) /\ (~ exists b, python (join nl ["x += (f"; "y"]%string) b).
Proof.
  split; intros (b & ls & L & R).
  - vm_compute in L. injection L as <-. apply reads_inv in R as (t & E & R). injection E as <-.
    assert (X : forall (inner r : list lline) j b1, [(0, "x"%string)] = inner ++ r -> inner <> [] -> reads j inner b1 -> 0 < j -> False).
    { intros inner r j b1 E NI R1 J. destruct inner as [|x inner]; [congruence|]. injection E as <- _. pose proof (at_level _ _ _ R1 _ _ eq_refl) as Z. cbn in Z. lia. }
    destruct R as [(N & _)|[(c & j & inner & r & b1 & b' & _ & E & _ & J & NI & R1 & _)|[(c & j & inner & j' & inner' & r & b1 & b2 & b' & _ & E & _ & J & NI & R1 & _)|[(c & j & inner & d & r & b1 & y & n & b' & _ & E & _ & J & NI & R1 & _)|(N & _)]]]];
      try discriminate N; exact (X _ _ _ _ E NI R1 J).
  - vm_compute in L. discriminate.
Qed.

(** C45, text: for every list of terms with amplitudes up to the rank, the
    printed body is a python program that adds, under the conditions it prints,
    what [run_ebody] gives for the flags of these names. *)
Theorem C45_text :
  forall s H CC l b,
    write_third_eTz_einsum_python s H CC l = Ok b ->
    (forall t, In t l -> list_max (map et_rank (tt_ts t)) <= CC) ->
    exists prog, python (join nl (render_ebody s b)) prog /\ body_adds s prog (fun fh ft fz => run_ebody fh ft fz b).
Proof. exact written_python. Qed.
Print Assumptions C45_text.

(** Three terms with flags of h, of t and z, and of all three. *)
Example C45_text_example :
  let t1 := written 1 0 1 0 0 (mkcontraction 0 0 [] 1 []) in
  let t2 := written 0 1 0 0 1 (mkcontraction 0 0 [1] 0 [0]) in
  let t3 := written 1 1 1 0 1 (mkcontraction 0 0 [1] 1 [0]) in
  exists b, write_third_eTz_einsum_python RHS 2 2 [t1; t2; t3] = Ok b /\
    (forall t, In t [t1; t2; t3] -> list_max (map et_rank (tt_ts t)) <= 2) /\
    body_stmts RHS b =
      [If "truncation.t_singles"
         [If "truncation.z_at_least_linear" [Simple "R += np.einsum('i, ac, ci -> a', t_args[(0, 1)], h_args[(0, 0)], z_args[(1, 0)])"] []] [];
       If "truncation.h_at_least_linear"
         [Simple "R += np.einsum('acz, c -> az', h_args[(1, 0)], z_args[(0, 0)])";
          If "truncation.t_singles"
            [If "truncation.z_at_least_linear" [Simple "R += np.einsum('i, acz, ci -> az', t_args[(0, 1)], h_args[(1, 0)], z_args[(1, 0)])"] []] []] []]%string.
Proof.
  cbv zeta. eexists. split; [vm_compute; reflexivity|]. split; [intros t [<-|[<-|[<-|[]]]]; cbn; lia|]. vm_compute. reflexivity.
Qed.

(** C62: the generated file is a program that imports its modules and defines,
    for each projection up to the ranks, with and without optimized paths, two
    functions that add exactly the contractions of the ansatz without (other
    than the bare term) and with amplitudes, and the function of the residual
    that calls both; and no other functions, each once. *)
Theorem C62_program :
  forall s ground H CC e P text,
    1 <= CC <= 8 -> generate_eT_zhz_python s ground H CC 1 e P = Ok text ->
    exists prog, python text prog /\
      (forall flag, exec flag prog = eT_imports) /\
      NoDup (heads prog) /\
      (forall h, In h (heads prog) <-> exists p opt, p <= CC /\ p <= P /\
         (h = terms_head s p "HZ" opt \/ h = terms_head s p "eT_HZ" opt \/ h = equation_head s p opt)) /\
      (forall p opt, p <= CC -> p <= P ->
         defines_terms s ground prog (terms_head s p "HZ" opt)
           (fun q m n k c => q = 0 /\ of_ansatz s H CC p q m n k c /\ ~ bare_term p q m n k) /\
         defines_terms s ground prog (terms_head s p "eT_HZ" opt)
           (fun q m n k c => 1 <= q <= e /\ of_ansatz s H CC p q m n k c) /\
         defines_equation s prog p opt).
Proof. exact file_program. Qed.
Print Assumptions C62_program.

(** Both sides; the text is that of a golden file (GoldenEt.v). *)
Example C62_example :
  (exists text, generate_eT_zhz_python RHS true 1 2 1 2 1 = Ok text) /\
  (exists text, generate_eT_zhz_python LHS false 1 2 1 1 2 = Ok text) /\
  terms_head RHS 1 "eT_HZ" true = "def add_m0_n1_eT_HZ_terms_optimized(R, ansatz, truncation, t_args, h_args, z_args, opt_einsum):"%string /\
  equation_head LHS 2 false = "def compute_m0_n2_amplitude(A, N, ansatz, truncation, t_conj, dT, z_args, dz_args):"%string.
Proof. split; [eexists; vm_compute; reflexivity|]. split; [eexists; vm_compute; reflexivity|]. split; reflexivity. Qed.
