(** Property theorems C69 - C71: the text of the python file of the full coupled
    cluster equations. *)
From Coq Require Import List Arith Lia String.
From Verif Require Import PyBase ModelFullCC ModelFullCCPy SpecFullCC SpecFullCCPy SpecPython SpecEtText SpecFullCCText ProofsFullCCText.
Import ListNotations.

Definition same {A} (l : list A) : list A := l.

(** C69: the generated file is a program that imports its modules and defines,
    for each projection operator up to the ranks, the functions of the three
    groups of terms and of the amplitude, with and without optimised paths, the
    functions of the paths of the groups and of the projection, and one function
    of all paths; and no other functions, each once.  The functions of the
    amplitude call the functions of the three groups. *)
Theorem C69_full_cc_program :
  forall sot so son soc H cc S P text,
    set_order sot -> set_order son -> set_order soc -> 1 <= cc <= 6 -> S <= 6 -> H <= 5 ->
    generate_full_cc_python sot so son soc H cc S P = Ok text ->
    exists prog, python text prog /\
      (forall flag, exec flag prog = cc_imports) /\
      NoDup (heads prog) /\
      (forall h, In h (heads prog) <->
         h = cc_all_head \/ exists m n, m + n <= cc /\ m + n <= P /\ In h (cc_heads m n)) /\
      (forall m n, m + n <= cc -> m + n <= P ->
         defines_cc_equation prog m n false /\ defines_cc_equation prog m n true /\ defines_cc_grouped prog m n).
Proof. exact cc_file_program. Qed.
Print Assumptions C69_full_cc_program.

(** The text is the one that is compared in GoldenFullCC.v after the imports. *)
Example C69_example :
  (exists text, generate_full_cc_python same same same same 2 2 2 1 = Ok text) /\
  set_order (@same nat) /\
  nth 5 (cc_heads 0 1) ""%string
    = "def add_m0_n1_linked_disconnected_terms_optimized(R, ansatz, truncation, h_args, t_args, opt_linked_path_list):"%string /\
  nth 10 (cc_heads 1 0) ""%string = "def compute_m1_n0_unlinked_disconnected_optimized_paths(A, N, ansatz, truncation):"%string /\
  List.length (cc_heads 0 1) = 12.
Proof. split; [eexists; vm_compute; reflexivity|]. split; [intros l; apply Permutation.Permutation_refl|]. repeat split. Qed.

(** C70: for each projection operator and each of the three groups of requested
    contractions, whatever the flags of the caller: the default function adds
    requested contractions of the group with their prefactors, namely those of
    the last term of each place under its flags; the optimised function makes
    the same additions with the entries of its list of paths in order; and the
    function of the paths makes this list, with the shapes of the operands. *)
Theorem C70_full_cc_functions :
  forall sot so son soc H cc S P text prog,
    set_order sot -> set_order so -> set_order son -> set_order soc -> 1 <= cc <= 6 -> S <= 6 -> H <= 5 ->
    generate_full_cc_python sot so son soc H cc S P = Ok text -> python text prog ->
    forall m n, m + n <= cc -> m + n <= P ->
    exists terms, Forall2 (group_terms H cc S m n) (kinds m n) terms /\
      Forall2 (group_functions prog so (einsum_calls son soc) H cc S m n) groups terms.
Proof. exact cc_file_functions. Qed.
Print Assumptions C70_full_cc_functions.

(** A requested contraction of the second group, and statements of the three
    functions of a group. *)
Example C70_example :
  requested 0 2 2 2 2 true true 1 0 [mkt 0 0 1 0] 0 1 /\ linked 0 2 [mkt 0 0 1 0] /\
  sum_adds einsum_text "R += np.einsum('acy, cbz -> abyz', h_args[(1, 0)], t_args[(1, 0)])"%string
    [(""%string, mkeinsum ["acy"; "cbz"]%string "abyz" (1, 0) [(1, 0)])] /\
  sum_adds next_text "R += 1/(factorial(2)) * ( next(optimized_einsum)(h_args[(0, 1)], t_args[(1, 0)], t_args[(1, 0)]) + next(optimized_einsum)(h_args[(0, 1)], t_args[(1, 0)], t_args[(1, 0)]) )"%string
    (List.repeat ("1/(factorial(2)) * "%string, mknext (0, 1) [(1, 0); (1, 0)]) 2) /\
  list_adds "linked_disconnected_opt_path_list" "linked_disconnected_opt_path_list.append(oe.contract_expression((A, A, N), (A, A, N)))"%string [[1; 1]].
Proof.
  split; [|split; [|split; [|split]]].
  - unfold requested, contraction, amplitude, total, up, down. cbn. repeat split; try lia; repeat constructor; cbn; lia.
  - split; [exists (mkt 0 0 1 0); split; [now left|now split]|]. intros t [<-|[]] _ [E _]. discriminate.
  - exists ""%string, [mkeinsum ["acy"; "cbz"]%string "abyz" (1, 0) [(1, 0)]]. split; [discriminate|]. split; reflexivity.
  - exists "1/(factorial(2)) * "%string, (List.repeat (mknext (0, 1) [(1, 0); (1, 0)]) 2). split; [discriminate|]. split; reflexivity.
  - left. exists [1; 1]. split; reflexivity.
Qed.

(** C71: in every generated file, the function that collects the paths of all
    projection operators starts with an empty list and assigns the entries of
    the projections by pairs (m, n): the first assignment raises a TypeError. *)
Theorem C71_all_paths_indexes_a_list :
  forall sot so son soc H cc S P text prog,
    set_order sot -> set_order son -> set_order soc -> 1 <= cc <= 6 -> S <= 6 -> H <= 5 ->
    generate_full_cc_python sot so son soc H cc S P = Ok text -> python text prog ->
    (exists ps, defines_cc_all prog ps /\ NoDup ps /\ forall m n, In (m, n) ps <-> m + n <= cc /\ m + n <= P) /\
    (exists body, In (Block cc_all_head body) prog /\ forall flag, pair_index_into_list (exec flag body)).
Proof. exact cc_file_all_paths. Qed.
Print Assumptions C71_all_paths_indexes_a_list.

(** The hypotheses hold of the file of C69_example. *)
Example C71_example :
  exists text prog, generate_full_cc_python same same same same 1 1 1 1 = Ok text /\ python text prog.
Proof.
  assert (E : exists text, generate_full_cc_python same same same same 1 1 1 1 = Ok text) by (eexists; vm_compute; reflexivity).
  destruct E as [text E]. exists text.
  destruct (C69_full_cc_program same same same same 1 1 1 1 text) as (prog & R & _); try (intros l; apply Permutation.Permutation_refl); try lia; [exact E|].
  exists prog. auto.
Qed.
