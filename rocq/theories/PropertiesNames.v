(** Property theorems C94-C95: the names and calls of the modules of the full
    coupled cluster equations and of the e^T ansatz. *)
From Coq Require Import List Arith Bool Ascii String Lia.
From Verif Require Import PyBase ModelHelper ModelFullCC ModelFullCCPy ModelZhz ModelEt ModelEtPy SpecFullCC SpecEt SpecEtPy SpecPython SpecEtText SpecFullCCText SpecNames
  ProofsFullCC ProofsNamesFullCCFile ProofsNamesEt.
Import ListNotations.
Local Open Scope nat_scope.
Local Open Scope list_scope.

(** C94: whatever the conditions, the functions of the module of the full
    coupled cluster equations read only names that are bound, and the functions
    of the module are called with as many arguments as they have parameters. *)
Theorem C94_full_cc_names :
  forall sot so son soc H cc S P text prog,
    set_order sot -> set_order son -> set_order soc -> 1 <= cc <= 6 -> S <= 6 -> H <= 5 ->
    generate_full_cc_python sot so son soc H cc S P = Ok text -> python text prog -> names_resolved prog /\ calls_match prog.
Proof. exact cc_file_names. Qed.
Print Assumptions C94_full_cc_names.

(** The reader of names, on lines of such a file. *)
Example C94_example :
  (exists text, generate_full_cc_python (fun l => l) (fun l => l) (fun l => l) (fun l => l) 1 1 1 1 = Ok text) /\
  set_order (fun l : list (list tamp) => l) /\
  effect "R += 1/(factorial(2)) * next(optimized_einsum)(h_args[(0, 1)], t_args[(1, 0)])" = (["R"; "factorial"; "next"; "optimized_einsum"; "h_args"; "t_args"], [])%string /\
  effect "optimized_einsum = iter(opt_linked_path_list)" = (["iter"; "opt_linked_path_list"], ["optimized_einsum"])%string /\
  calls "linked_opt_path_list = compute_m0_n0_linked_optimized_paths(A, N, ansatz, truncation)" = [("compute_m0_n0_linked_optimized_paths", 4)]%string.
Proof. split; [eexists; vm_compute; reflexivity|]. split; [intros l; apply Permutation.Permutation_refl|]. repeat split; vm_compute; reflexivity. Qed.

(** C95: the same for both modules of the e^T ansatz. *)
Theorem C95_eT_names :
  forall s ground H CC e P text prog,
    1 <= CC <= 8 -> generate_eT_zhz_python s ground H CC 1 e P = Ok text -> python text prog -> names_resolved prog /\ calls_match prog.
Proof. exact eT_file_names. Qed.
Print Assumptions C95_eT_names.

(** C95: the optimized functions of the terms have the same code as the others
    and do not read the contraction paths they are given. *)
Theorem C95_paths_unused :
  forall s ground H CC e P text prog,
    1 <= CC <= 8 -> generate_eT_zhz_python s ground H CC 1 e P = Ok text -> python text prog ->
    forall p k, p <= CC -> p <= P -> In k ["HZ"; "eT_HZ"]%string ->
    exists doc doc' body,
      In (Block (terms_head s p k false) (Simple doc :: body)) prog /\ In (Block (terms_head s p k true) (Simple doc' :: body)) prog /\
      String.prefix triple doc = true /\ String.prefix triple doc' = true /\
      In "opt_einsum"%string (SpecNames.parameters (terms_head s p k true)) /\
      forall t, In t (doc' :: flat_map lines1 body) -> ~ In "opt_einsum"%string (names_read t).
Proof. exact eT_paths_unused. Qed.
Print Assumptions C95_paths_unused.

Example C95_example :
  (exists text, generate_eT_zhz_python RHS true 1 2 1 2 1 = Ok text) /\
  (exists text, generate_eT_zhz_python LHS false 1 2 1 1 2 = Ok text) /\
  effect "Z += (1 / 2) * np.einsum('i, ci -> c', t_conj[(0, 1)], dz_args[(1, 0)])" = (["Z"; "np"; "t_conj"; "dz_args"], [])%string /\
  calls "add_m0_n1_HZ_terms_optimized(R, ansatz, truncation, t_args, h_args, z_args, optimized_HZ_paths)" = [("add_m0_n1_HZ_terms_optimized", 7)]%string /\
  List.length (SpecNames.parameters (terms_head RHS 1 "HZ" true)) = 7.
Proof. split; [eexists; vm_compute; reflexivity|]. split; [eexists; vm_compute; reflexivity|]. repeat split; vm_compute; reflexivity. Qed.
