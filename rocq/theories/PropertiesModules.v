(** The generated modules together: their names, the calls between them, the
    symmetriser, and the way from the W operators to the residuals. *)
From Coq Require Import List Arith Bool Ascii String Lia Permutation.
From Verif Require Import PyBase SpecW SpecResidual SpecPython SpecSumText SpecEtText SpecWText SpecDtText SpecResidualText SpecSymmetrize SpecNames SpecModules
  ModelHelper ModelW ModelDt ModelResidual ModelSymmetrize ProofsStr ProofsHelper ProofsWText ProofsDtFuns ProofsResidualText ProofsSymmetrize ProofsNamesChecks ProofsModules.
Import ListNotations.
Local Open Scope nat_scope.
Local Open Scope list_scope.

(** C86: whatever the conditions, a function of the module of the W operators
    reads no name that is not bound, except that the functions of all operators
    read the functions of the orders above M; functions are called with as many
    arguments as they have parameters.  So all names are bound just when the
    file has all six orders. *)
Theorem C86_w_names :
  forall so M text prog, set_order so ->
    generate_w_operator_equations_file so M = Ok text -> python text prog ->
    (forall head body, In (Block head body) prog ->
       function_resolved prog (w_functions_above M) head body /\
       (head <> compute_w_head false -> head <> compute_w_head true -> function_resolved prog [] head body)) /\
    calls_match prog /\ (names_resolved prog <-> M = 6).
Proof. exact w_names. Qed.
Print Assumptions C86_w_names.

(** The reader of names, on lines of the file. *)
Example C86_example :
  (exists text, generate_w_operator_equations_file (fun l => l) 2 = Ok text) /\
  effect "W_2 += 1/factorial(2) * (np.einsum('aci, cbj->abij', t_i, t_i, optimize=path))" = (["W_2"; "factorial"; "np"; "t_i"; "t_i"; "path"], [])%string /\
  effect "t_i, t_ij, *unusedargs = t_args" = (["t_args"], ["t_i"; "t_ij"; "unusedargs"])%string /\
  parameters "def f(A, N):" = ["A"; "N"]%string /\
  calls "x = f(A, g(N), (1, 2)) + np.zeros(3)" = [("f", 3); ("g", 1)]%string /\
  w_functions_above 5 = ["_calculate_order_6_w_operator"; "_calculate_order_6_w_operator_optimized"]%string.
Proof. split; [|repeat split; vm_compute; reflexivity]. apply (w_total (fun l => l) keep_order). lia. Qed.

(** C87: in the modules of the time derivatives and of the residuals every name
    is bound when it is read and calls match. *)
Theorem C87_dt_names :
  forall so M text prog, set_order so ->
    generate_dt_amplitude_equations_file so M = Ok text -> python text prog -> names_resolved prog /\ calls_match prog.
Proof. exact dt_names. Qed.
Print Assumptions C87_dt_names.

Theorem C87_residual_names :
  forall M r text prog,
    generate_residual_equations_file M r = Ok text -> python (joined text) prog -> names_resolved prog /\ calls_match prog.
Proof. exact residual_names. Qed.
Print Assumptions C87_residual_names.

(** C87: the module of the derivatives up to order M finds the functions it
    calls in the module of the residuals, with the parameters it passes, just
    when that one goes up to order M. *)
Theorem C87_dt_calls_residuals :
  forall so M text prog M' r text' prog', set_order so ->
    generate_dt_amplitude_equations_file so M = Ok text -> python text prog ->
    generate_residual_equations_file M' r = Ok text' -> python (joined text') prog' ->
    (module_calls_match "residual_equations" prog prog' <-> M <= M').
Proof. exact dt_residual_calls. Qed.
Print Assumptions C87_dt_calls_residuals.

Example C87_example :
  (exists text, generate_dt_amplitude_equations_file (fun l => l) 3 = Ok text) /\
  (exists text, generate_residual_equations_file 3 2 = Ok text) /\
  calls_of_module "residual_equations" "residual[:] -= residual_equations.calculate_order_2_residual(A, N, trunc, h_args, w_args)" = [("calculate_order_2_residual", 5)]%string /\
  parameters (residual_head 2) = ["A"; "N"; "truncation"; "h_args"; "w_args"]%string.
Proof.
  split; [apply (dt_total (fun l => l) keep_order); lia|]. split; [apply residual_file_program; lia|]. split; vm_compute; reflexivity.
Qed.

(** C88: the symmetriser is one function.  A tensor of order zero or one it
    returns; for the orders from two up to its highest order M it returns the
    sum of the tensor over all orders of its mode axes, each once, with the
    surface axes in place; above M it returns an array of zeros. *)
Theorem C88_symmetrizer :
  forall M prog, python (build_symmetrizing_function M) prog ->
    exists body, prog = [Block symmetrize_head body] /\
      forall flag k, order_is flag k ->
        exists doc, String.prefix "'''" doc = true /\
        (k <= 1 -> starts_with (exec flag body) [doc; "X = np.zeros_like(tensor, dtype=complex)"%string; "return tensor"%string]) /\
        (2 <= k <= M -> exists axes, mode_orders k axes /\
           exec flag body = [doc; "X = np.zeros_like(tensor, dtype=complex)"%string] ++ map add_transposed axes ++ ["return X"%string]) /\
        (2 <= k -> M < k -> exec flag body = [doc; "X = np.zeros_like(tensor, dtype=complex)"; "return X"]%string).
Proof. exact symmetrize_file. Qed.
Print Assumptions C88_symmetrizer.

Definition order_two (c : string) : bool := String.eqb c "order == 2".
Example C88_example :
  (exists prog, python (build_symmetrizing_function 5) prog) /\ order_is order_two 2 /\
  mode_orders 2 [[0; 1; 2; 3]; [0; 1; 3; 2]] /\ add_transposed [0; 1; 3; 2] = "X += np.transpose(tensor, (0, 1, 3, 2))"%string.
Proof.
  split; [eexists; apply symmetrize_read|]. split; [|split; [|reflexivity]].
  - intros n. unfold order_two. destruct (Nat.eqb_spec n 2) as [->|N]; [reflexivity|]. apply String.eqb_neq. intros E. apply N.
    cbn in E. injection E as E. apply str_nat_inj. exact E.
  - split; [repeat constructor; cbn; intuition discriminate|]. intros ax. split.
    + intros [<-|[<-|[]]]; [exists [2; 3]|exists [3; 2]]; (split; [reflexivity|]); [apply Permutation_refl|apply perm_swap].
    + intros (p & -> & P). cbn [seq] in P. apply Permutation_sym, Permutation_length_2_inv in P. destruct P as [->| ->]; cbn; auto.
Qed.

(** C89: the generated modules call symmetrize_tensor with three arguments (the
    number of modes, the tensor and the order), but the symmetriser has the two
    parameters tensor and order: the calls match it just when there are none,
    for W operators up to order one and no time derivatives. *)
Theorem C89_w_symmetrizer_calls :
  forall so M text prog O sprog, set_order so ->
    generate_w_operator_equations_file so M = Ok text -> python text prog ->
    python (build_symmetrizing_function O) sprog ->
    (imported_calls_match "symmetrize_tensor" prog sprog <-> M <= 1).
Proof. exact w_sym. Qed.
Print Assumptions C89_w_symmetrizer_calls.

Theorem C89_dt_symmetrizer_calls :
  forall so M text prog O sprog, set_order so ->
    generate_dt_amplitude_equations_file so M = Ok text -> python text prog ->
    python (build_symmetrizing_function O) sprog ->
    (imported_calls_match "symmetrize_tensor" prog sprog <-> M = 0).
Proof. exact dt_sym. Qed.
Print Assumptions C89_dt_symmetrizer_calls.

Theorem C89_residual_symmetrizer_calls :
  forall M r text prog O sprog,
    generate_residual_equations_file M r = Ok text -> python (joined text) prog ->
    python (build_symmetrizing_function O) sprog -> imported_calls_match "symmetrize_tensor" prog sprog.
Proof. exact residual_sym. Qed.
Print Assumptions C89_residual_symmetrizer_calls.

Example C89_example :
  calls "symmetric_w = symmetrize_tensor(N, W_2, order=2)" = [("symmetrize_tensor", 3)]%string /\
  parameters symmetrize_head = ["tensor"; "order"]%string.
Proof. split; vm_compute; reflexivity. Qed.

(** C90: for a truncation of a level up to four, when the values returned by the
    function of all W operators are handed to the residual function of an order
    p of the truncation, they are enough to unpack and the function adds the
    terms of all h^m_n of the Hamiltonian with m <= p (quadratic ones when the
    truncation has them), except that the h^2 term is never added at the orders
    two and three. *)
Theorem C90_workflow :
  forall so M wt wprog M' r text prog flag opt p, set_order so ->
    generate_w_operator_equations_file so M = Ok wt -> python wt wprog ->
    generate_residual_equations_file M' r = Ok text -> python (joined text) prog ->
    negations flag -> level_truncation (trunc_of flag) -> ~ has_rank (trunc_of flag) 5 -> needed_order (trunc_of flag) <= M ->
    p <= M' -> p <= 4 -> has_rank (trunc_of flag) (Nat.max 1 p) ->
    exists body vs, In (Block (compute_w_head opt) body) wprog /\ returns_values flag body vs /\ p + 2 <= List.length vs /\
      (receives flag vs ->
       exists ms ts, residual_runs prog flag p ts /\ Forall2 (adds_term p) ms ts /\ NoDup ms /\
         forall m n, In (m, n) ms <->
           m + n <= r /\ m <= p /\ (2 <= m \/ 2 <= n -> flag "truncation.quadratic"%string = true) /\ ~ (m = 2 /\ (p = 2 \/ p = 3))).
Proof. exact workflow. Qed.
Print Assumptions C90_workflow.

(** Doubles: four W operators and two times nothing are returned. *)
Definition doubles_on (c : string) : bool :=
  existsb (String.eqb c) ["truncation.singles"; "truncation.doubles"; "truncation.quadratic"; "w_i is not None"; "w_ij is not None"; "w_ijk is not None";
                          "w_ijkl is not None"]%string.
Definition up_to_doubles (c : string) : bool :=
  match c with String "n" (String "o" (String "t" (String " " r))) => negb (doubles_on r) | _ => doubles_on c end.
Example C90_example :
  level_truncation (trunc_of up_to_doubles) /\ ~ has_rank (trunc_of up_to_doubles) 5 /\ needed_order (trunc_of up_to_doubles) = 4 /\
  has_rank (trunc_of up_to_doubles) (Nat.max 1 2) /\ negations up_to_doubles /\
  receives up_to_doubles ["w_1"; "w_2"; "w_3"; "w_4"; "None"; "None"]%string.
Proof.
  split; [split; [reflexivity|]; intros r A B; do 6 (destruct r as [|r]; [try (exfalso; lia); try (intros _; reflexivity); intros X; discriminate X|]); exfalso; lia|].
  split; [discriminate|]. split; [reflexivity|]. split; [reflexivity|]. split.
  - intros r. reflexivity.
  - intros k v. do 6 (destruct k as [|k]; [intros E; injection E as <-; reflexivity|]). destruct k; discriminate.
Qed.
