(** Properties of the text of the generated module of the time derivatives. *)
From Coq Require Import List Arith Lia String Permutation.
From Verif Require Import PyBase SpecPartitions SpecW SpecDt SpecPython SpecEtText SpecSumText SpecWText SpecDtText
  ModelHelper ModelW ModelDt ProofsW ProofsDtFuns PropertiesWText.
Import ListNotations.
Local Open Scope nat_scope.
Local Open Scope list_scope.

(** C76: a file is made exactly for the orders up to six, and it is a python
    program: it has the imports and the functions it should have, in order, and
    no function twice. *)
Theorem C76_dt_program :
  forall so M, set_order so ->
    ((exists text, generate_dt_amplitude_equations_file so M = Ok text) <-> M <= 6) /\
    (forall text, generate_dt_amplitude_equations_file so M = Ok text ->
       exists prog, python text prog /\ (forall flag, exec flag prog = dt_imports) /\ heads prog = dt_heads M /\ NoDup (heads prog)).
Proof. exact dt_file_program. Qed.
Print Assumptions C76_dt_program.

Example C76_example :
  set_order as_given /\ (exists text, generate_dt_amplitude_equations_file as_given 2 = Ok text /\ 4000 < String.length text) /\
  nth 1 (dt_heads 2) ""%string = "def _order_2_linked_disconnected_terms(A, N, trunc, t_args, dt_args):"%string /\
  nth 15 (dt_heads 2) ""%string = "def solve_doubles_equations_optimized(A, N, ansatz, trunc, epsilon, h_args, t_args, dt_args, w_args, opt_path_list):"%string /\
  List.length (dt_heads 2) = 20.
Proof. split; [apply as_given_order|]. split; [eexists; split; [vm_compute; reflexivity|apply Nat.ltb_lt; vm_compute; reflexivity]|]. repeat split. Qed.

(** C77: the default function of order k takes the residual, subtracts the
    product of W and epsilon over k! and, for each disconnected product of the
    ansatz whose ranks sum to k and each of its factors, the product with this
    factor differentiated, once, with its weight in the exponential, as a matrix
    product, and nothing else; it returns the symmetrised difference. *)
Theorem C77_dt_default_functions :
  forall so M text prog flag k, set_order so ->
    generate_dt_amplitude_equations_file so M = Ok text -> python text prog -> 1 <= k <= M ->
    exists l, dt_computes prog flag k false "" (fun _ => []) l /\ is_dt_sum flag k l.
Proof. exact dt_file_default. Qed.
Print Assumptions C77_dt_default_functions.

(** A file; two products of order four, of which only CC has the second. *)
Example C77_example :
  (exists text prog, generate_dt_amplitude_equations_file as_given 4 = Ok text /\ python text prog) /\
  dt_kind ccsd_flags = Kind_CC /\
  (composition_of 4 [1; 2; 1] /\ disconnected_in Kind_mixed [1; 2; 1] /\ leibniz_term [1; 2; 1] 1 = ["t_i"; "dt_ij"; "t_i"]%string /\ exp_denominator [1; 2; 1] = 12) /\
  disconnected_in Kind_CC [2; 2] /\ ~ disconnected_in Kind_mixed [2; 2].
Proof.
  split; [|split; [reflexivity|split; [|split]]].
  - destruct (proj2 (proj1 (C76_dt_program as_given 4 as_given_order))) as (text & E); [lia|].
    destruct (proj2 (C76_dt_program as_given 4 as_given_order) text E) as (prog & P & _). exists text, prog. auto.
  - repeat split; repeat constructor.
  - cbv; lia.
  - cbv; lia.
Qed.

(** C78: the functions of the lists of expressions return, for each order inside
    the truncation, the expression and the lists with which the optimised
    function subtracts the same products as the default function, in the same
    order, and which it uses up. *)
Theorem C78_dt_optimized_functions :
  forall so M text prog flag, set_order so ->
    generate_dt_amplitude_equations_file so M = Ok text -> python text prog ->
    level_truncation (trunc_of flag) -> negations flag ->
    exists ep lp up, returns_epsilon_paths prog flag ep /\ returns_dt_paths prog flag false lp /\ returns_dt_paths prog flag true up /\
      forall k, 1 <= k <= M -> has_rank (trunc_of flag) k ->
        exists e pl pu l, nth_error ep (k - 1) = Some e /\ nth_error lp (k - 1) = Some pl /\ nth_error up (k - 1) = Some pu /\
          dt_computes prog flag k true e (fun un => if un then pu else pl) l /\
          dt_computes prog flag k false "" (fun _ => []) l /\ is_dt_sum flag k l.
Proof. exact dt_file_optimized. Qed.
Print Assumptions C78_dt_optimized_functions.

(** The hypotheses hold for singles and doubles; the call of the product with
    epsilon and its expression. *)
Example C78_example :
  (exists text prog, generate_dt_amplitude_equations_file as_given 4 = Ok text /\ python text prog) /\
  level_truncation (trunc_of ccsd_flags) /\ negations ccsd_flags /\ has_rank (trunc_of ccsd_flags) 2 /\
  w_epsilon_call 2 = "opt_epsilon(w_ij, epsilon)"%string /\
  w_epsilon_contract 2 = "oe.contract_expression('acij,cb->abij', (A, A, N, N), (A, A))"%string.
Proof. split; [exact (proj1 C77_example)|]. split; [apply ccsd_level|]. split; [intros r; reflexivity|]. repeat split. Qed.

(** C79: the function of all lists returns the three lists; the functions of the
    caller exist exactly for the orders of the file, refuse an order outside the
    truncation, and otherwise return the result of the function of C77 or C78,
    handing it the entries of the three lists that belong to the order. *)
Theorem C79_dt_callers :
  forall so M text prog flag, set_order so ->
    generate_dt_amplitude_equations_file so M = Ok text -> python text prog ->
    (exists body doc, In (Block all_paths_head body) prog /\ String.prefix triple doc = true /\ exec flag body = all_paths_body doc) /\
    forall k opt, 1 <= k <= 6 ->
      ((exists body, In (Block (solve_head k opt) body) prog) <-> k <= M) /\
      forall body, In (Block (solve_head k opt) body) prog -> exists doc, String.prefix triple doc = true /\
        (flag ("not trunc." ++ rank_name k)%string = true -> exists t, raises t /\ starts_with (exec flag body) [doc; t]) /\
        (flag ("not trunc." ++ rank_name k)%string = false -> exec flag body = doc :: solve_body k opt).
Proof. exact dt_file_callers. Qed.
Print Assumptions C79_dt_callers.

(** The statements of the function of the doubles. *)
Example C79_example :
  (exists text prog, generate_dt_amplitude_equations_file as_given 4 = Ok text /\ python text prog) /\
  solve_body 2 true =
    ["opt_epsilon_path_list, opt_linked_path_list, opt_unlinked_path_list = opt_path_list";
     "dt_ij = _calculate_order_2_dt_amplitude_optimized( A, N, ansatz, trunc, epsilon, h_args, t_args, dt_args, w_args, opt_epsilon_path_list[1], opt_linked_path_list[1], opt_unlinked_path_list[1] )";
     "return dt_ij"]%string.
Proof. split; [exact (proj1 C77_example)|reflexivity]. Qed.
