(** Properties of the text of the generated module of the W operators. *)
From Coq Require Import List Arith Lia String Permutation.
From Verif Require Import PyBase SpecPartitions SpecW SpecPython SpecEtText SpecSumText SpecWText ModelHelper ModelW ProofsW ProofsWText.
Import ListNotations.
Local Open Scope nat_scope.
Local Open Scope list_scope.

Definition as_given (l : list (list nat)) : list (list nat) := l.
Lemma as_given_order : set_order as_given.
Proof. intros l. apply Permutation_refl. Qed.
(** The flags of a caller with singles and doubles in the VECC ansatz. *)
Definition ccsd (s : string) : bool := existsb (String.eqb s) ["truncation.singles"; "truncation.doubles"; "ansatz.VECC"]%string.
Definition ccsd_flags (s : string) : bool :=
  match s with
  | String "n" (String "o" (String "t" (String " " r))) => negb (ccsd r)
  | _ => ccsd s
  end.

(** C72: a file is made exactly for the orders up to six, and it is a python
    program: it has the imports and the functions it should have, in order, and
    no function twice. *)
Theorem C72_w_program :
  forall so M, set_order so ->
    ((exists text, generate_w_operator_equations_file so M = Ok text) <-> M <= 6) /\
    (forall text, generate_w_operator_equations_file so M = Ok text ->
       exists prog, python text prog /\ (forall flag, exec flag prog = w_imports) /\ heads prog = w_heads M /\ NoDup (heads prog)).
Proof. exact w_file_program. Qed.
Print Assumptions C72_w_program.

Example C72_example :
  set_order as_given /\ (exists text, generate_w_operator_equations_file as_given 2 = Ok text /\ 4000 < String.length text) /\
  nth 0 (w_heads 2) ""%string = "def _add_order_1_vemx_contributions(W_1, t_args, truncation):"%string /\
  nth 12 (w_heads 2) ""%string = "def _calculate_order_2_w_operator_optimized(A, N, t_args, ansatz, truncation, vemx_opt_path_list, vecc_opt_path_list):"%string /\
  List.length (w_heads 2) = 16.
Proof. split; [apply as_given_order|]. split; [eexists; split; [vm_compute; reflexivity|apply Nat.ltb_lt; vm_compute; reflexivity]|]. repeat split. Qed.

(** C73: the default function of W of order k adds each product of amplitudes
    inside the truncation and the ansatz whose ranks sum to k, once, with its
    weight in the exponential, as a matrix product, and nothing else. *)
Theorem C73_w_default_functions :
  forall so M text prog flag k, set_order so ->
    generate_w_operator_equations_file so M = Ok text -> python text prog ->
    level_truncation (trunc_of flag) -> 1 <= k <= M ->
    exists l, w_adds prog flag k false (fun _ => []) l /\ is_w_sum flag k l.
Proof. exact w_file_default. Qed.
Print Assumptions C73_w_default_functions.

Lemma ccsd_level : level_truncation (trunc_of ccsd_flags).
Proof. split; [reflexivity|]. intros r H1 H2 H. destruct r as [|[|[|[|[|[|r]]]]]]; try lia; try reflexivity; discriminate H. Qed.

(** The hypotheses hold; a composition that is kept, one that is not. *)
Example C73_example :
  (exists text prog, generate_w_operator_equations_file as_given 4 = Ok text /\ python text prog) /\ level_truncation (trunc_of ccsd_flags) /\
  (composition_of 4 [1; 2; 1] /\ kept ccsd_flags [1; 2; 1] /\ allowed (trunc_of ccsd_flags) [1; 2; 1] /\ exp_denominator [1; 2; 1] = 12) /\
  ~ allowed (trunc_of ccsd_flags) [3; 1].
Proof.
  split; [|split; [apply ccsd_level|split]].
  - destruct (proj2 (proj1 (C72_w_program as_given 4 as_given_order))) as (text & E); [lia|].
    destruct (proj2 (C72_w_program as_given 4 as_given_order) text E) as (prog & P & _). exists text, prog. auto.
  - repeat split; repeat constructor.
  - intros H. inversion H as [|x l H1 H2]. discriminate H1.
Qed.

(** C74: the functions of the lists of expressions return, for each order, the
    lists with which the optimised function adds the same products as the
    default function, in the same order, and which it uses up. *)
Theorem C74_w_optimized_functions :
  forall so M text prog flag, set_order so ->
    generate_w_operator_equations_file so M = Ok text -> python text prog ->
    level_truncation (trunc_of flag) -> negations flag ->
    exists vx vc, returns_paths prog flag "vemx" vx /\ returns_paths prog flag "vecc" vc /\
      forall k, 1 <= k <= M -> exists px pc l, nth_error vx (k - 1) = Some px /\ nth_error vc (k - 1) = Some pc /\
        w_adds prog flag k true (choose px pc) l /\ w_adds prog flag k false (fun _ => []) l /\ is_w_sum flag k l.
Proof. exact w_file_optimized. Qed.
Print Assumptions C74_w_optimized_functions.

(** The hypotheses about the flags hold; a call and the entry of the list it
    uses. *)
Example C74_example :
  (exists text prog, generate_w_operator_equations_file as_given 4 = Ok text /\ python text prog) /\
  level_truncation (trunc_of ccsd_flags) /\ negations ccsd_flags /\
  computes ["oe.contract_expression('aci, cbjk->abijk', (A, A, N), (A, A, N, N))"%string] "next(optimized_einsum)(t_i, t_ij)"
    (mkproduct ["t_i"; "t_ij"]%string ["aci"; "cbjk"]%string "abijk") [].
Proof.
  split; [exact (proj1 C73_example)|]. split; [apply ccsd_level|]. split; [intros r; reflexivity|].
  apply (computes_next (mkproduct ["t_i"; "t_ij"]%string ["aci"; "cbjk"]%string "abijk") ["(A, A, N)"; "(A, A, N, N)"]%string).
  constructor; [exists 1; auto|]. constructor; [exists 2; auto|constructor].
Qed.

(** C75: the function of all operators refuses a truncation without singles;
    it computes the operators up to the order the truncation needs and returns
    them; it refuses a truncation with quintuples.  The functions it calls exist
    exactly for the orders up to the order of the file. *)
Theorem C75_w_master_function :
  forall so M text prog flag opt, set_order so ->
    generate_w_operator_equations_file so M = Ok text -> python text prog -> negations flag ->
    (exists body doc, In (Block (compute_w_head opt) body) prog /\ String.prefix triple doc = true /\
      (~ has_rank (trunc_of flag) 1 -> exists t, raises t /\ starts_with (exec flag body) [doc; t]) /\
      (has_rank (trunc_of flag) 1 -> ~ has_rank (trunc_of flag) 5 ->
         let n := needed_order (trunc_of flag) in
         starts_with (exec flag body) (doc :: map (fun k => compute_w_call k opt) (seq 1 n) ++ [w_result n])) /\
      (level_truncation (trunc_of flag) -> has_rank (trunc_of flag) 5 ->
         exists t, String.prefix "raise NotImplementedError(" t = true /\
           starts_with (exec flag body) (doc :: map (fun k => compute_w_call k opt) (seq 1 6) ++ [t]))) /\
    (forall k, 1 <= k <= 6 -> ((exists body, In (Block (w_head k opt) body) prog) <-> k <= M)).
Proof. exact w_file_master. Qed.
Print Assumptions C75_w_master_function.

(** Singles and doubles need the operators up to the fourth; a file of order
    three has no function for it. *)
Example C75_example :
  (exists text prog, generate_w_operator_equations_file as_given 3 = Ok text /\ python text prog /\ ~ exists body, In (Block (w_head 4 true) body) prog) /\
  negations ccsd_flags /\ has_rank (trunc_of ccsd_flags) 1 /\ ~ has_rank (trunc_of ccsd_flags) 5 /\ needed_order (trunc_of ccsd_flags) = 4 /\
  compute_w_call 4 true = "w_4 = _calculate_order_4_w_operator_optimized(A, N, t_args, ansatz, truncation, vemx_optimized_paths[3], vecc_optimized_paths[3])"%string /\
  w_result 4 = "return w_1, w_2, w_3, w_4, None, None"%string.
Proof.
  split; [|split; [intros r; reflexivity|]].
  - destruct (proj2 (proj1 (C72_w_program as_given 3 as_given_order))) as (text & E); [lia|].
    destruct (proj2 (C72_w_program as_given 3 as_given_order) text E) as (prog & P & _). exists text, prog. split; [exact E|]. split; [exact P|].
    intros X. apply (proj2 (C75_w_master_function as_given 3 text prog ccsd_flags true as_given_order E P (fun r => eq_refl)) 4) in X; lia.
  - repeat split. discriminate.
Qed.
