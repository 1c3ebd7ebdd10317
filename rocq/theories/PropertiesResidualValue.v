(** Properties of the numbers that the generated residual functions compute. *)
From Coq Require Import List Arith Bool Ascii String Lia Permutation QArith Qcanon.
From Verif Require Import PyBase SpecPartitions SpecW SpecDt SpecResidual SpecPython SpecSumText SpecWText SpecResidualText SpecEinsum SpecFullCCValue SpecResidualValue
  ModelResidual ProofsResidualText ProofsResidualValue PropertiesResidualText PropertiesWValue.
Import ListNotations.
Local Open Scope nat_scope.
Local Open Scope list_scope.

(** C117: up to order four, whatever arrays of the right shapes the operators of
    the Hamiltonian and the W operators are, numpy accepts every statement that
    the residual function of order p executes, each adds an array of the shape of
    the residual, and what they add up to is the sum over the operators h^m_n of
    the product of h^m_n and W, projected on p modes, over (p-m)! n! m!. *)
Theorem C117_residual_value :
  forall M r text prog flag p (F : scalars) A N (env : string -> array F),
    generate_residual_equations_file M r = Ok text -> python (joined text) prog -> p <= M -> p <= 4 -> residual_axes F A N env flag ->
    exists ts vs, residual_runs prog flag p ts /\ Forall2 (statement_adds F A N env p) ts vs /\
      forall a b is, b < A -> List.length is = p ->
        ksum F (map (fun v => v (a :: b :: is)) vs) = residual_value F A N env (really_adds flag r p) is a b.
Proof. exact residual_file_value. Qed.
Print Assumptions C117_residual_value.

(** These are all operators that should be added, unless the Hamiltonian is
    quadratic and the order two or three. *)
Theorem C117_residual_complete :
  forall flag r p, r <= 1 \/ (p <> 2 /\ p <> 3) -> really_adds flag r p = should_add flag r p.
Proof. exact really_should. Qed.
Print Assumptions C117_residual_complete.

(** There the product of h^2 and W over 2! (p-2)! is missing from the result when
    W of order p + 2 was given. *)
Theorem C117_residual_missing :
  forall flag p (F : scalars) A N (env : string -> array F) is a b,
    p = 2 \/ p = 3 -> flag "truncation.quadratic"%string = true -> given flag (p + 2) = true -> List.length is = p ->
    residual_value F A N env (should_add flag 2 p) is a b =
    kadd F (kmul F (residual_weight F p 2 0) (h_on_w F A N env 2 0 is a b)) (residual_value F A N env (really_adds flag 2 p) is a b).
Proof. exact residual_misses. Qed.
Print Assumptions C117_residual_missing.

(** At the orders five and six numpy refuses every statement that the function
    executes, and there is one when the W operator of that order is given. *)
Theorem C117_residual_refused :
  forall M r text prog flag p (F : scalars) A N (env : string -> array F),
    generate_residual_equations_file M r = Ok text -> python (joined text) prog -> p <= M -> 5 <= p ->
    (forall k, 1 <= k <= p + 2 -> has_axes F A N k (env (w_name k))) ->
    exists ts, residual_runs prog flag p ts /\ (given flag p = true -> ts <> []) /\
      forall t, In t ts -> exists k w hd wd od h, t = add_contraction w hd wd od h (w_name k) /\ ~ einsum_accepts F [hd; wd] od [env h; env (w_name k)].
Proof. exact residual_file_refused. Qed.
Print Assumptions C117_residual_refused.

(** Arrays of the right shapes for the names, two states and two modes, with
    entries one; the first order of a linear Hamiltonian then adds
    h^1 + h W_1 + h_1 W_2 (entries of products of two states are 2,
    a mode summed over doubles): 1 + 2 + 4 = 7; the quadratic ones with all W are
    at order two 1/2 2 (h W_2) + 1/2 4 (h_1 W_3) + 1/4 8 (h_2 W_4) + 2 (h^1 W_1) + 4 (h^1_1 W_2). *)
Definition ones (s : string) : array rationals :=
  mkarray (2 :: 2 :: repeat 2 (String.length s - (if String.prefix "h" s then 4 else 2))) (fun _ => kone rationals).
Example C117_example :
  (exists text prog, generate_residual_equations_file 6 2 = Ok text /\ python (joined text) prog) /\
  (forall flag, residual_axes rationals 2 2 ones flag) /\ (forall k, 1 <= k <= 6 + 2 -> has_axes rationals 2 2 k (ones (w_name k))) /\
  residual_value rationals 2 2 ones (should_add (fun _ => true) 1 1) [0] 0 1 = of_nat rationals 7 /\
  residual_value rationals 2 2 ones (really_adds (fun _ => true) 2 2) [0; 1] 0 1 = of_nat rationals 11 /\
  kmul rationals (residual_weight rationals 2 2 0) (h_on_w rationals 2 2 ones 2 0 [0; 1] 0 1) = one_over rationals 2 /\
  (fun _ : string => true) "truncation.quadratic"%string = true.
Proof.
  split; [apply C82_example|]. split; [|split; [|split; [|split; [|split]]]].
  - intros flag. split.
    + intros m n L. destruct m as [|[|[|m]]]; destruct n as [|[|[|n]]]; try lia; reflexivity.
    + intros k L _. do 7 (destruct k as [|k]; [try lia; reflexivity|]). lia.
  - intros k L. do 9 (destruct k as [|k]; [try lia; reflexivity|]). lia.
  - vm_compute. reflexivity.
  - vm_compute. reflexivity.
  - vm_compute. reflexivity.
  - reflexivity.
Qed.
