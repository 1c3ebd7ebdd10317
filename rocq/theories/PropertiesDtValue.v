(** Properties of the numbers that the generated functions of the time
    derivatives compute. *)
From Coq Require Import List Arith Bool Ascii String Lia Permutation QArith Qcanon.
From Verif Require Import PyBase SpecPartitions SpecW SpecDt SpecPython SpecEtText SpecSumText SpecWText SpecDtText SpecEinsum SpecWValue SpecDtValue
  ModelHelper ModelDt ProofsDtValue PropertiesWText PropertiesDtText PropertiesWValue.
Import ListNotations.
Local Open Scope nat_scope.
Local Open Scope list_scope.

(** C118: whatever arrays of the right shapes the amplitudes, their derivatives,
    the W operators and epsilon are, numpy accepts every product that the
    function of order k subtracts from the residual, each has the shape of the
    residual, and what is subtracted is W times epsilon over k! plus the time
    derivative of the terms of exp(T) with two and more factors that the ansatz
    keeps. *)
Theorem C118_dt_value :
  forall so M text prog flag k (F : scalars) A N (env : string -> array F), set_order so ->
    generate_dt_amplitude_equations_file so M = Ok text -> python text prog -> 1 <= k <= M -> dt_axes F A N env ->
    exists l, dt_computes prog flag k false "" (fun _ => []) l /\ Forall (fun dp => product_fits F A N env k (snd dp)) l /\
      forall a b is, b < A -> List.length is = k -> added F env l (a :: b :: is) = subtracted_value F A env (dt_kind flag) k is a b.
Proof. exact dt_file_value. Qed.
Print Assumptions C118_dt_value.

(** The same for the functions that use prepared expressions, with the lists of
    expressions that the module itself computes, for the orders of the
    truncation. *)
Theorem C118_dt_value_optimized :
  forall so M text prog flag (F : scalars) A N (env : string -> array F), set_order so ->
    generate_dt_amplitude_equations_file so M = Ok text -> python text prog ->
    level_truncation (trunc_of flag) -> negations flag -> dt_axes F A N env ->
    exists ep lp up, returns_epsilon_paths prog flag ep /\ returns_dt_paths prog flag false lp /\ returns_dt_paths prog flag true up /\
      forall k, 1 <= k <= M -> has_rank (trunc_of flag) k ->
        exists e pl pu l, nth_error ep (k - 1) = Some e /\ nth_error lp (k - 1) = Some pl /\ nth_error up (k - 1) = Some pu /\
          dt_computes prog flag k true e (fun un => if un then pu else pl) l /\ Forall (fun dp => product_fits F A N env k (snd dp)) l /\
          forall a b is, b < A -> List.length is = k -> added F env l (a :: b :: is) = subtracted_value F A env (dt_kind flag) k is a b.
Proof. exact dt_file_value_optimized. Qed.
Print Assumptions C118_dt_value_optimized.

(** At an order inside the truncation this is W times epsilon over k! plus the
    time derivative of what the module of the W operators computes (C114), less
    the derivative of the amplitude of rank k over k!.  So residual minus what is
    subtracted is the equation for the derivative of the amplitude.  (The
    hypothesis on the ansatz holds when exactly one of the ansatz flags is set.) *)
Theorem C118_dt_is_derivative_of_w :
  forall (F : scalars) A (env : string -> array F) flag k is a b,
    1 <= k -> List.length is = k -> b < A -> (forall r, 1 <= r <= k -> has_rank (trunc_of flag) r) ->
    dt_kind flag = (if flag "ansatz.VE_MIXED"%string then Kind_mixed else if flag "ansatz.VECC"%string then Kind_CC else Kind_CI) ->
    subtracted_value F A env (dt_kind flag) k is a b =
    kadd F (kmul F (one_over F (fact k)) (mmul F A (at_modes F (env (w_name k)) is) (at_modes F (env "epsilon"%string) []) a b))
      (ksub F (snd (w_value (in_time F) A (env_in_time F env) flag k is a b : with_derivative F))
              (kmul F (one_over F (fact k)) (entry (env (dt_amp_name k)) (a :: b :: is)))).
Proof. exact w_derivative. Qed.
Print Assumptions C118_dt_is_derivative_of_w.

(** Two states and two modes, entries of amplitudes one, of derivatives three: at
    order two the product rule gives 1/2 (dt t + t dt) = (6 + 6) / 2, and W times
    epsilon over 2! is 1. *)
Definition moving (s : string) : array rationals :=
  let drop := if String.eqb s "epsilon" then 7 else if String.prefix "d" s then 3 else 2 in
  mkarray (F := rationals) (2 :: 2 :: repeat 2 (String.length s - drop)) (fun _ => if String.prefix "d" s then of_nat rationals 3 else kone rationals).
Example C118_example :
  (exists text prog, generate_dt_amplitude_equations_file as_given 4 = Ok text /\ python text prog) /\
  dt_axes rationals 2 2 moving /\ level_truncation (trunc_of ccsd_flags) /\ negations ccsd_flags /\
  (forall r, 1 <= r <= 2 -> has_rank (trunc_of ccsd_flags) r) /\
  dt_kind ccsd_flags = (if ccsd_flags "ansatz.VE_MIXED"%string then Kind_mixed else if ccsd_flags "ansatz.VECC"%string then Kind_CC else Kind_CI) /\
  dt_kind ccsd_flags = Kind_CC /\
  subtracted_value rationals 2 moving Kind_CC 2 [0; 1] 0 1 = of_nat rationals 7 /\
  subtracted_value rationals 2 moving Kind_CI 2 [0; 1] 0 1 = of_nat rationals 1.
Proof.
  split; [exact (proj1 C77_example)|]. split; [|split; [apply C78_example|split; [apply C78_example|split; [|split; [|split; [|split]]]]]].
  - split; [|reflexivity]. intros r L. do 7 (destruct r as [|r]; [try lia; repeat split|]). lia.
  - intros r L. do 3 (destruct r as [|r]; [try lia; reflexivity|]). lia.
  - reflexivity.
  - reflexivity.
  - vm_compute. reflexivity.
  - vm_compute. reflexivity.
Qed.
