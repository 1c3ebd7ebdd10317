(** Properties of the values that the generated functions of the W operators
    compute. *)
From Coq Require Import List Arith Lia String QArith Qcanon Field_theory.
From Verif Require Import PyBase SpecPartitions SpecW SpecPython SpecEtText SpecSumText SpecWText SpecEinsum SpecWValue ModelHelper ModelW ProofsW ProofsWText ProofsWValue PropertiesWText.
Import ListNotations.
Local Open Scope nat_scope.
Local Open Scope list_scope.

(** C114: numpy accepts every product that the function of W of order k adds,
    and the sum it makes from the amplitudes is the part with k modes of exp(T)
    (of exp(T) to first order in the amplitudes of rank two and more, of T, as
    the ansatz says). *)
Theorem C114_w_value :
  forall so M text prog flag k (F : scalars) A N (env : string -> array F), set_order so ->
    generate_w_operator_equations_file so M = Ok text -> python text prog ->
    level_truncation (trunc_of flag) -> 1 <= k <= M -> amplitude_axes F A N env ->
    exists l, w_adds prog flag k false (fun _ => []) l /\
      Forall (fun dp => product_accepted F env (snd dp)) l /\
      forall a b modes, b < A -> List.length modes = k ->
        added F env l (a :: b :: modes) = w_value F A env flag k modes a b.
Proof. exact w_file_value. Qed.
Print Assumptions C114_w_value.

(** The same for the functions that use prepared expressions, with the lists of
    expressions that the module itself computes. *)
Theorem C114_w_value_optimized :
  forall so M text prog flag (F : scalars) A N (env : string -> array F), set_order so ->
    generate_w_operator_equations_file so M = Ok text -> python text prog ->
    level_truncation (trunc_of flag) -> negations flag -> amplitude_axes F A N env ->
    exists vx vc, returns_paths prog flag "vemx" vx /\ returns_paths prog flag "vecc" vc /\
      forall k, 1 <= k <= M -> exists px pc l, nth_error vx (k - 1) = Some px /\ nth_error vc (k - 1) = Some pc /\
        w_adds prog flag k true (choose px pc) l /\
        Forall (fun dp => product_accepted F env (snd dp)) l /\
        forall a b modes, b < A -> List.length modes = k ->
          added F env l (a :: b :: modes) = w_value F A env flag k modes a b.
Proof. exact w_file_value_optimized. Qed.
Print Assumptions C114_w_value_optimized.

(** The rational numbers. *)
Lemma qc_over n : Qcmult (fold_right (fun _ r => Qcplus 1%Qc r) 0%Qc (seq 0 (S n))) (Qcinv (Q2Qc (inject_Z (Z.of_nat (S n))))) = 1%Qc.
Proof.
  assert (E : forall s m, fold_right (fun _ r => Qcplus 1%Qc r) 0%Qc (seq s m) = Q2Qc (inject_Z (Z.of_nat m))).
  { intros s m. revert s. induction m as [|m IH]; intros s; [reflexivity|]. cbn [seq fold_right]. rewrite IH. apply Qc_is_canon. cbn [this Q2Qc Qcplus].
    rewrite !Qred_correct. unfold Qeq, Qplus, inject_Z. cbn [Qnum Qden]. lia. }
  rewrite E. apply Qcmult_inv_r. intros H. apply (f_equal (fun q => Qnum (this q))) in H. revert H. cbn [this Q2Qc]. 
  rewrite (Qred_identity (inject_Z (Z.of_nat (S n)))) by (cbn [inject_Z Qnum Qden]; apply Z.gcd_1_r). cbn. discriminate.
Qed.
Definition rationals : scalars :=
  mkscalars Qc 0%Qc 1%Qc Qcplus Qcmult Qcminus Qcopp (fun n => Qcinv (Q2Qc (inject_Z (Z.of_nat n)))) Qcrt qc_over.

(** Two states, two modes, and amplitudes that do not commute. *)
Definition amplitudes (name : string) : array rationals :=
  @mkarray rationals (2 :: 2 :: repeat 2 (String.length name - 2))
    (fun idx => Q2Qc (inject_Z (match idx with
       | [0; 1; 0] => 3 | [1; 0; 1] => 5 | [1; 1; 1] => 2 | [0; 0; 0; 1] => 7 | _ => 0 end))).

(** The hypotheses hold, and W of order two at (0, 0) and modes (0, 1) is
    1/2 t_i t_j + 1/2 t_ij = (3 * 5 + 7) / 2; in the other order of the modes,
    and without the products, it is something else. *)
Example C114_example :
  (exists text prog, generate_w_operator_equations_file as_given 4 = Ok text /\ python text prog) /\
  level_truncation (trunc_of ccsd_flags) /\ negations ccsd_flags /\ amplitude_axes rationals 2 2 amplitudes /\
  w_value rationals 2 amplitudes ccsd_flags 2 [0; 1] 0 0 = Q2Qc 11 /\
  w_value rationals 2 amplitudes ccsd_flags 2 [1; 0] 0 0 = Q2Qc 0 /\
  w_value rationals 2 amplitudes (fun s => (ccsd_flags s && negb (String.eqb s "ansatz.VECC"))%bool) 2 [0; 1] 0 0 = Q2Qc (7 # 2).
Proof.
  split; [exact (proj1 C73_example)|]. split; [apply ccsd_level|]. split; [intros r; reflexivity|]. split.
  - intros r H. do 7 (destruct r as [|r]; [try lia; reflexivity|]). lia.
  - repeat split; apply Qc_is_canon; vm_compute; reflexivity.
Qed.
