(** C136: left hand sides for amplitudes of one electronic state. *)
From Coq Require Import List Arith String Ascii.
From Verif Require Import PyBase ModelFullCC ModelFullCCPy ModelFullCCLatex ModelZhzLeft SpecFullCCLatex SpecZhzLeft ProofsZhzLeft.
Import ListNotations.
Local Open Scope string_scope.

(** C136: the left hand side is the sum of the derivatives of all products of
    amplitudes that match the projection: each product once, each of its factors in
    turn, every amplitude with the index of the state after its lower indices. *)
Theorem C136_left_hand_side :
  forall sop omega, set_order sop -> g_m omega + g_n omega <= 10 ->
    state_lhs_text (g_m omega) (g_n omega) (generate_t_symmetric_left_hand_side sop omega).
Proof. exact state_left. Qed.
Print Assumptions C136_left_hand_side.

Example C136_example :
  generate_t_symmetric_left_hand_side (fun l => l) (mkgop "db" 2 1 1)
  = "i\left(\dv{\bt^{i}_{j,\gamma}}{\tau} + \dv{\bt^{i}_{\gamma}}{\tau}\bt^{}_{j,\gamma} + \bt^{i}_{\gamma}\dv{\bt^{}_{j,\gamma}}{\tau}\right)" /\
  generate_t_symmetric_left_hand_side (fun l => l) (mkgop "" 0 0 0) = "i\left(\dv{\bs_{0,\gamma}}{\tau}\right)".
Proof. split; vm_compute; reflexivity. Qed.
