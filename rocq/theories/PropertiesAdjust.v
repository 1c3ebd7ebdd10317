(** C129: [compute_prefactor_adjustment]. *)
From Coq Require Import List Arith Lia Factorial.
From Verif Require Import PyBase ModelZhz ModelEt ModelEtPy ModelAdjust SpecAdjust ProofsAdjust.
Import ListNotations.

(** C129: the factor is one over the orders of the indices of the same kind, where
    indices on amplitudes are not counted. *)
Theorem C129_adjustment :
  forall h z, indices_placed h z -> ez_n z <= 1 ->
    exists a b, compute_prefactor_adjustment h z = Ok (a, b) /\ a * placed_orders h z = b.
Proof. exact adjustment_value. Qed.
Print Assumptions C129_adjustment.

(** C129: against the prefactor of the code in use: for linear amplitudes it is that
    prefactor times the orders of the indices on amplitudes. *)
Theorem C129_against_code :
  forall ts h z, indices_placed h z -> ez_n z <= 1 -> linear_amplitudes ts ->
    exists a b num den, compute_prefactor_adjustment h z = Ok (a, b) /\ build_eT_zhz_python_prefactor ts h z = Ok (num, den) /\
      0 < b /\ 0 < den /\ a * den = num * b * amplitude_orders h z.
Proof. exact against_code. Qed.
Print Assumptions C129_against_code.

(** h^3 with one index on the projection and two on amplitudes, z^3 with one index
    of each kind: 1/(1! 1!), and the prefactor of the code is 1/2. *)
Definition some_h : eth := mkeh 4 3 1 1 0 [1; 1; 0] [0; 0; 0] 0 1.
Definition some_z : etz := mkez 3 3 0 1 0 [0; 0; 1] [0; 0; 0] 1 0 0 0.
Example C129_example :
  indices_placed some_h some_z /\ ez_n some_z <= 1 /\ linear_amplitudes (repeat (mket 1 0 1 0 0 0 0 0 0 0 0) 3) /\
  compute_prefactor_adjustment some_h some_z = Ok (36, 36) /\
  (do nd <- build_eT_zhz_python_prefactor (repeat (mket 1 0 1 0 0 0 0 0 0 0 0) 3) some_h some_z; Ok (fraction nd)) = Ok (1, 2).
Proof.
  split; [vm_compute; repeat split; reflexivity|]. split; [vm_compute; lia|]. split; [repeat constructor; vm_compute; lia|].
  split; vm_compute; reflexivity.
Qed.

(** C129: the lower indices of z are not treated as the upper ones: "the factor is
    one over the orders of indices of the same kind" is false from two lower
    indices on. *)
Theorem C129_lower_indices_refuted :
  exists h z a b, indices_placed h z /\ ez_n z = 2 /\ compute_prefactor_adjustment h z = Ok (a, b) /\
    a * (placed_orders h z * fact (ez_n_lhs z)) <> b.
Proof.
  exists (mkeh 1 1 0 0 0 [0] [0] 1 0), (mkez 2 0 2 0 0 [0] [1] 0 1 0 0), 1, 2.
  split; [vm_compute; repeat split; reflexivity|]. split; [reflexivity|]. split; [vm_compute; reflexivity|]. vm_compute. discriminate.
Qed.
Print Assumptions C129_lower_indices_refuted.
