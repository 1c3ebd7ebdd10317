(** Property theorems C22 (amplitudes of e^T), C39 and C40 (contractions of the
    e^T ansatz). *)
From Coq Require Import Lia.
From Verif Require Import PyBase ModelFullCC ModelZhz ModelEt SpecEt ProofsEt.
Local Open Scope nat_scope.

(** C22: the amplitudes. *)
Theorem C22_eT_operators :
  forall r, NoDup (generate_eT_operator r) /\ forall t, In t (generate_eT_operator r) <-> eT_operator r t.
Proof. exact eT_operators_exact. Qed.
Print Assumptions C22_eT_operators.

(** C22: the Taylor series of e^T; order 0 is refused. *)
Theorem C22_eT_expansion :
  forall r e,
    (e = 0 -> generate_eT_taylor_expansion r e = Err IndexErr) /\
    (1 <= e -> exists ser, generate_eT_taylor_expansion r e = Ok ser /\ List.length ser = e + 1 /\
       (exists one, nth_error ser 0 = Some (SOne one) /\ g_rank one = 0 /\ g_m one = 0 /\ g_n one = 0) /\
       (forall st, nth_error ser 1 = Some st -> exists l, st = SLin l /\ NoDup l /\ forall t, In t l <-> eT_operator r t) /\
       (forall k st, 2 <= k -> nth_error ser k = Some st -> exists l, st = SProd l /\ eT_power r k l)).
Proof. exact eT_expansion_exact. Qed.
Print Assumptions C22_eT_expansion.

Example C22_eT_example :
  eT_operator 2 (mkgop "s_2" 2 0 2) /\ ~ eT_operator 1 (mkgop "s_2" 2 0 2) /\
  exists ser l, generate_eT_taylor_expansion 2 3 = Ok ser /\ nth_error ser 3 = Some (SProd l) /\ List.length l = 8 /\
    In [mkgop "s_2" 2 0 2; mkgop "s_1" 1 0 1; mkgop "s_2" 2 0 2] l.
Proof.
  split; [repeat split; cbn; lia|]. split; [intros (_ & _ & _ & H); cbn in H; lia|].
  eexists. eexists. split; [vm_compute; reflexivity|]. split; [reflexivity|]. split; [reflexivity|]. cbn. auto 12.
Qed.

(** C40: with amplitudes t_1 (the only ones the ansatz accepts) the terms of
    every Taylor order are exactly the complete contractions, each once. *)
Theorem C40_terms_exact :
  forall s lhs e ser q st H Z,
    g_m lhs = 0 -> ground_z Z -> distinct_h H ->
    generate_eT_taylor_expansion 1 e = Ok ser -> nth_error ser q = Some st ->
    exists l, filter_out_valid_eTz_terms lhs st H Z s = Ok l /\ NoDup l /\
      forall t, In t l <-> contraction_of_lists s (g_n lhs) q H Z t.
Proof. exact et_terms_exact. Qed.
Print Assumptions C40_terms_exact.

(** ... the operators of the ansatz are of this kind: the Hamiltonians of the
    python and of the LaTeX generator, and the Z operators up to the rank. *)
Theorem C40_operators_of_ansatz :
  forall H cc g,
    distinct_h (generate_full_cc_hamiltonian_operator H) /\ distinct_h (generate_pruned_H_operator H) /\
    ground_z (filter (fun z => Nat.eqb (g_n z) 0) (generate_z_operator cc g)) /\
    (forall k, (exists z, In z (filter (fun z => Nat.eqb (g_n z) 0) (generate_z_operator cc g)) /\ g_m z = k) <-> k <= cc).
Proof.
  exact (fun H cc g => conj (hamiltonian_distinct H) (conj (pruned_distinct H) (z_ground cc g))).
Qed.
Print Assumptions C40_operators_of_ansatz.

(** Two amplitudes, one paired with z and one with h^1_0; z is paired with the
    projection as well. *)
Example C40_example :
  let c := mkcontraction 1 0 [1; 0] 0 [0; 1] in
  let Z := filter (fun z => Nat.eqb (g_n z) 0) (generate_z_operator 2 false) in
  complete 1 2 1 0 2 c /\
  exists ser st l, generate_eT_taylor_expansion 1 2 = Ok ser /\ nth_error ser 2 = Some st /\
    filter_out_valid_eTz_terms (mkgop "b" 1 0 1) st (generate_full_cc_hamiltonian_operator 2) Z RHS = Ok l /\
    In (written 1 2 1 0 2 c) l /\ List.length l = 6.
Proof.
  cbv zeta. split.
  - repeat split; cbn; try lia. intros [|[|i]] Hi; [reflexivity|reflexivity|lia].
  - eexists. eexists. eexists. split; [vm_compute; reflexivity|]. split; [reflexivity|].
    split; [vm_compute; reflexivity|]. split; [vm_compute; auto 12|reflexivity].
Qed.

(** C39: the counts of every emitted term agree and add up; z and the
    amplitudes agree up to the order of the amplitudes. *)
Theorem C39_terms_consistent :
  forall s lhs e ser st H Z l t,
    g_m lhs = 0 -> ground_z Z -> distinct_h H ->
    generate_eT_taylor_expansion 1 e = Ok ser -> In st ser ->
    filter_out_valid_eTz_terms lhs st H Z s = Ok l -> In t l -> consistent t.
Proof. exact et_terms_consistent. Qed.
Print Assumptions C39_terms_consistent.

(** Position by position they do not agree: the amplitudes are sorted, the
    entries of z are not. *)
Theorem C39_positions_refuted :
  exists ser st l t, generate_eT_taylor_expansion 1 2 = Ok ser /\ In st ser /\
    filter_out_valid_eTz_terms (mkgop "" 0 0 0) st (generate_full_cc_hamiltonian_operator 1)
      (generate_z_operator 1 true) RHS = Ok l /\ In t l /\ consistent t /\ ~ z_positions_agree t.
Proof. exact positions_refuted. Qed.
Print Assumptions C39_positions_refuted.

(** With amplitudes of rank 2, which the ansatz does not accept, terms of the
    left hand side contradict themselves ... *)
Theorem C39_two_amplitudes_refuted :
  exists ser st l t, generate_eT_taylor_expansion 2 2 = Ok ser /\ In st ser /\
    filter_out_valid_eTz_terms (mkgop "" 0 0 0) st (generate_pruned_H_operator 1)
      (generate_z_operator 3 true) LHS = Ok l /\ In t l /\ ~ consistent t.
Proof. exact two_amplitudes_refuted. Qed.
Print Assumptions C39_two_amplitudes_refuted.

(** ... and the right hand side cannot be generated. *)
Theorem C40_two_amplitudes_refuted :
  exists ser st, generate_eT_taylor_expansion 2 2 = Ok ser /\ In st ser /\
    filter_out_valid_eTz_terms (mkgop "" 0 0 0) st (generate_full_cc_hamiltonian_operator 1)
      (generate_z_operator 3 true) RHS = Err NotImplementedErr.
Proof. exact two_amplitudes_fail. Qed.
Print Assumptions C40_two_amplitudes_refuted.
