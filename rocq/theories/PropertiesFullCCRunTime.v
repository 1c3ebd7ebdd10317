(** Property theorems C111: running the printed python of the full coupled
    cluster equations with smaller truncations. *)
From Coq Require Import List Arith Lia String Permutation.
From Verif Require Import PyBase ModelFullCC ModelFullCCPy SpecFullCC SpecPrefactor SpecFullCCPy SpecPython SpecEtText SpecFullCCText SpecFullCCPlaces SpecFullCCComplete
  SpecFullCCRunTime ProofsFullCCPy ProofsFullCCFile ProofsFullCCText ProofsFullCCRunTime.
Import ListNotations.

(** C111: under the conditions of a smaller coupled cluster truncation cc0 the
    functions add exactly the contractions requested at cc0, each once. *)
Theorem C111_smaller_cluster :
  forall sot so son soc H cc S P text prog,
    set_order sot -> set_order so -> set_order son -> set_order soc -> 1 <= cc <= 6 -> S <= 6 -> H <= 5 -> ~ loses H cc S P ->
    generate_full_cc_python sot so son soc H cc S P = Ok text -> python text prog ->
    forall cc0 m n, cc0 <= cc -> m + n <= cc -> m + n <= P ->
      Forall2 (adds_those prog H cc0 S H cc0 m n everything) groups (kinds m n).
Proof. exact cc_smaller_cluster. Qed.
Print Assumptions C111_smaller_cluster.

(** C111: under the conditions of smaller truncations H0 and cc0 the functions
    add exactly the contractions of amplitudes of rank up to cc0 with h^m_n where
    m and n are up to H0 (and every h that contracts with the projection alone). *)
Theorem C111_run_time :
  forall sot so son soc H cc S P text prog,
    set_order sot -> set_order so -> set_order son -> set_order soc -> 1 <= cc <= 6 -> S <= 6 -> H <= 5 -> ~ loses H cc S P ->
    generate_full_cc_python sot so son soc H cc S P = Ok text -> python text prog ->
    forall H0 cc0 m n, m + n <= cc -> m + n <= P ->
      Forall2 (adds_those prog H cc S H0 cc0 m n (each_side H0 cc0)) groups (kinds m n).
Proof. exact cc_run_time. Qed.
Print Assumptions C111_run_time.

(** So a smaller Hamiltonian cannot be had this way: under the conditions of H0
    the contraction of h^1_H0 of rank 1 + H0 with the amplitude of rank H0 is
    added all the same. *)
Theorem C111_smaller_hamiltonian_refuted :
  forall sot so son soc H cc S P text prog,
    set_order sot -> set_order so -> set_order son -> set_order soc -> 1 <= cc <= 6 -> S <= 6 -> H <= 5 -> ~ loses H cc S P ->
    generate_full_cc_python sot so son soc H cc S P = Ok text -> python text prog ->
    forall H0, 1 <= H0 < H -> H0 <= cc -> 1 <= S -> 1 <= P ->
    exists bares what p e,
      defines_cc_terms prog 0 1 false ("fully_connected", "connected")%string (branch_does (sum_adds einsum_text) bares what) /\
      In (p, e) (what (up_to H0) (up_to cc)) /\ realises 0 1 1 H0 0 1 [mkt H0 0 0 0] e.
Proof. exact cc_smaller_hamiltonian. Qed.
Print Assumptions C111_smaller_hamiltonian_refuted.

Definition in_order_given {A} (l : list A) : list A := l.
Example C111_example :
  ~ loses 2 2 2 1 /\
  (exists text prog, generate_full_cc_python in_order_given in_order_given in_order_given in_order_given 2 2 2 1 = Ok text /\ python text prog) /\
  requested 0 1 2 1 2 true true 1 1 [mkt 1 0 0 0] 0 1 /\ each_side 1 1 1 1 [mkt 1 0 0 0].
Proof.
  split; [unfold loses; lia|]. assert (Id : forall A, @set_order A in_order_given) by (intros A l; apply Permutation_refl). split.
  - destruct (file_generated in_order_given in_order_given in_order_given in_order_given (Id _) (Id _) (Id _) 2 2 2 1) as [body E]; [unfold accepted; lia|lia|].
    assert (E' : generate_full_cc_python in_order_given in_order_given in_order_given in_order_given 2 2 2 1 = Ok (full_cc_import_statements ++ body)%string)
      by (unfold generate_full_cc_python; now rewrite E).
    destruct (cc_file_program in_order_given in_order_given in_order_given in_order_given 2 2 2 1 _ (Id _) (Id _) (Id _) ltac:(lia) ltac:(lia) ltac:(lia) E') as (prog & R & _).
    eauto.
  - unfold requested, contraction, amplitude, each_side, total, up, down. cbn. repeat split; try lia; repeat constructor; cbn; lia.
Qed.
