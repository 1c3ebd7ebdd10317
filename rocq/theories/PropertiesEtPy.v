(** Property theorems C40 (printed calls), C41 - C45, C46 (e^T part) and C48:
    the python code of the e^T ansatz. *)
From Coq Require Import ZArith Lia.
From Verif Require Import PyBase ModelTrunc SpecTrunc ModelFullCC ModelFullCCPy ModelZhz ModelEt ModelEtPy
  SpecEt SpecEtPy ProofsFullCCFile ProofsEt ProofsEtGen ProofsEtCalls ProofsEtFile.
Local Open Scope nat_scope.
Local Open Scope list_scope.

(** The operators of the ansatz for a truncation; the amplitudes are t_1. *)
Definition ansatz (H CC : nat) (ground : bool) (ser : list series_term) : eT_operators :=
  mkops H CC (generate_pruned_H_operator H) (generate_z_operator CC ground) ser.
Definition all_on : nat -> bool := fun _ => true.

(** C40: the function without amplitudes adds exactly the complete
    contractions without amplitudes other than 1 * h^0_0 * z^P, and the other
    function exactly those with 1 up to e amplitudes: each under its own flags,
    with the right call and value, each once. *)
Theorem C40_code_adds :
  forall s Proj H CC e ground ser b1 b2 fh ft fz,
    g_m Proj = 0 -> g_n Proj <= CC -> 1 <= CC <= 8 ->
    generate_eT_taylor_expansion 1 e = Ok ser ->
    generate_eT_zhz_einsums s Proj (ansatz H CC ground ser) true = Ok (b1, b2) ->
    let P := g_n Proj in
    let on m n q k := is_on fh ft fz (Nat.max m n) (match q with 0 => 0 | S _ => 1 end) k = true in
    exactly_adds s (fun q m n k c => (q = 0 /\ of_ansatz s H CC P q m n k c /\ ~ bare_term P q m n k) /\ on m n q k)
      (run_ebody fh ft fz b1) /\
    exactly_adds s (fun q m n k c => (1 <= q <= e /\ of_ansatz s H CC P q m n k c) /\ on m n q k)
      (run_ebody fh ft fz b2).
Proof. exact ground_functions. Qed.
Print Assumptions C40_code_adds.

(** Two amplitudes (one paired with z, one with h^1_0), z^2 and the projection
    b: 1 / 1 and the call is there. *)
Example C40_code_example :
  let c := mkcontraction 1 0 [1; 0] 0 [0; 1] in
  of_ansatz RHS 2 2 1 2 1 0 2 c /\
  exists ser b1 b2, generate_eT_taylor_expansion 1 2 = Ok ser /\
    generate_eT_zhz_einsums RHS (mkgop "b" 1 0 1) (ansatz 2 2 true ser) true = Ok (b1, b2) /\
    In (""%string, "np.einsum('i, j, acj, ciz -> az', t_args[(0, 1)], t_args[(0, 1)], h_args[(1, 0)], z_args[(2, 0)])"%string)
       (map added_text (run_ebody all_on all_on all_on b2)) /\
    List.length (run_ebody all_on all_on all_on b2) = 10.
Proof.
  cbv zeta. split.
  - split; [split; [lia|split; [lia|discriminate]]|]. split; [lia|]. repeat split; cbn; try lia. intros [|[|i]] Hi; [reflexivity|reflexivity|lia].
  - do 3 eexists. split; [vm_compute; reflexivity|]. split; [vm_compute; reflexivity|]. vm_compute. auto 20.
Qed.

(** C41: the contribution h^0_0 z^P belongs to the ansatz but is never added to
    the right hand side, whatever the truncation and the projection. *)
Theorem C41_bare_term_missing :
  forall Proj H CC e ground ser b1 b2,
    g_m Proj = 0 -> g_n Proj <= CC -> 1 <= CC <= 8 ->
    generate_eT_taylor_expansion 1 e = Ok ser ->
    generate_eT_zhz_einsums RHS Proj (ansatz H CC ground ser) true = Ok (b1, b2) ->
    let P := g_n Proj in
    let bare := mkcontraction P 0 [] 0 [] in
    of_ansatz RHS H CC P 0 0 0 P bare /\
    forall p call, In (p, call) (run_ebody all_on all_on all_on b1 ++ run_ebody all_on all_on all_on b2) ->
      ~ realises_eT RHS 0 0 P bare call.
Proof.
  intros Proj H CC e g ser b1 b2 HP HC HCC ET E P bare.
  assert (C : complete P 0 0 0 P bare) by (repeat split; cbn; lia).
  split; [split; [split; [lia|split; [lia|discriminate]]|split; [exact HC|exact C]]|].
  intros p call I. exact (bare_not_added RHS Proj H CC e g ser b1 b2 all_on all_on all_on HP HC HCC ET E bare p call C I).
Qed.
Print Assumptions C41_bare_term_missing.

(** The claim C41 is false of the code. *)
Theorem C41_refuted :
  exists ser b1 b2, generate_eT_taylor_expansion 1 1 = Ok ser /\
    generate_eT_zhz_einsums RHS (mkgop "b" 1 0 1) (ansatz 1 1 true ser) true = Ok (b1, b2) /\
    of_ansatz RHS 1 1 1 0 0 0 1 (mkcontraction 1 0 [] 0 []) /\
    ~ exists p call, In (p, call) (run_ebody all_on all_on all_on b1 ++ run_ebody all_on all_on all_on b2) /\
        realises_eT RHS 0 0 1 (mkcontraction 1 0 [] 0 []) call.
Proof.
  do 3 eexists. split; [reflexivity|]. split; [vm_compute; reflexivity|]. split.
  - split; [split; [lia|split; [lia|discriminate]]|split; [lia|repeat split; cbn; lia]].
  - intros (p & call & I & R). revert R.
    refine (proj2 (C41_bare_term_missing (mkgop "b" 1 0 1) 1 1 1 true _ _ _ _ _ _ _ _) p call I); [reflexivity|cbn; lia|lia|reflexivity|vm_compute; reflexivity].
Qed.
Print Assumptions C41_refuted.

(** C42: on the left hand side (and on the other one) the only contraction that
    is left out is the bare one. *)
Theorem C42_only_derivative_left_out :
  forall s Proj H CC e ground ser b1 b2,
    g_m Proj = 0 -> g_n Proj <= CC -> 1 <= CC <= 8 ->
    generate_eT_taylor_expansion 1 e = Ok ser ->
    generate_eT_zhz_einsums s Proj (ansatz H CC ground ser) true = Ok (b1, b2) ->
    forall q m n k c, q <= e -> of_ansatz s H CC (g_n Proj) q m n k c ->
      ((exists p call, In (p, call) (run_ebody all_on all_on all_on b1 ++ run_ebody all_on all_on all_on b2) /\ realises_eT s m n k c call)
       <-> ~ bare_term (g_n Proj) q m n k).
Proof. exact others_added. Qed.
Print Assumptions C42_only_derivative_left_out.

(** dT^1_0 with an amplitude and z^1 is on the left hand side of order 1. *)
Example C42_example :
  of_ansatz LHS 1 2 1 1 1 0 1 (mkcontraction 1 0 [0] 0 [1]) /\
  exists ser b1 b2, generate_eT_taylor_expansion 1 1 = Ok ser /\
    generate_eT_zhz_einsums LHS (mkgop "b" 1 0 1) (ansatz 1 2 true ser) true = Ok (b1, b2) /\
    map added_text (run_ebody all_on all_on all_on b1) = [(""%string, "np.einsum('z, c -> cz', dT[(1, 0)], z_args[(0, 0)])"%string)] /\
    In (""%string, "np.einsum('i, i, cz -> cz', t_conj[(0, 1)], dT[(1, 0)], z_args[(1, 0)])"%string) (map added_text (run_ebody all_on all_on all_on b2)).
Proof.
  split.
  - split; [split; [lia|split; [lia|now intros _]]|]. split; [lia|]. repeat split; cbn; try lia. intros [|i] Hi; [reflexivity|lia].
  - do 3 eexists. split; [vm_compute; reflexivity|]. split; [vm_compute; reflexivity|]. vm_compute. auto 20.
Qed.

(** C43: the calls are well formed. *)
Theorem C43_calls_well_formed :
  forall s Proj H CC e ground ser b1 b2 fh ft fz,
    g_m Proj = 0 -> g_n Proj <= CC -> 1 <= CC <= 8 ->
    generate_eT_taylor_expansion 1 e = Ok ser ->
    generate_eT_zhz_einsums s Proj (ansatz H CC ground ser) true = Ok (b1, b2) ->
    forall p call, In (p, call) (run_ebody fh ft fz b1 ++ run_ebody fh ft fz b2) -> well_formed_call (g_n Proj) call.
Proof. exact functions_well_formed. Qed.
Print Assumptions C43_calls_well_formed.

(** C44: the value of the prefactor; the construction never fails. *)
Theorem C44_prefactor :
  forall s lhs e ser q st H Z l t,
    g_m lhs = 0 -> ground_z Z -> distinct_h H ->
    generate_eT_taylor_expansion 1 e = Ok ser -> nth_error ser q = Some st ->
    filter_out_valid_eTz_terms lhs st H Z s = Ok l -> In t l ->
    let h := tt_h t in let z := tt_z t in
    exists b1 b2 b3 w,
      choose (eh_m h) (eh_m_lhs h) b1 /\ choose (ez_m z) (ez_m_lhs z) b2 /\ choose (ez_m z - ez_m_lhs z) (ez_m_h z) b3 /\
      let num := b1 * b2 * b3 * fact (ez_m_h z) in
      let den := fact (eh_m h) * fact (eh_n h) * fact (ez_m z) in
      build_eT_zhz_python_prefactor (tt_ts t) h z = Ok (num, den) /\
      num * w = den /\ num <> 0 /\ fraction (num, den) = (1, w).
Proof. exact term_prefactor. Qed.
Print Assumptions C44_prefactor.

(** h^0_2 with z^3: 3 * 2! / (2! 3!) = 1 / 2, printed "(1 / 2) * ". *)
Example C44_example :
  let c := mkcontraction 1 2 [] 0 [] in
  let t := written 1 0 0 2 3 c in
  complete 1 0 0 2 3 c /\ ground_z (generate_z_operator 3 true) /\
  (exists ser st l, generate_eT_taylor_expansion 1 1 = Ok ser /\ nth_error ser 0 = Some st /\
     filter_out_valid_eTz_terms (mkgop "b" 1 0 1) st (generate_pruned_H_operator 2) (generate_z_operator 3 true) RHS = Ok l /\ In t l) /\
  build_eT_zhz_python_prefactor (tt_ts t) (tt_h t) (tt_z t) = Ok (6, 12) /\ fraction (6, 12) = (1, 2) /\
  render_eT_prefactor (1, 2) = "(1 / 2) * "%string.
Proof.
  cbv zeta. split; [repeat split; cbn; lia|]. split.
  - split; [discriminate|]. split; [repeat constructor|]. cbn. repeat constructor; cbn; intuition discriminate.
  - split; [|vm_compute; auto]. do 3 eexists. split; [vm_compute; reflexivity|]. split; [reflexivity|]. split; [vm_compute; reflexivity|]. vm_compute. auto 20.
Qed.

(** C45: for every list of terms with amplitudes up to the rank: the lines of
    the terms, each once, are placed under the ranks of their term, and running
    the body executes exactly those whose flags are set, in the order of the
    body. *)
Theorem C45_guards :
  forall s H CC l b,
    write_third_eTz_einsum_python s H CC l = Ok b ->
    (forall t, In t l -> list_max (map et_rank (tt_ts t)) <= CC) ->
    exists placed, NoDup placed /\ (forall x, In x placed <-> exists t, In t l /\ line_of s t x) /\
      forall fh ft fz, map added_text (run_ebody fh ft fz b)
        = map snd (filter (fun x => let '(i, j, k, _) := x in is_on fh ft fz i j k) placed).
Proof. exact guards_exact. Qed.
Print Assumptions C45_guards.

(** Two terms, one of them twice: h^1_0 z^0 and t_1 z^1; the first is under the
    flag of h, the second under those of t and z. *)
Example C45_example :
  let t1 := written 1 0 1 0 0 (mkcontraction 0 0 [] 1 []) in
  let t2 := written 0 1 0 0 1 (mkcontraction 0 0 [1] 0 [0]) in
  exists b, write_third_eTz_einsum_python RHS 2 2 [t1; t2; t1] = Ok b /\
    (forall t, In t [t1; t2; t1] -> list_max (map et_rank (tt_ts t)) <= 2) /\
    map added_text (run_ebody (fun _ => true) (fun _ => false) (fun _ => false) b)
      = [(""%string, "np.einsum('acz, c -> az', h_args[(1, 0)], z_args[(0, 0)])"%string)] /\
    map added_text (run_ebody (fun _ => false) (fun j => Nat.eqb j 1) (fun k => Nat.eqb k 1) b)
      = [(""%string, "np.einsum('i, ac, ci -> a', t_args[(0, 1)], h_args[(0, 0)], z_args[(1, 0)])"%string)] /\
    List.length (run_ebody all_on all_on all_on b) = 2.
Proof.
  cbv zeta. eexists. split; [vm_compute; reflexivity|]. split; [intros t [<-|[<-|[<-|[]]]]; cbn; lia|]. vm_compute. auto.
Qed.

(** The hypothesis is needed: a term with an amplitude of larger rank than the
    wave operator is lost. *)
Theorem C45_larger_amplitude_refuted :
  exists l b, write_third_eTz_einsum_python RHS 1 0 l = Ok b /\
    (exists t x, In t l /\ line_of RHS t x) /\ run_ebody all_on all_on all_on b = [].
Proof.
  exists [written 0 1 0 0 1 (mkcontraction 0 0 [1] 0 [0])]. eexists. split; [vm_compute; reflexivity|]. split; [|reflexivity].
  eexists. exists (0, 1, 1, (""%string, "np.einsum('i, ac, ci -> a', t_args[(0, 1)], h_args[(0, 0)], z_args[(1, 0)])"%string)).
  split; [left; reflexivity|]. do 3 eexists. split; [vm_compute; reflexivity|]. split; [vm_compute; reflexivity|].
  split; [left; reflexivity|]. vm_compute. auto 10.
Qed.
Print Assumptions C45_larger_amplitude_refuted.

(** C46, e^T ansatz: an accepted truncation is generated exactly when the
    Hamiltonian rank is at most 5 and, for rank 6 of z, no contraction reaches
    z^6.  Both sides, ground state or not. *)
Theorem C46_eT_python :
  forall s ground d H CC e P,
    is_dict d -> acceptable ETz d ->
    has_value d KH (Z.of_nat H) -> has_value d KCC (Z.of_nat CC) -> has_value d KeT (Z.of_nat e) -> has_value d KP (Z.of_nat P) ->
    has_value d KT 1%Z /\
    ((exists text, generate_eT_zhz_python_file_contents s ground H CC 1 e P = Ok text) <->
     H <= 5 /\ (CC <= 5 \/ match s with RHS => P + H + e | LHS => P + e end <= 5)).
Proof.
  intros s g d H CC e P Hd A V1 V2 V3 V4.
  assert (B2 := dict_bound ETz d KCC 6%Z CC Hd A ltac:(cbn; auto) V2).
  assert (B3 := dict_bound ETz d KeT 8%Z e Hd A ltac:(cbn; auto 10) V3).
  split.
  - destruct (proj2 A KT 1%Z) as (v & Hv & B); [cbn; auto|]. now replace v with 1%Z in Hv by lia.
  - apply eT_file_iff; lia.
Qed.
Print Assumptions C46_eT_python.

(** Accepted truncations that cannot be generated: rank 6 of the Hamiltonian,
    and rank 6 of z. *)
Theorem C46_eT_python_refuted :
  exists d d', is_dict d /\ acceptable ETz d /\ is_dict d' /\ acceptable ETz d' /\
    (has_value d KH 6%Z /\ has_value d KCC 1%Z /\ has_value d KeT 1%Z /\ has_value d KP 1%Z /\
     generate_eT_zhz_python_file_contents RHS true 6 1 1 1 1 = Err IndexErr) /\
    (has_value d' KH 2%Z /\ has_value d' KCC 6%Z /\ has_value d' KeT 3%Z /\ has_value d' KP 1%Z /\
     generate_eT_zhz_python_file_contents RHS true 2 6 1 3 1 = Err IndexErr).
Proof.
  set (dict h cc e p := [(DEnum KH, h); (DEnum KCC, cc); (DEnum KT, 1%Z); (DEnum KeT, e); (DEnum KP, p)] : dict).
  assert (A : forall h cc e p, is_dict (dict h cc e p)) by (intros; repeat constructor; cbn; intuition discriminate).
  assert (B : forall h cc e p, (1 <= h <= 6)%Z -> (1 <= cc <= 6)%Z -> (1 <= e <= 8)%Z -> (1 <= p <= 6)%Z -> acceptable ETz (dict h cc e p)).
  { intros. split.
    - intros k v [[= <- _]|[[= <- _]|[[= <- _]|[[= <- _]|[[= <- _]|[]]]]]]; eexists; reflexivity.
    - intros k top [[= <- <-]|[[= <- <-]|[[= <- <-]|[[= <- <-]|[[= <- <-]|[]]]]]]; eexists; (split; [unfold has_value, dict; cbn; auto 10|]); lia. }
  exists (dict 6 1 1 1)%Z, (dict 2 6 3 1)%Z. split; [apply A|]. split; [apply B; lia|]. split; [apply A|]. split; [apply B; lia|].
  split; unfold has_value, dict; cbn [In]; (repeat split; auto 10); vm_compute; reflexivity.
Qed.
Print Assumptions C46_eT_python_refuted.

(** C48: nothing is removed from the expansions of the generator, whose
    amplitudes are all of the ground state ... *)
Theorem C48_expansion_kept :
  forall r e ser, 1 <= r -> generate_eT_taylor_expansion r e = Ok ser ->
    Forall no_excited ser /\ remove_all_excited_state_t_terms ser = ser.
Proof.
  exact (fun r e ser Hr E => conj (series_no_excited r e ser Hr E) (series_kept r e ser Hr E)).
Qed.
Print Assumptions C48_expansion_kept.

Example C48_example :
  exists ser, generate_eT_taylor_expansion 2 3 = Ok ser /\ List.length ser = 4 /\ remove_all_excited_state_t_terms ser = ser.
Proof. eexists. split; [vm_compute; reflexivity|]. vm_compute. auto. Qed.

(** ... but it does not keep exactly the ground state amplitudes of an
    expansion with others: it deletes as many from the front of the list. *)
Theorem C48_refuted :
  exists g x, g_m g = 0 /\ g_m x = 1 /\
    remove_all_excited_state_t_terms [SLin [g; x]] = [SLin [x]] /\
    remove_all_excited_state_t_terms [SLin [x; g]; SProd [[g; g]]] = [SLin [g]].
Proof. exists (mkgop "s_1" 1 0 1), (mkgop "s^1" 1 1 0). vm_compute. auto. Qed.
Print Assumptions C48_refuted.
