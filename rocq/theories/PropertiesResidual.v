(** Property theorems C12 - C15: the residual equations. *)
From Verif Require Import PyBase PyStr ModelHelper ModelW ModelDt ModelResidual.
From Verif Require Import SpecPartitions SpecW SpecDt SpecResidual ProofsResidual.

(** C12: the residual terms of order p are exactly the h^m_n with m <= p, each
    once, with W carrying p - m free and n contracted indices. *)
Theorem C12_residual_terms_exact :
  forall rank p, rank <= 3 \/ (rank <= 9 /\ p <= 3) ->
    exists ss ts, generate_residual_string_list (residual_hamiltonian rank) p = Ok (ss, ts) /\
      NoDup (map shape_of ts) /\
      forall m n w, In (m, n, w) (map shape_of ts) <->
        (m + n <= rank /\ m <= p /\ w = (p - m, n, p - m + n)).
Proof. exact residual_terms_exact. Qed.
Print Assumptions C12_residual_terms_exact.

(** Outside that domain: from rank four on, order four and above raises. *)
Theorem C12_rank4_order4_raises :
  forall rank p, 4 <= rank -> 4 <= p ->
    exists e, generate_residual_string_list (residual_hamiltonian rank) p = Err e.
Proof. exact residual_rank4_fails. Qed.
Print Assumptions C12_rank4_order4_raises.

(** At rank ten the digit 0 of the label k_10 makes the code take h_10 for
    h_0: the term has no contracted index on h although W has ten. *)
Theorem C12_rank10_refuted :
  In (residual_h_operator 0 10) (residual_hamiltonian 10) /\
  exists s t, residual_step 0 (residual_h_operator 0 10) = Ok (Some (s, t)) /\ rt_h_k t = 0.
Proof. exact residual_rank10_wrong. Qed.
Print Assumptions C12_rank10_refuted.

Example C12_example :
  match generate_residual_string_list (residual_hamiltonian 2) 3 with
  | Ok (_, ts) => map shape_of ts
      = [(0, 0, (3, 0, 3)); (0, 1, (3, 1, 4)); (0, 2, (3, 2, 5));
         (1, 0, (2, 0, 2)); (1, 1, (2, 1, 3)); (2, 0, (1, 0, 1))]
  | Err _ => False
  end.
Proof. vm_compute. reflexivity. Qed.

(** C13: the printed prefactor is 1 / ((p-m)! n! m!), for every order, except
    for h^2 from order five on, where it is not. *)
Theorem C13_residual_prefactor_exact :
  forall rank p, rank <= 2 ->
    exists ss ts, generate_residual_string_list (residual_hamiltonian rank) p = Ok (ss, ts) /\
      forall t, In t ts ->
        (residual_coefficient p (rt_h_i t) (rt_h_k t)
           (fst (p_value (rt_pref t))) (snd (p_value (rt_pref t)))
         <-> ~ (rt_h_i t = 2 /\ 5 <= p)).
Proof. exact residual_prefactors. Qed.
Print Assumptions C13_residual_prefactor_exact.

Example C13_example :
  match generate_residual_string_list (residual_hamiltonian 2) 4 with
  | Ok (ss, ts) => ss = ["(1/4!) * h_0 * w^{i_1,i_2,i_3,i_4}";
                         "(5/5!) * h_{k_1} * w^{i_1,i_2,i_3,i_4,k_1}";
                         "(15/6!) * h_{k_1,k_2} * w^{i_1,i_2,i_3,i_4,k_1,k_2}";
                         "(1/3!) * h^{i_1} * w^{i_2,i_3,i_4}";
                         "(4/4!) * h^{i_1}_{k_1} * w^{i_2,i_3,i_4,k_1}";
                         "(1/(2*2!)) * h^{i_1,i_2} * w^{i_3,i_4}"]%string
                   /\ map (fun t => p_value (rt_pref t)) ts
                      = [(1, 24); (5, 120); (15, 720); (1, 6); (4, 24); (1, 4)]
  | Err _ => False
  end.
Proof. vm_compute. split; reflexivity. Qed.

(** C14: run with any flags and any set of available W operators, the function
    of order p adds each active term exactly once and nothing else - at every
    order the generator accepts except two and three. *)
Theorem C14_each_term_once_partial :
  forall r p trunc w_args,
    r <= 2 -> p <= 6 -> p + 2 <= List.length w_args -> has_rank trunc (Nat.max 1 p) ->
    r <= 1 \/ (p <> 2 /\ p <> 3) ->
    exists adds, run_residual r p trunc w_args = Ok adds /\
      Permutation (map radd_key adds)
        (map (residual_key p)
           (filter (fun mn => term_active (trunc "quadratic"%string)
                                (fun k => nth (k - 1) w_args false) p (fst mn) (snd mn))
                   (residual_pairs r p))).
Proof. exact residual_each_term_once. Qed.
Print Assumptions C14_each_term_once_partial.

(** C14 at orders two and three: the h^2 term is added only when the W
    operator of order p + 2 is absent (it sits in the wrong else branch). *)
Theorem C14_h2_refuted :
  forall p trunc w_args,
    p = 2 \/ p = 3 -> p + 2 <= List.length w_args -> has_rank trunc (Nat.max 1 p) ->
    exists adds, run_residual 2 p trunc w_args = Ok adds /\
      (In (residual_key p (2, 0)) (map radd_key adds) <->
       trunc "quadratic"%string = true /\ nth (p + 1) w_args false = false).
Proof. exact residual_h2_lost. Qed.
Print Assumptions C14_h2_refuted.

(** C84, for all orders the generator accepts: the terms added are the
    active ones, except that at orders two and three the h^2 term waits for the
    W operator of order p + 2 to be missing. *)
Theorem C84_residual_terms_exactly :
  forall r p trunc w_args,
    r <= 2 -> p <= 6 -> p + 2 <= List.length w_args -> has_rank trunc (Nat.max 1 p) ->
    exists adds, run_residual r p trunc w_args = Ok adds /\
      Permutation (map radd_key adds)
        (map (residual_key p)
           (filter (fun mn => if Nat.eqb (fst mn) 2 && (Nat.eqb p 2 || Nat.eqb p 3)
                              then trunc "quadratic"%string && negb (nth (p + 1) w_args false)
                              else term_active (trunc "quadratic"%string) (fun k => nth (k - 1) w_args false) p (fst mn) (snd mn))
                   (residual_pairs r p))).
Proof. exact residual_sum_exact. Qed.
Print Assumptions C84_residual_terms_exactly.

Definition every_flag (s : string) : bool := true.

Example C84_example :
  has_rank every_flag 2 /\
  (forall w4 : bool, match run_residual 2 2 every_flag [true; true; true; w4] with
  | Ok adds => List.length adds = 5%nat
  | Err _ => False
  end).
Proof. split; [vm_compute; reflexivity|intros []; vm_compute; reflexivity]. Qed.

(** Orders above six and Hamiltonians above rank two are rejected. *)
Theorem C14_order7_raises :
  forall terms p, 7 <= p -> exists e, write_residual_function terms p = Err e.
Proof. exact residual_order7_fails. Qed.
Print Assumptions C14_order7_raises.

Theorem C14_rank3_raises :
  forall rank max_order, 3 <= rank ->
    exists e, generate_residual_equations_file max_order rank = Err e.
Proof. exact residual_file_rank3_fails. Qed.
Print Assumptions C14_rank3_raises.

Definition all_flags (s : string) : bool := true.

Example C14_example :
  has_rank all_flags 4 /\
  match run_residual 2 4 all_flags [true; true; true; true; false; true] with
  | Ok adds => map radd_key adds
      = [("h_ab", Some "w_ijkl"); ("h_abIj", Some "w_ijkl"); ("h_abIJ", Some "w_ijklmn");
         ("h_abij", Some "w_ij"); ("h_abi", Some "w_ijk")]%string
  | Err _ => False
  end.
Proof. split; vm_compute; reflexivity. Qed.

(** C15: up to order four each einsum call contracts h with W over exactly the
    n shared labels and leaves the p free labels, all different. *)
Theorem C15_residual_labels_partial :
  forall r p trunc w_args adds,
    r <= 2 -> p <= 4 -> p + 2 <= List.length w_args -> has_rank trunc (Nat.max 1 p) ->
    run_residual r p trunc w_args = Ok adds ->
    forall a, In a adds -> exists m n, m + n <= r /\ m <= p /\ radd_key a = residual_key p (m, n) /\
      match a with
      | RPlain _ _ => p = m /\ n = 0
      | REinsum _ hd wd od _ _ => contraction_labels p m n (chars hd) (chars wd) (chars od)
      end.
Proof. exact residual_labels_ok. Qed.
Print Assumptions C15_residual_labels_partial.

(** C15 at orders five and six: the letters run out, every call has too few
    labels for W and for the output. *)
Theorem C15_order5_refuted :
  forall r p trunc w_args adds,
    r <= 2 -> 5 <= p <= 6 -> p + 2 <= List.length w_args -> has_rank trunc (Nat.max 1 p) ->
    run_residual r p trunc w_args = Ok adds ->
    forall a, In a adds -> exists m n, m + n <= r /\ m <= p /\ radd_key a = residual_key p (m, n) /\
      match a with
      | RPlain _ _ => False
      | REinsum _ hd wd od _ _ => String.length wd < 2 + (p - m + n) /\ String.length od < 2 + p
      end.
Proof. exact residual_labels_short. Qed.
Print Assumptions C15_order5_refuted.

(** C85: the labels are those of the contraction precisely up to order
    four. *)
Theorem C85_residual_labels_exactly :
  forall r p trunc w_args adds,
    r <= 2 -> p <= 6 -> p + 2 <= List.length w_args -> has_rank trunc (Nat.max 1 p) ->
    run_residual r p trunc w_args = Ok adds ->
    forall a, In a adds -> exists m n, m + n <= r /\ m <= p /\ radd_key a = residual_key p (m, n) /\
      match a with
      | RPlain _ _ => p = m /\ n = 0
      | REinsum _ hd wd od _ _ => contraction_labels p m n (chars hd) (chars wd) (chars od) <-> p <= 4
      end.
Proof. exact residual_labels_exact. Qed.
Print Assumptions C85_residual_labels_exactly.

Example C15_example :
  match run_residual 2 3 all_flags [true; true; true; true; true] with
  | Ok adds => In (REinsum (PFrac 10 120) "acmn" "cbmnijk" "abijk" "h_abIJ" "w_ijklm")%string adds
  | Err _ => False
  end.
Proof. vm_compute. tauto. Qed.
