(** Property theorems C22 (operators of the full coupled cluster equations)
    and C23 - C27: the terms of the full coupled cluster equations. *)
From Coq Require Import Sorted.
From Verif Require Import PyBase ModelFullCC SpecFullCC ProofsHelper ProofsFullCC.

(** C22: the generators enumerate exactly the operators within the limits. *)
Theorem C22_projection_operators :
  forall cc P,
    NoDup (generate_omega_operator cc P) /\
    (forall o, In o (generate_omega_operator cc P) <-> projection cc P o) /\
    StronglySorted (fun a b => g_rank a <= g_rank b) (generate_omega_operator cc P).
Proof. exact projections_exact. Qed.
Print Assumptions C22_projection_operators.

Theorem C22_hamiltonian_operators :
  forall H,
    NoDup (generate_full_cc_hamiltonian_operator H) /\
    forall h, In h (generate_full_cc_hamiltonian_operator H) <-> hamiltonian_term H h.
Proof. exact hamiltonian_terms_exact. Qed.
Print Assumptions C22_hamiltonian_operators.

Theorem C22_cluster_operators :
  forall cc ground,
    NoDup (generate_s_operator cc ground) /\
    forall s, In s (generate_s_operator cc ground) <-> cluster cc ground s.
Proof. exact clusters_exact. Qed.
Print Assumptions C22_cluster_operators.

(** The k-th Taylor term, as the term generator reads it, contains exactly the
    k-fold products of cluster operators. *)
Theorem C22_taylor_products :
  forall cc S ground, 1 <= cc ->
    exists series, mapM wrap_series (generate_s_taylor_expansion cc S ground) = Ok series /\
      List.length series = S + 1 /\
      nth_error series 0 = Some [[mkgop "1" 0 0 0]] /\
      forall k perms, 1 <= k -> nth_error series k = Some perms ->
        NoDup perms /\
        forall p, In p perms <-> List.length p = k /\ Forall (cluster cc ground) p.
Proof. exact taylor_products. Qed.
Print Assumptions C22_taylor_products.

Example C22_example :
  generate_omega_operator 2 1 = [mkgop "" 0 0 0; mkgop "b" 1 0 1; mkgop "d" 1 1 0] /\
  generate_s_operator 2 true = [mkgop "s^1" 1 1 0; mkgop "s^2" 2 2 0] /\
  List.length (generate_full_cc_hamiltonian_operator 2) = 6 /\
  match mapM wrap_series (generate_s_taylor_expansion 2 3 false) with
  | Ok [_; a; b; c] => List.length a = 5 /\ List.length b = 25 /\ List.length c = 125
  | _ => False
  end.
Proof. vm_compute. auto 10. Qed.

(** C23: every emitted term is a complete contraction that was asked for. *)
Theorem C23_terms_are_contractions :
  forall so omega H cc S ground rf, set_order so -> 1 <= cc ->
    exists l, full_cc_terms so omega H cc S ground rf = Ok l /\
      forall t, In t l -> exists hm hn us f fbar,
        requested (g_m omega) (g_n omega) H cc S ground rf hm hn us f fbar /\
        describes (g_m omega) (g_n omega) hm hn us f fbar t.
Proof. exact full_cc_sound. Qed.
Print Assumptions C23_terms_are_contractions.

(** C24: every contraction asked for is emitted, with its amplitudes in
    python's order. *)
Theorem C24_no_contraction_missed :
  forall so omega H cc S ground rf, set_order so -> 1 <= cc ->
    exists l, full_cc_terms so omega H cc S ground rf = Ok l /\
      forall hm hn us f fbar,
        requested (g_m omega) (g_n omega) H cc S ground rf hm hn us f fbar ->
        exists us' t, Permutation us us' /\ in_order us' /\
          describes (g_m omega) (g_n omega) hm hn us' f fbar t /\ In t l.
Proof. exact full_cc_complete. Qed.
Print Assumptions C24_no_contraction_missed.

(** C25: two positions of the list never describe the same contraction up to
    the order of the amplitudes. *)
Theorem C25_no_contraction_twice :
  forall so omega H cc S ground rf, set_order so -> 1 <= cc ->
    exists l, full_cc_terms so omega H cc S ground rf = Ok l /\
      NoDup l /\
      forall t t' hm hn us us' f fbar,
        In t l -> In t' l -> Permutation us us' ->
        Forall (amplitude cc ground) us ->
        describes (g_m omega) (g_n omega) hm hn us f fbar t ->
        describes (g_m omega) (g_n omega) hm hn us' f fbar t' ->
        t = t'.
Proof. exact full_cc_once. Qed.
Print Assumptions C25_no_contraction_twice.

(** The projection b with h and t up to rank 1 and at most two amplitudes:
    the bare h^z, h_0 t^z and h_i t^z t^i. *)
Example C23_example :
  let omega := mkgop "b" 1 0 1 in
  requested 0 1 1 1 2 true false 0 1 [mkt 1 0 0 0; mkt 0 0 1 0] 0 0 /\
  full_cc_terms (fun l => l) omega 1 1 2 true false =
    Ok [(mkco 1 0 1 0 1 [0] [0], mkch 1 1 0 1 0 [0] [0], [mkt 0 0 0 0]);
        (mkco 1 0 1 0 0 [0] [1], mkch 0 0 0 0 0 [0] [0], [mkt 0 0 1 0]);
        (mkco 1 0 1 0 0 [0; 0] [1; 0], mkch 1 0 1 0 0 [0; 0] [0; 1], [mkt 0 0 1 0; mkt 1 0 0 0])].
Proof.
  split; [|vm_compute; reflexivity].
  unfold requested, contraction, amplitude, total, up, down. cbn.
  repeat split; try lia; repeat constructor; cbn; lia.
Qed.

(** C26: the three groups. *)
Theorem C26_groups_partition :
  forall so omega H cc S ground rf, set_order so -> 1 <= cc ->
    exists l fully linked_ unlinked_,
      full_cc_terms so omega H cc S ground rf = Ok l /\
      seperate_s_terms_by_connection l = Ok (fully, linked_, unlinked_) /\
      Permutation l (fully ++ linked_ ++ unlinked_) /\
      sublist fully l /\ sublist linked_ l /\ sublist unlinked_ l /\
      forall t hm hn us f fbar, In t l ->
        Forall (amplitude cc ground) us ->
        contraction (g_m omega) (g_n omega) hm hn us f fbar ->
        describes (g_m omega) (g_n omega) hm hn us f fbar t ->
        (In t fully <-> fully_connected us) /\
        (In t linked_ <-> linked (g_m omega) (g_n omega) us) /\
        (In t unlinked_ <-> unlinked (g_m omega) (g_n omega) us).
Proof. exact separation_exact. Qed.
Print Assumptions C26_groups_partition.

Example C26_example :
  let omega := mkgop "bb" 2 0 2 in
  match full_cc_terms (fun l => l) omega 2 2 2 true false with
  | Ok l => match seperate_s_terms_by_connection l with
            | Ok (a, b, c) => (List.length a, List.length b, List.length c) = (3, 4, 3)
            | Err _ => False
            end
  | Err _ => False
  end.
Proof. vm_compute. reflexivity. Qed.

(** C27: removing the f terms keeps exactly the terms in which no creation
    operator of the projection meets the Hamiltonian, in the same order. *)
Theorem C27_f_terms_removed :
  forall so omega H cc S ground, set_order so -> 1 <= cc ->
    exists l, full_cc_terms so omega H cc S ground false = Ok l /\
      full_cc_terms so omega H cc S ground true
      = Ok (filter (fun t => Nat.eqb (co_m_h (fst (fst t))) 0) l).
Proof. exact f_removal_exact. Qed.
Print Assumptions C27_f_terms_removed.

Example C27_example :
  let omega := mkgop "d" 1 1 0 in
  match full_cc_terms (fun l => l) omega 2 1 2 false false, full_cc_terms (fun l => l) omega 2 1 2 false true with
  | Ok a, Ok b => (List.length a, List.length b) = (6, 3)
  | _, _ => False
  end.
Proof. vm_compute. reflexivity. Qed.
