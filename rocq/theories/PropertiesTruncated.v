(** Lowering a truncation leaves out exactly the terms beyond it. *)
From Coq Require Import List Arith Bool Permutation String.
From Verif Require Import PyBase ModelFullCC ModelZhz ModelTrunc ModelEt SpecFullCC SpecZhz SpecTruncated.
From Verif Require ProofsTruncated.
Import ListNotations.

(** C103: full coupled cluster.  For all truncations, all projections and all
    orders of iteration of the sets. *)
Theorem C103_full_cc_truncated :
  forall so so' omega H cc S ground H' cc' S' ground' rf, set_order so -> set_order so' ->
    1 <= cc <= cc' -> H <= H' -> S <= S' -> (ground' = true -> ground = true) ->
    exists l l', full_cc_terms so omega H cc S ground rf = Ok l /\ full_cc_terms so' omega H' cc' S' ground' rf = Ok l' /\
      Permutation l (filter (cc_within H cc S ground) l').
Proof. exact ProofsTruncated.cc_truncated. Qed.
Print Assumptions C103_full_cc_truncated.

(** The projections for which there are equations. *)
Theorem C103_projections_truncated :
  forall cc P cc' P', cc <= cc' -> P <= P' ->
    Permutation (generate_omega_operator cc P)
                (filter (fun o => Nat.leb (g_rank o) cc && Nat.leb (g_rank o) P) (generate_omega_operator cc' P')).
Proof. exact ProofsTruncated.projections_truncated. Qed.
Print Assumptions C103_projections_truncated.

(** z t, with the Z on the left, on the right or on both sides. *)
Theorem C103_z_t_truncated :
  forall lhs H cc ground H' cc' ground' k, H <= H' -> cc <= cc' -> (ground' = true -> ground = true) ->
    exists l l',
      filter_out_valid_z_terms lhs (pruned_hamiltonian H) (sides k (generate_z_operator cc ground) (generate_z_operator cc ground)) = Ok l /\
      filter_out_valid_z_terms lhs (pruned_hamiltonian H') (sides k (generate_z_operator cc' ground') (generate_z_operator cc' ground')) = Ok l' /\
      Permutation l (filter (zt_within H cc ground) l').
Proof. exact ProofsTruncated.zt_truncated. Qed.
Print Assumptions C103_z_t_truncated.

(** e^T with amplitudes of rank one: the terms with q amplitudes, taken from
    expansions of any two orders that have them. *)
Theorem C103_eT_truncated :
  forall s lhs e e' ser ser' q st st' H cc g H' cc' g',
    g_m lhs = 0 -> generate_eT_taylor_expansion 1 e = Ok ser -> nth_error ser q = Some st ->
    generate_eT_taylor_expansion 1 e' = Ok ser' -> nth_error ser' q = Some st' ->
    H <= H' -> cc <= cc' ->
    let zs cc g := filter (fun z => Nat.eqb (g_n z) 0) (generate_z_operator cc g) in
    exists l l',
      filter_out_valid_eTz_terms lhs st (generate_pruned_H_operator H) (zs cc g) s = Ok l /\
      filter_out_valid_eTz_terms lhs st' (generate_pruned_H_operator H') (zs cc' g') s = Ok l' /\
      Permutation l (filter (et_within H cc) l').
Proof. exact ProofsTruncated.et_truncated. Qed.
Print Assumptions C103_eT_truncated.

(** The equation of the projection b: with H = 3, rank 2 and two amplitudes
    there are more terms than with H = 2, rank 1 and one amplitude; leaving out
    those beyond gives as many, and some are left out for h^m_n alone. *)
Example C103_full_cc_example :
  let omega := mkgop "b" 1 0 1 in let same := fun l : list (list tamp) => l in
  match full_cc_terms same omega 2 1 1 true true, full_cc_terms same omega 3 2 2 false true with
  | Ok l, Ok l' => List.length l = 3 /\ List.length l' = 27 /\ List.length (filter (cc_within 2 1 1 true) l') = 3 /\
      existsb (fun t => negb (cc_within 2 2 2 false t) && cc_within 3 2 2 false t) l' = true
  | _, _ => False
  end.
Proof. vm_compute. repeat split. Qed.

Example C103_z_t_example :
  let lhs := mkgop "b" 1 0 1 in
  let terms H cc g := filter_out_valid_z_terms lhs (pruned_hamiltonian H) (sides both_sides (generate_z_operator cc g) (generate_z_operator cc g)) in
  match terms 1 1 true, terms 2 2 false with
  | Ok l, Ok l' => l = filter (zt_within 1 1 true) l' /\ 1 <= List.length l < List.length l'
  | _, _ => False
  end.
Proof. vm_compute. split; [reflexivity|]. split; repeat constructor. Qed.

Example C103_eT_example :
  let lhs := mkgop "b" 1 0 1 in
  let zs cc := filter (fun z => Nat.eqb (g_n z) 0) (generate_z_operator cc true) in
  match generate_eT_taylor_expansion 1 1, generate_eT_taylor_expansion 1 2 with
  | Ok ser, Ok ser' =>
    match nth_error ser 1, nth_error ser' 1 with
    | Some st, Some st' =>
      match filter_out_valid_eTz_terms lhs st (generate_pruned_H_operator 1) (zs 1) RHS,
            filter_out_valid_eTz_terms lhs st' (generate_pruned_H_operator 2) (zs 2) RHS with
      | Ok l, Ok l' => l = filter (et_within 1 1) l' /\ 1 <= List.length l < List.length l'
      | _, _ => False
      end
    | _, _ => False
    end
  | _, _ => False
  end.
Proof. vm_compute. split; [reflexivity|]. split; repeat constructor. Qed.
