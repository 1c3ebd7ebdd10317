(** C10, C11 and the dt parts of C06/C07.  Statements only. *)
From Verif Require Import PyBase ModelHelper SpecPartitions SpecW SpecDt ModelW ModelDt ProofsDt PropertiesW.

(** C10: the linked function of order n returns exactly the Leibniz expansion
    of every linked disconnected product of W_n: each product, each position
    of the derivative, once, with the weight of the product in W_n; each
    default call is the ordered matrix product (dt part of C06). *)
Theorem C10_linked_leibniz :
  forall so, set_order so -> forall order opt, 2 <= order <= 6 ->
    exists adds, (do f <- write_linked_disconnected so order opt; run_dt_fun f) = Ok adds /\
      NoDup (map (fun a => operands (ad_call a)) adds) /\
      (forall ops, In ops (map (fun a => operands (ad_call a)) adds) <->
         exists c i, composition_of order c /\ linked_shape c /\ i < List.length c /\ ops = leibniz_term c i) /\
      (forall a, In a adds ->
         exists c i, composition_of order c /\ i < List.length c /\ operands (ad_call a) = leibniz_term c i /\
                     ad_den a = Some (exp_denominator c) /\
                     (opt = false -> exists ins out, ad_call a = Einsum ins out (leibniz_term c i) /\
                                                     matrix_chain c ins out)).
Proof. exact linked_leibniz. Qed.
Print Assumptions C10_linked_leibniz.

Theorem C10_unlinked_leibniz :
  forall so, set_order so -> forall order opt, 4 <= order <= 6 ->
    exists adds, (do f <- write_un_linked_disconnected so order opt; run_dt_fun f) = Ok adds /\
      NoDup (map (fun a => operands (ad_call a)) adds) /\
      (forall ops, In ops (map (fun a => operands (ad_call a)) adds) <->
         exists c i, composition_of order c /\ unlinked_shape c /\ i < List.length c /\ ops = leibniz_term c i) /\
      (forall a, In a adds ->
         exists c i, composition_of order c /\ i < List.length c /\ operands (ad_call a) = leibniz_term c i /\
                     ad_den a = Some (exp_denominator c) /\
                     (opt = false -> exists ins out, ad_call a = Einsum ins out (leibniz_term c i) /\
                                                     matrix_chain c ins out)).
Proof. exact unlinked_leibniz. Qed.
Print Assumptions C10_unlinked_leibniz.

(** C10, the whole amplitude function: residual of the same order, minus
    1/n! W_n epsilon, minus exactly the Leibniz expansion of all disconnected
    products the ansatz contains. *)
Theorem C10_dt_amplitude :
  forall so, set_order so -> forall order opt an, 1 <= order <= 6 ->
    exists eps rest,
      run_dt_amplitude so order opt an = Ok (mkDtValue order (eps :: rest)) /\
      ad_den eps = Some (fact_spec order) /\
      operands (ad_call eps) = [w_name order; "epsilon"%string] /\
      (opt = false -> matrix_chain [order; 0]
          (match ad_call eps with Einsum ins _ _ => ins | NextOpt _ => [] end)
          (match ad_call eps with Einsum _ out _ => out | NextOpt _ => ""%string end)) /\
      NoDup (map (fun a => operands (ad_call a)) rest) /\
      (forall ops, In ops (map (fun a => operands (ad_call a)) rest) <->
         exists c i, composition_of order c /\ disconnected_in (kind_of an) c /\ i < List.length c /\ ops = leibniz_term c i) /\
      (forall a, In a rest ->
         exists c i, composition_of order c /\ i < List.length c /\ operands (ad_call a) = leibniz_term c i /\
                     ad_den a = Some (exp_denominator c) /\
                     (opt = false -> exists ins out, ad_call a = Einsum ins out (leibniz_term c i) /\
                                                     matrix_chain c ins out)).
Proof. exact dt_amplitude_exact. Qed.
Print Assumptions C10_dt_amplitude.

Theorem C10_unsupported_orders :
  forall so order opt, 6 < order ->
    write_linked_disconnected so order opt = Err NotImplementedErr /\
    write_un_linked_disconnected so order opt = Err NotImplementedErr /\
    write_dt_amplitude order opt = Err NotImplementedErr.
Proof. exact dt_rejects. Qed.
Print Assumptions C10_unsupported_orders.

Example C10_example :
  match run_dt_amplitude (fun l => l) 3 false VECC with
  | Ok v => dv_residual v = 3 /\
      map (fun a => (ad_den a, operands (ad_call a))) (dv_minus v)
      = [ (Some 6, ["w_ijk"; "epsilon"]);
          (Some 4, ["dt_i"; "t_ij"]); (Some 4, ["t_i"; "dt_ij"]);
          (Some 4, ["dt_ij"; "t_i"]); (Some 4, ["t_ij"; "dt_i"]);
          (Some 6, ["dt_i"; "t_i"; "t_i"]); (Some 6, ["t_i"; "dt_i"; "t_i"]);
          (Some 6, ["t_i"; "t_i"; "dt_i"]) ]%string
  | Err _ => False
  end.
Proof. vm_compute. split; reflexivity. Qed.

(** C07, dt part: the helpers unpack t_i.. and dt_i.. up to order - 1, and use
    no other name. *)
Theorem C07_dt_names_bound :
  forall so, set_order so -> forall (un : bool) order opt f adds,
    1 <= order ->
    (if un then write_un_linked_disconnected so order opt else write_linked_disconnected so order opt) = Ok f ->
    run_dt_fun f = Ok adds ->
    (exists cs, f = DFbody (map amp_name (range 1 order)) (map dt_amp_name (range 1 order)) cs) /\
    forall a x, In a adds -> In x (operands (ad_call a)) ->
      exists n, 1 <= n < order /\ (x = amp_name n \/ x = dt_amp_name n).
Proof. exact dt_names_bound. Qed.
Print Assumptions C07_dt_names_bound.

(** C11: for every truncation level containing the rank being solved, the
    optimised solver performs exactly the contractions of the default one, in
    the same order, each with a path compiled for its subscripts and shapes,
    and uses up every path compiled for that order. *)
Theorem C11_dt_paths_aligned :
  forall so, set_order so -> forall max_order order an trunc,
    level_truncation trunc -> has_rank trunc order -> 1 <= order <= max_order -> max_order <= 6 ->
    exists lp up e eps linked unlinked,
      run_linked_paths so max_order trunc = Ok lp /\ run_unlinked_paths so max_order trunc = Ok up /\
      run_solve_optimized so max_order order an trunc = Ok (e, eps, linked, unlinked) /\
      run_dt_amplitude so order false an
        = Ok (mkDtValue order (map (fun pa => mkAdd (ad_den (snd pa))
                 (Einsum (pt_ins (fst pa)) (pt_out (fst pa)) (operands (ad_call (snd pa)))))
                 ((e, eps) :: linked ++ unlinked))) /\
      pt_shapes e = [amp_shape order; amp_shape 0] /\
      Forall (fun pa => exists c i, composition_of order c /\ i < List.length c /\
                operands (ad_call (snd pa)) = leibniz_term c i /\ pt_shapes (fst pa) = map amp_shape c)
             (linked ++ unlinked) /\
      (an <> VECI -> nth_error lp (order - 1) = Some (map fst linked)) /\
      (an = VECC -> nth_error up (order - 1) = Some (map fst unlinked)).
Proof. exact dt_aligned. Qed.
Print Assumptions C11_dt_paths_aligned.

Example C11_example :
  level_truncation doubles_only /\ has_rank doubles_only 2 /\
  exists l, run_solve_optimized (fun l => l) 6 2 VECC doubles_only = Ok l /\ List.length (snd (fst l)) = 2.
Proof. split; [exact doubles_only_level|]. split; [reflexivity|]. eexists. vm_compute. split; reflexivity. Qed.

(** C11 refuted for arbitrary flag assignments: triples on, doubles off.  The
    default function works; the optimised one runs out of paths. *)
Theorem C11_arbitrary_flags_refuted :
  exists trunc, has_rank trunc 3 /\
    run_solve_optimized (fun l => l) 6 3 VECC trunc = Err IndexErr /\
    exists v, run_dt_amplitude (fun l => l) 3 false VECC = Ok v.
Proof. exact dt_misaligned. Qed.
Print Assumptions C11_arbitrary_flags_refuted.
