(** C04-C09: the generated W-operator module.  Statements only. *)
From Verif Require Import PyBase ModelHelper SpecPartitions SpecW ModelW ProofsW.

Definition doubles_only (s : string) : bool :=
  String.eqb s "singles" || String.eqb s "doubles".

Lemma doubles_only_level : level_truncation doubles_only.
Proof.
  split; [reflexivity|]. intros r H1 H6.
  do 6 (destruct r as [|r]; [lia || (vm_compute; congruence)|]). lia.
Qed.

(** C04: under VECC, the generated function for W of any supported order adds,
    for every truncation level, exactly one product for each ordered sequence
    of amplitude ranks summing to the order (all ranks inside the truncation),
    and its weight is 1/(k! n1! ... nk!).  Same for the optimised variant. *)
Theorem C04_vecc_all_compositions :
  forall so, set_order so -> forall order opt trunc,
    level_truncation trunc -> 1 <= order <= 6 ->
    exists adds, run_w so order opt VECC trunc = Ok adds /\
      NoDup (map (fun a => operands (ad_call a)) adds) /\
      (forall ops, In ops (map (fun a => operands (ad_call a)) adds) <->
         exists c, composition_of order c /\ allowed trunc c /\ ops = map amp_name c) /\
      (forall a, In a adds -> exists c, composition_of order c /\
         operands (ad_call a) = map amp_name c /\ ad_den a = Some (exp_denominator c)).
Proof. exact w_sum_vecc. Qed.
Print Assumptions C04_vecc_all_compositions.

(** C04: outside the supported orders generation stops with an exception. *)
Theorem C04_unsupported_orders :
  forall so order opt an trunc,
    (6 < order -> run_w so order opt an trunc = Err NotImplementedErr) /\
    run_w so 0 opt an trunc = Err GenericException.
Proof. exact (fun so order opt an trunc => conj (w_rejects so order opt an trunc) (w_no_order0 so opt an trunc)). Qed.
Print Assumptions C04_unsupported_orders.

Example C04_example :
  level_truncation doubles_only /\
  run_w (fun l => l) 4 false VECC doubles_only <> Ok [] /\
  match run_w (fun l => l) 4 false VECC doubles_only with
  | Ok adds => map (fun a => (ad_den a, operands (ad_call a))) adds
      = [ (Some 12, ["t_i"; "t_i"; "t_ij"]); (Some 12, ["t_i"; "t_ij"; "t_i"]);
          (Some 12, ["t_ij"; "t_i"; "t_i"]); (Some 24, ["t_i"; "t_i"; "t_i"; "t_i"]);
          (Some 8, ["t_ij"; "t_ij"]) ]%string
  | Err _ => False
  end.
Proof. split; [exact doubles_only_level|]. split; [vm_compute; discriminate|vm_compute; reflexivity]. Qed.

(** C05: under the mixed VECI/CC ansatz only the sequences with at most one
    rank above one appear; under VECI only the single amplitude of that rank. *)
Theorem C05_mixed_compositions :
  forall so, set_order so -> forall order opt trunc,
    level_truncation trunc -> 1 <= order <= 6 ->
    exists adds, run_w so order opt VE_MIXED trunc = Ok adds /\
      NoDup (map (fun a => operands (ad_call a)) adds) /\
      (forall ops, In ops (map (fun a => operands (ad_call a)) adds) <->
         exists c, composition_of order c /\ big_parts c <= 1 /\ allowed trunc c /\ ops = map amp_name c) /\
      (forall a, In a adds -> exists c, composition_of order c /\
         operands (ad_call a) = map amp_name c /\ ad_den a = Some (exp_denominator c)).
Proof. exact w_sum_mixed. Qed.
Print Assumptions C05_mixed_compositions.

Theorem C05_veci_single :
  forall so, set_order so -> forall order opt trunc,
    level_truncation trunc -> 1 <= order <= 6 ->
    exists adds, run_w so order opt VECI trunc = Ok adds /\
      map (fun a => operands (ad_call a)) adds
        = (if trunc (rank_name order) then [[amp_name order]] else []) /\
      (forall a, In a adds -> ad_den a = Some (fact_spec order)).
Proof. exact w_sum_veci. Qed.
Print Assumptions C05_veci_single.

Example C05_example :
  level_truncation doubles_only /\
  match run_w (fun l => l) 4 false VE_MIXED doubles_only with
  | Ok adds => map (fun a => operands (ad_call a)) adds
      = [ ["t_i"; "t_i"; "t_ij"]; ["t_i"; "t_ij"; "t_i"];
          ["t_ij"; "t_i"; "t_i"]; ["t_i"; "t_i"; "t_i"; "t_i"] ]%string
  | Err _ => False
  end.
Proof. split; [exact doubles_only_level|vm_compute; reflexivity]. Qed.

(** C06: every einsum call written for W is the ordered matrix product of its
    operands: matching number and length of subscripts, an unbroken chain of
    state letters from a to b, modes dealt out once each, no letter reused. *)
Theorem C06_w_subscripts :
  forall so, set_order so -> forall order an trunc adds ins out args,
    level_truncation trunc -> 1 <= order <= 6 ->
    run_w so order false an trunc = Ok adds ->
    In (Einsum ins out args) (map ad_call adds) -> ins <> [] ->
    exists c, composition_of order c /\ args = map amp_name c /\ matrix_chain c ins out.
Proof. exact w_calls_chain. Qed.
Print Assumptions C06_w_subscripts.

Example C06_example :
  match run_w (fun l => l) 3 false VECC doubles_only with
  | Ok adds => In (Einsum ["aci"; "cbjk"] "abijk" ["t_i"; "t_ij"])%string (map ad_call adds)
  | Err _ => False
  end.
Proof. vm_compute. tauto. Qed.

(** C07: each generated helper unpacks the amplitudes t_i, t_ij, ... in rank
    order, and every operand it uses is among them. *)
Theorem C07_vemx_names_bound :
  forall so, set_order so -> forall order opt trunc f adds,
    1 <= order -> generate_vemx_contributions so order opt = Ok f ->
    run_contrib_fun trunc f = Ok adds ->
    bound_names f = map amp_name (range 1 order) /\
    forall a x, In a adds -> In x (operands (ad_call a)) -> In x (bound_names f).
Proof. exact vemx_names_bound. Qed.
Print Assumptions C07_vemx_names_bound.

Theorem C07_vecc_names_bound :
  forall so, set_order so -> forall order opt trunc f adds,
    1 <= order -> generate_vecc_contributions so order opt = Ok f ->
    run_contrib_fun trunc f = Ok adds ->
    bound_names f = map amp_name (range 1 (order - 1)) /\
    forall a x, In a adds -> In x (operands (ad_call a)) -> In x (bound_names f).
Proof. exact vecc_names_bound. Qed.
Print Assumptions C07_vecc_names_bound.

Theorem C07_w_names_bound :
  forall order opt f, 1 <= order -> write_w_function order opt = Ok f ->
    match f with
    | WFfirst names => names = map amp_name (seq 1 order) /\ In "t_i"%string names
    | WFgen names _ _ term _ => names = map amp_name (seq 1 order) /\ In term names
    end.
Proof. exact w_names_bound. Qed.
Print Assumptions C07_w_names_bound.

Example C07_example :
  match generate_vecc_contributions (fun l => l) 4 false with
  | Ok f => bound_names f = ["t_i"; "t_ij"]%string /\
            match run_contrib_fun doubles_only f with
            | Ok adds => map (fun a => operands (ad_call a)) adds = [["t_ij"; "t_ij"]]%string
            | Err _ => False end
  | Err _ => False
  end.
Proof. vm_compute. split; reflexivity. Qed.

(** C08: with optimised contraction paths, the k-th path consumed by the
    optimised helper was compiled for exactly the product the default helper
    computes in its k-th call: same subscripts, shapes of the same operands;
    the helpers consume all paths, none left over. *)
Theorem C08_vemx_paths_aligned :
  forall so, set_order so -> forall max_order order trunc,
    has_rank trunc 1 -> 2 <= order <= max_order -> max_order <= 6 ->
    exists l : list (list nat * list string * string),
      Forall (fun x => composition_of order (fst (fst x)) /\ matrix_chain (fst (fst x)) (snd (fst x)) (snd x)) l /\
      (do f <- generate_vemx_contributions so order false; run_contrib_fun trunc f)
        = Ok (map (fun x => mkAdd (Some (exp_denominator (fst (fst x))))
                                  (Einsum (snd (fst x)) (snd x) (map amp_name (fst (fst x))))) l) /\
      (do f <- generate_vemx_contributions so order true; run_contrib_fun trunc f)
        = Ok (map (fun x => mkAdd (Some (exp_denominator (fst (fst x))))
                                  (NextOpt (map amp_name (fst (fst x))))) l) /\
      exists ls, run_vemx_paths so max_order trunc = Ok ls /\
        nth_error ls (order - 1)
        = Some (map (fun x => mkPath (snd (fst x)) (snd x) (map amp_shape (fst (fst x)))) l).
Proof. exact vemx_aligned. Qed.
Print Assumptions C08_vemx_paths_aligned.

Theorem C08_vecc_paths_aligned :
  forall so, set_order so -> forall max_order order trunc,
    has_rank trunc 2 -> 4 <= order <= max_order -> max_order <= 6 ->
    exists l : list (list nat * list string * string),
      Forall (fun x => composition_of order (fst (fst x)) /\ matrix_chain (fst (fst x)) (snd (fst x)) (snd x)) l /\
      (do f <- generate_vecc_contributions so order false; run_contrib_fun trunc f)
        = Ok (map (fun x => mkAdd (Some (exp_denominator (fst (fst x))))
                                  (Einsum (snd (fst x)) (snd x) (map amp_name (fst (fst x))))) l) /\
      (do f <- generate_vecc_contributions so order true; run_contrib_fun trunc f)
        = Ok (map (fun x => mkAdd (Some (exp_denominator (fst (fst x))))
                                  (NextOpt (map amp_name (fst (fst x))))) l) /\
      exists ls, run_vecc_paths so max_order trunc = Ok ls /\
        nth_error ls (order - 1)
        = Some (map (fun x => mkPath (snd (fst x)) (snd x) (map amp_shape (fst (fst x)))) l).
Proof. exact vecc_aligned. Qed.
Print Assumptions C08_vecc_paths_aligned.

(** C08: when doubles are off the paths function returns empty lists, and the
    vecc helper then makes no call at all. *)
Theorem C08_vecc_without_doubles :
  forall so, set_order so -> forall order trunc opt,
    level_truncation trunc -> ~ has_rank trunc 2 -> 4 <= order <= 6 ->
    (do f <- generate_vecc_contributions so order opt; run_contrib_fun trunc f) = Ok [].
Proof. exact vecc_no_doubles. Qed.
Print Assumptions C08_vecc_without_doubles.

(** C08 refuted for flags with triples but not doubles: the paths function
    returns nothing while the optimised vecc helper of order 6 asks for a path. *)
Theorem C08_triples_without_doubles_refuted :
  exists trunc, has_rank trunc 1 /\
    (exists ls, run_vecc_paths (fun l => l) 6 trunc = Ok ls /\ nth_error ls 5 = Some []) /\
    exists a l, (do f <- generate_vecc_contributions (fun l => l) 6 true; run_contrib_fun trunc f) = Ok (a :: l).
Proof. exact vecc_misaligned. Qed.
Print Assumptions C08_triples_without_doubles_refuted.

Example C08_example :
  has_rank doubles_only 1 /\ has_rank doubles_only 2 /\
  match run_vecc_paths (fun l => l) 6 doubles_only with
  | Ok ls => option_map (map pt_shapes) (nth_error ls 4)
             = Some [["(A, A, N)"; "(A, A, N, N)"; "(A, A, N, N)"];
                     ["(A, A, N, N)"; "(A, A, N)"; "(A, A, N, N)"];
                     ["(A, A, N, N)"; "(A, A, N, N)"; "(A, A, N)"]]%string
  | Err _ => False
  end.
Proof. split; [reflexivity|]. split; vm_compute; reflexivity. Qed.

(** C09 (as generated with the maximum order 6): the master function only calls
    W functions that the module defines, for every truncation below quintuples. *)
Theorem C09_master_order6 :
  forall trunc, has_rank trunc 1 -> ~ has_rank trunc 5 ->
    exists k, 3 <= k <= 6 /\
      run_master trunc (defined_w_functions 6) [] (write_master_w_compute_function 6) = Ok (seq 1 k).
Proof. exact master_complete. Qed.
Print Assumptions C09_master_order6.

(** C09, exact: for every maximum order and truncation, the master function
    returns W_1..W_k exactly when the module was generated up to the order [k]
    the truncation asks for, and otherwise calls an undefined function. *)
Theorem C09_master_exact :
  forall trunc max_order, has_rank trunc 1 -> ~ has_rank trunc 5 ->
    run_master trunc (defined_w_functions max_order) [] (write_master_w_compute_function max_order)
    = if Nat.leb (needed_order trunc) max_order then Ok (seq 1 (needed_order trunc)) else Err KeyErr.
Proof. exact master_result. Qed.
Print Assumptions C09_master_exact.

(** C83, for every maximum order and all flags: the master function calls
    a function that was not generated precisely when the truncation has singles
    and needs a higher order than the module has. *)
Theorem C83_master_undefined_exactly :
  forall trunc max_order,
    run_master trunc (defined_w_functions max_order) [] (write_master_w_compute_function max_order) = Err KeyErr
    <-> has_rank trunc 1 /\ max_order < needed_order trunc.
Proof. exact master_undefined_exactly. Qed.
Print Assumptions C83_master_undefined_exactly.

Example C83_example :
  let singles s := String.eqb s "singles"%string in
  has_rank singles 1 /\ needed_order singles = 3 /\
  run_master singles (defined_w_functions 2) [] (write_master_w_compute_function 2) = Err KeyErr /\
  run_master singles (defined_w_functions 3) [] (write_master_w_compute_function 3) = Ok [1; 2; 3].
Proof. vm_compute. repeat split. Qed.

(** C09 refuted in general: a module generated with maximum order 1 or 2 has a
    master function that fails for every truncation (it always calls order 3). *)
Theorem C09_master_refuted :
  forall trunc max_order, has_rank trunc 1 -> max_order < 3 ->
    run_master trunc (defined_w_functions max_order) [] (write_master_w_compute_function max_order) = Err KeyErr.
Proof. exact master_undefined. Qed.
Print Assumptions C09_master_refuted.

(** C09, indexing: the lists returned by the paths functions are long enough
    for every index k - 1 used for an order k the module defines. *)
Theorem C09_vemx_index :
  forall so max_order trunc, set_order so -> 1 <= max_order <= 6 ->
    exists ls, run_vemx_paths so max_order trunc = Ok ls /\ List.length ls = max_order.
Proof. exact vemx_paths_length. Qed.
Print Assumptions C09_vemx_index.

Theorem C09_vecc_index :
  forall so max_order trunc, set_order so -> 1 <= max_order <= 6 ->
    exists ls, run_vecc_paths so max_order trunc = Ok ls /\ max_order <= List.length ls.
Proof. exact vecc_paths_length. Qed.
Print Assumptions C09_vecc_index.

Example C09_example :
  has_rank doubles_only 1 /\ ~ has_rank doubles_only 5 /\
  run_master doubles_only (defined_w_functions 6) [] (write_master_w_compute_function 6) = Ok [1; 2; 3; 4] /\
  run_master doubles_only (defined_w_functions 2) [] (write_master_w_compute_function 2) = Err KeyErr.
Proof. split; [reflexivity|]. split; [vm_compute; discriminate|]. split; reflexivity. Qed.
