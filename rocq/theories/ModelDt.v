(** Model of /repo/termfactory/code_dt_equations.py (lines 29-790): the
    generated python module that computes the time derivatives of the
    t-amplitudes.  Same style as ModelW: syntax tree, text, meaning. *)
From Verif Require Import PyBase ModelHelper ModelW.

(** code_dt_equations.py 29-39 [dt_terms]; entry 0 is [None]. *)
Definition dt_term_strings : list (option string) :=
  [ None; Some "dt_i"; Some "dt_ij"; Some "dt_ijk"; Some "dt_ijkl"; Some "dt_ijklm";
    Some "dt_ijklmn"; Some "dt_ijklmno"; Some "dt_ijklmnop" ]%string.

Definition dt_term_string (n : nat) : res string :=
  match nth_error dt_term_strings n with
  | Some (Some s) => Ok s
  | Some None => Err TypeErr
  | None => Err IndexErr
  end.

(** code_residual_equations.py 334-343 [w_dict] (imported at line 8). *)
Definition w_dict (n : nat) : res string :=
  match nth_error [ None; Some "w_i"; Some "w_ij"; Some "w_ijk"; Some "w_ijkl"; Some "w_ijklm";
                    Some "w_ijklmn"; Some "w_ijklmno"; Some "w_ijklmnop" ]%string n with
  | Some (Some s) => Ok s
  | _ => Err KeyErr
  end.

(** code_dt_equations.py 43-57 [_generate_disconnected_einsum_operands_list]:
    [pos] is the running index of [enumerate]. *)
Fixpoint disconnected_operands (dt_index pos : nat) (tupl : list nat) : res (list string) :=
  match tupl with
  | [] => Ok []
  | num :: r =>
      do s <- (if Nat.eqb dt_index pos then dt_term_string num else t_term_string num);
      do rest <- disconnected_operands dt_index (S pos) r;
      Ok (s :: rest)
  end.

Section Dt.
  Variable so : list (list nat) -> list (list nat).

  (** The double loop of lines 88-104: for each composition, for each position
      of the derivative. *)
  Fixpoint zip_dt_calls (k : nat) (surf : list string) (out : string)
      (combs : list (list nat)) (modes : list (list string)) : res (list expr) :=
    match combs, modes with
    | [], _ => Ok []
    | _ :: _, [] => Err IndexErr
    | t :: ts, m :: ms =>
        do ins <- zip_append surf m;
        do here <- mapM (fun dt_index => do args <- disconnected_operands dt_index 0 t;
                                         Ok (Einsum ins out args)) (range 0 k);
        do r <- zip_dt_calls k surf out ts ms;
        Ok (here ++ r)
    end.

  (** lines 60-106 [_generate_disconnected_einsum_function_call_list] *)
  Definition disconnected_calls (partition : list nat) (order : nat) : res (list expr) :=
    do surf <- generate_surface_index partition;
    do modes <- generate_mode_index so partition order;
    zip_dt_calls (List.length partition) surf ("ab" ++ sslice 0 order tag_str)%string
                 (unique_permutations so partition) modes.

  (** lines 109-130 [_generate_optimized_disconnected_einsum_function_call_list] *)
  Definition optimized_disconnected_calls (partition : list nat) : res (list expr) :=
    do ls <- mapM (fun t => mapM (fun dt_index => do args <- disconnected_operands dt_index 0 t;
                                                  Ok (NextOpt args))
                                 (range 0 (List.length partition)))
                  (unique_permutations so partition);
    Ok (List.concat ls).

  (** One partition's block: comment, prefactor, calls; no truncation guard. *)
  Record dt_contrib := mkDtContrib {
    dc_partition : list nat;
    dc_pref : w_prefactor;
    dc_calls : list expr }.

  (** Loop body of lines 211-230 and 315-334. *)
  Definition generate_dt_contrib (order : nat) (opt : bool) (partition : list nat) : res dt_contrib :=
    do calls <- (if opt then optimized_disconnected_calls partition
                 else disconnected_calls partition order);
    Ok {| dc_partition := partition;
          dc_pref := generate_w_operator_prefactor partition;
          dc_calls := calls |}.

  (** A generated `_order_{order}_[un_]linked_disconnected_terms` function. *)
  Inductive dt_fun :=
  | DFraise
  | DFbody (unpack_t unpack_dt : list string) (contribs : list dt_contrib).

  (** lines 134-173, 176-235 *)
  Definition write_linked_disconnected (order : nat) (opt : bool) : res dt_fun :=
    if Nat.ltb 6 order then Err NotImplementedErr
    else do ts <- mapM t_term_string (range 1 order);
         do dts <- mapM dt_term_string (range 1 order);
         if Nat.ltb order 2 then Ok DFraise
         else do cs <- mapM (generate_dt_contrib order opt)
                            (generate_linked_disconnected_partitions_of_n so order);
              Ok (DFbody ts dts cs).

  (** lines 239-277, 280-339 *)
  Definition write_un_linked_disconnected (order : nat) (opt : bool) : res dt_fun :=
    if Nat.ltb 6 order then Err NotImplementedErr
    else do ts <- mapM t_term_string (range 1 order);
         do dts <- mapM dt_term_string (range 1 order);
         if Nat.ltb order 4 then Ok DFraise
         else do cs <- mapM (generate_dt_contrib order opt)
                            (generate_un_linked_disconnected_partitions_of_n so order);
              Ok (DFbody ts dts cs).

  (** The function `_calculate_order_{order}_dt_amplitude`: unpack [w_args],
      call the residual function of [da_residual], subtract
      [1/factorial(da_eps_fact) * call(w, epsilon)], then per ansatz subtract
      the linked / un-linked helper of the same order. *)
  Record dt_amp_fun := mkDtAmp {
    da_unpack : list string;
    da_residual : nat;
    da_eps_fact : nat;
    da_eps_ins : list string;
    da_eps_out : string;
    da_eps_args : list string;
    da_calls_linked : bool;      (* VE_MIXED and VECC branches call the linked helper *)
    da_calls_unlinked : bool }.  (* VECC branch calls the un-linked helper *)

  (** lines 343-374, 377-461 *)
  Definition write_dt_amplitude (order : nat) (opt : bool) : res dt_amp_fun :=
    if Nat.ltb 6 order then Err NotImplementedErr
    else do ws <- mapM w_dict (range 1 (order + 1));
         let ms := sslice 0 order tag_str in
         Ok {| da_unpack := ws;
               da_residual := order;
               da_eps_fact := order;
               da_eps_ins := ["ac" ++ ms; "cb"]%string;
               da_eps_out := ("ab" ++ ms)%string;
               da_eps_args := ["w_" ++ ms; "epsilon"]%string;
               da_calls_linked := negb (Nat.ltb order 2);
               da_calls_unlinked := negb (Nat.ltb order 2) && negb (Nat.ltb order 4) |}.

  (** ** Meaning *)

  Definition run_dt_contrib (c : dt_contrib) : list addend :=
    map (mkAdd (prefactor_denominator (dc_pref c))) (dc_calls c).

  (** The array a helper returns, as its list of additions. *)
  Definition run_dt_fun (f : dt_fun) : res (list addend) :=
    match f with
    | DFraise => Err GenericException
    | DFbody _ _ cs => Ok (flat_map run_dt_contrib cs)
    end.

  (** The value assigned to dt before symmetrising: the residual of the given
      order minus the listed additions (the epsilon term first).  The
      optimised function takes its epsilon call from a precompiled path, shown
      here as [NextOpt]. *)
  Record dt_value := mkDtValue { dv_residual : nat; dv_minus : list addend }.

  Definition run_dt_amplitude (order : nat) (opt : bool) (an : ansatz) : res dt_value :=
    do f <- write_dt_amplitude order opt;
    let eps := mkAdd (Some (factorial (da_eps_fact f)))
                     (if opt then NextOpt (da_eps_args f)
                      else Einsum (da_eps_ins f) (da_eps_out f) (da_eps_args f)) in
    do linked <- (match an with
                  | VECI => Ok []
                  | _ => if da_calls_linked f
                         then do g <- write_linked_disconnected order opt; run_dt_fun g
                         else Ok []
                  end);
    do unlinked <- (match an with
                    | VECC => if da_calls_unlinked f
                              then do g <- write_un_linked_disconnected order opt; run_dt_fun g
                              else Ok []
                    | _ => Ok []
                    end);
    Ok {| dv_residual := da_residual f; dv_minus := eps :: linked ++ unlinked |}.

  (** ** Optimised paths *)

  Fixpoint zip_dt_paths (k : nat) (surf : list string) (out : string)
      (combs : list (list nat)) (modes : list (list string)) : res (list path) :=
    match combs, modes with
    | [], _ => Ok []
    | _ :: _, [] => Err IndexErr
    | t :: ts, m :: ms =>
        do ins <- zip_append surf m;
        do r <- zip_dt_paths k surf out ts ms;
        Ok (map (fun _ => mkPath ins out (map t_term_shape_string t)) (range 0 k) ++ r)
    end.

  (** lines 518-560 [_contracted_expressions] *)
  Fixpoint dt_contracted_expressions (partition_list : list (list nat)) (order : nat)
    : res (list (nat * list path)) :=
    match partition_list with
    | [] => Ok []
    | p :: ps =>
        if Nat.eqb (List.length p) 1 then dt_contracted_expressions ps order
        else
          do surf <- generate_surface_index p;
          do modes <- generate_mode_index so p order;
          do calls <- zip_dt_paths (List.length p) surf ("ab" ++ sslice 0 order tag_str)%string
                                   (unique_permutations so p) modes;
          do rest <- dt_contracted_expressions ps order;
          Ok ((list_max p, calls) :: rest)
    end.

  (** lines 582-624 [_write_optimized_epsilon_paths_function]: the guarded
      appends, in order. *)
  Definition epsilon_paths (max_order : nat) : res (list (string * path)) :=
    if Nat.ltb 6 max_order then Err NotImplementedErr
    else mapM (fun order =>
           do g <- py_nth taylor_series_order_tag order;
           let ms := sslice 0 order tag_str in
           Ok (g, mkPath ["ac" ++ ms; "cb"]%string ("ab" ++ ms)%string
                         [t_term_shape_string order; t_term_shape_string 0]))
         (range 1 (max_order + 1)).

  (** lines 627-676 [_write_optimized_linked_paths_function] *)
  Definition optimized_linked_paths (max_order : nat) : res (list path_block * list (option nat)) :=
    if Nat.ltb 6 max_order then Err NotImplementedErr
    else
      do bs <- mapM (fun order =>
                 do l <- dt_contracted_expressions (generate_linked_disconnected_partitions_of_n so order) order;
                 path_blocks order l)
               (range 2 (max_order + 1));
      Ok (List.concat bs, map Some (1 :: range 2 (max_order + 1))).

  (** lines 679-737 [_write_optimized_unlinked_paths_function] (the early
      return when doubles are off is in [run_unlinked_paths]). *)
  Definition optimized_unlinked_paths (max_order : nat) : res (list path_block * list (option nat)) :=
    if Nat.ltb 6 max_order then Err NotImplementedErr
    else
      do bs <- mapM (fun order =>
                 do l <- dt_contracted_expressions (generate_un_linked_disconnected_partitions_of_n so order) order;
                 path_blocks order l)
               (range 4 (max_order + 1));
      Ok (List.concat bs, map Some ([1; 2; 3] ++ range 4 (max_order + 1))).

  Definition run_epsilon_paths (max_order : nat) (trunc : string -> bool) : res (list path) :=
    do l <- epsilon_paths max_order;
    Ok (flat_map (fun e => if trunc (fst e) then [snd e] else []) l).

  Definition run_linked_paths (max_order : nat) (trunc : string -> bool) : res (list (list path)) :=
    do b <- optimized_linked_paths max_order; Ok (run_blocks trunc (fst b) (snd b)).

  Definition run_unlinked_paths (max_order : nat) (trunc : string -> bool) : res (list (list path)) :=
    do b <- optimized_unlinked_paths max_order;
    if trunc "doubles"%string then Ok (run_blocks trunc (fst b) (snd b))
    else Ok (repeat [] 6).

  (** [next(optimized_einsum)(args)] consumes one path per optimised call: the
      list of (path, addition) pairs, or [StopIteration] (reported as
      [IndexErr]) when the iterator runs dry.  Left-over paths are ignored by
      python. *)
  Fixpoint consume (paths : list path) (adds : list addend) : res (list (path * addend)) :=
    match adds, paths with
    | [], _ => Ok []
    | _ :: _, [] => Err IndexErr
    | a :: r, p :: ps => do l <- consume ps r; Ok ((p, a) :: l)
    end.

  (** lines 464-509, 563-579: the generated
      `solve_<name>_equations_optimized(..., opt_path_list)` called with the
      lists that `compute_optimized_paths` of the same module returned. *)
  Definition run_solve_optimized (max_order order : nat) (an : ansatz) (trunc : string -> bool)
    : res (path * addend * list (path * addend) * list (path * addend)) :=
    do name <- py_nth taylor_series_order_tag order;
    do ep <- run_epsilon_paths max_order trunc;
    do lp <- run_linked_paths max_order trunc;
    do up <- run_unlinked_paths max_order trunc;
    if negb (trunc name) then Err GenericException
    else
      do e <- py_nth ep (order - 1);
      do l <- py_nth lp (order - 1);
      do u <- py_nth up (order - 1);
      do f <- write_dt_amplitude order true;
      let eps := mkAdd (Some (factorial (da_eps_fact f))) (NextOpt (da_eps_args f)) in
      do linked <- (match an with
                    | VECI => Ok []
                    | _ => if da_calls_linked f
                           then do g <- write_linked_disconnected order true;
                                do adds <- run_dt_fun g; consume l adds
                           else Ok []
                    end);
      do unlinked <- (match an with
                      | VECC => if da_calls_unlinked f
                                then do g <- write_un_linked_disconnected order true;
                                     do adds <- run_dt_fun g; consume u adds
                                else Ok []
                      | _ => Ok []
                      end);
      Ok (e, eps, linked, unlinked).

  (** ** Text *)
  Open Scope string_scope.

  (** [str(tuple)] *)
  Definition tuple_repr (p : list nat) : string :=
    match p with
    | [x] => "(" ++ str_nat x ++ ",)"
    | _ => "(" ++ join ", " (map str_nat p) ++ ")"
    end.

  (** [kind] is "linked" or "un_linked"; the docstring texts of 143-170 and
      248-274. *)
  Definition render_dt_def (un : bool) (order : nat) (opt : bool) : string :=
    let o := if opt then "_optimized" else "" in
    let kind := if un then "un_linked" else "linked" in
    let pl := if un then "opt_unlinked_path_list" else "opt_linked_path_list" in
    nl ++ "def _order_" ++ str_nat order ++ "_" ++ kind ++ "_disconnected_terms" ++ o
       ++ "(A, N, trunc, t_args, dt_args" ++ (if opt then ", " ++ pl else "") ++ "):" ++ nl
    ++ tab.

  Definition render_dt_fun (un : bool) (order : nat) (opt : bool) (f : dt_fun) : string :=
    match f with
    | DFraise =>
        render_dt_def un order opt ++ q3 ++ "Exists for error checking." ++ q3 ++ nl
        ++ tab ++ "raise Exception(" ++ nl
        ++ tab ++ tab ++ """" ++ (if un then "the first possible purely VECC term is (2, 2) or (dt_ij * t_ij)"
                                   else "the first possible purely VECI/CC term is (1, 1) or (dt_i * t_i)") ++ """" ++ nl
        ++ tab ++ tab ++ """" ++ (if un then "which requires a residual of at least 4th order"
                                   else "which requires a residual of at least 2nd order") ++ """" ++ nl
        ++ tab ++ ")" ++ nl
    | DFbody ts dts cs =>
        let array := (if un then "un_linked" else "linked") ++ "_disconnected_terms" in
        render_dt_def un order opt
        ++ q3 ++ "Calculate all uniquely " ++ (if un then "un-linked" else "linked")
              ++ " disconnected terms generated from the wave operator ansatz." ++ nl
        ++ tab ++ "This means for order 5 we include terms such as "
               ++ (if un then "(3, 2), (2, 2, 1)"
                   else if opt then "(4, 1), (3, 1, 1), (2, 1, 1, 1)"
                   else "(4, 1), (3, 1, 1), (2, 1, 1, 1), (1, 1, 1, 1, 1)") ++ nl
        ++ tab ++ "But not terms "
               ++ (if un then "(5), (4, 1), (3, 1, 1), (2, 1, 1, 1), (1, 1, 1, 1, 1)"
                   else if opt then "(5), (3, 2), (2, 2, 1), (1, 1, 1, 1, 1)"
                   else "(5), (3, 2), (2, 2, 1)") ++ nl
        ++ (if opt then tab ++ "Uses optimized summation paths generate using `contract_expression` from the `opt_einsum` library." ++ nl
            else "")
        ++ tab ++ q3 ++ nl
        ++ tab ++ "# unpack the `t_args` and 'dt_args'" ++ nl
        ++ tab ++ join ", " (ts ++ ["*unusedargs"])%list ++ " = t_args" ++ nl
        ++ tab ++ join ", " (dts ++ ["*unusedargs"])%list ++ " = dt_args" ++ nl
        ++ (if opt then
              let pl := if un then "opt_unlinked_path_list" else "opt_linked_path_list" in
              tab ++ "# make an iterable out of the `" ++ pl ++ "`" ++ nl
              ++ tab ++ "optimized_einsum = iter(" ++ pl ++ ")" ++ nl
            else "")
        ++ tab ++ "# Creating the " ++ nth order num_tag "" ++ " order return array" ++ nl
        ++ tab ++ array ++ " = np.zeros((" ++ join ", " (["A"; "A"] ++ repeat "N" order)%list ++ "), dtype=complex)" ++ nl
        ++ concat_str (map (fun c =>
             tab ++ "# the " ++ tuple_repr (dc_partition c) ++ " term" ++ nl
             ++ tab ++ array ++ " += " ++ render_prefactor (dc_pref c) ++ " * (" ++ nl
             ++ tab ++ tab ++ join (" +" ++ nl ++ tab ++ tab) (map render_expr (dc_calls c)) ++ nl
             ++ tab ++ ")" ++ nl) cs)
        ++ nl ++ tab ++ "return " ++ array ++ nl
    end.

  (** lines 352-374, 387-461 *)
  Definition render_dt_amplitude (order : nat) (opt : bool) (f : dt_amp_fun) : string :=
    let n := str_nat order in
    let ms := sslice 0 order tag_str in
    let line (kind pl : string) :=
      tab ++ tab ++ "residual -= _order_" ++ n ++ "_" ++ kind ++ "_disconnected_terms"
      ++ (if opt then "_optimized(A, N, trunc, t_args, dt_args, " ++ pl ++ ")"
          else "(A, N, trunc, t_args, dt_args)") ++ nl in
    let linked := line "linked" "opt_linked_path_list" in
    let unlinked := line "un_linked" "opt_unlinked_path_list" in
    let nounlinked := tab ++ tab ++ "pass  # no un-linked disconnected terms for order < 4" ++ nl in
    let vemx := if da_calls_linked f then linked
                else tab ++ tab ++ "pass  # no linked disconnected terms for order < 2" ++ nl in
    let vecc := (if da_calls_linked f then linked else "")
                ++ (if da_calls_unlinked f then unlinked else nounlinked) in
    (if opt then
       nl ++ "def _calculate_order_" ++ n ++ "_dt_amplitude_optimized(A, N, ansatz, trunc, epsilon, h_args, t_args, dt_args, w_args, opt_epsilon, opt_linked_path_list, opt_unlinked_path_list):" ++ nl
       ++ tab ++ q3 ++ "Calculate the derivative of the " ++ n ++ " t-amplitude for use in the calculation of the residuals." ++ nl
       ++ tab ++ "Uses optimized summation paths generate using `contract_expression` from the `opt_einsum` library." ++ nl
       ++ tab ++ q3 ++ nl
     else
       nl ++ "def _calculate_order_" ++ n ++ "_dt_amplitude(A, N, ansatz, trunc, epsilon, h_args, t_args, dt_args, w_args):" ++ nl
       ++ tab ++ q3 ++ "Calculate the derivative of the " ++ n ++ " t-amplitude for use in the calculation of the residuals." ++ q3 ++ nl)
    ++ tab ++ "# unpack the `w_args`" ++ nl
    ++ tab ++ join ", " (da_unpack f ++ ["*unusedargs"])%list ++ " = w_args" ++ nl
    ++ tab ++ "# Calculate the " ++ nth order num_tag "" ++ " order residual" ++ nl
    ++ tab ++ "residual = residual_equations.calculate_order_" ++ str_nat (da_residual f)
           ++ "_residual(A, N, trunc, h_args, w_args)" ++ nl
    ++ tab ++ "# subtract the epsilon term (which is R_0)" ++ nl
    ++ tab ++ "residual -= 1/factorial(" ++ str_nat (da_eps_fact f) ++ ") * "
           ++ (if opt then "opt_epsilon(" ++ join ", " (da_eps_args f) ++ ")"
               else "np.einsum('" ++ join "," (da_eps_ins f) ++ "->" ++ da_eps_out f ++ "', "
                    ++ join ", " (da_eps_args f) ++ ")") ++ nl
    ++ nl
    ++ tab ++ "# subtract the disconnected terms" ++ nl
    ++ tab ++ "if ansatz.VECI:" ++ nl
    ++ tab ++ tab ++ "pass  # veci does not include any disconnected terms" ++ nl
    ++ tab ++ "elif ansatz.VE_MIXED:" ++ nl
    ++ vemx
    ++ tab ++ "elif ansatz.VECC:" ++ nl
    ++ vecc ++ nl
    ++ tab ++ "# Symmetrize the residual operator" ++ nl
    ++ tab ++ "dt_" ++ ms ++ " = symmetrize_tensor(N, residual, order=" ++ n ++ ")" ++ nl
    ++ tab ++ "return dt_" ++ ms ++ nl.

  (** lines 464-509 [_write_master_dt_amplitude_function]; the literal ends
      with a line of eight blanks, of which trimming leaves nothing. *)
  Definition render_solve (order : nat) (opt : bool) : res string :=
    do t <- t_term_string order;
    do dt <- dt_term_string order;
    do name <- py_nth taylor_series_order_tag order;
    let n := str_nat order in
    let i := str_nat (order - 1) in
    let o := if opt then "_optimized" else "" in
    Ok (join nl (
      [ ""; "def solve_" +++ name +++ "_equations" +++ o
          +++ "(A, N, ansatz, trunc, epsilon, h_args, t_args, dt_args, w_args"
          +++ (if opt then ", opt_path_list" else "") +++ "):";
        tab +++ q3 +++ "Compute the change in the " +++ t +++ " term (" +++ name +++ ")" +++ q3;
        "";
        tab +++ "if not trunc." +++ name +++ ":";
        tab +++ tab +++ "raise Exception(";
        tab +++ tab +++ tab +++ """It appears that " +++ name +++ " is not true, this cannot be.""";
        tab +++ tab +++ tab +++ """Something went terribly wrong!!!""";
        tab +++ tab +++ ")" ]
      ++ (if opt then
            [ ""; tab +++ "# unpack the opt_einsum path's";
              tab +++ "opt_epsilon_path_list, opt_linked_path_list, opt_unlinked_path_list = opt_path_list";
              "";
              tab +++ dt +++ " = _calculate_order_" +++ n +++ "_dt_amplitude_optimized(";
              tab +++ tab +++ "A, N, ansatz, trunc, epsilon, h_args, t_args, dt_args, w_args,";
              tab +++ tab +++ "opt_epsilon_path_list[" +++ i +++ "], opt_linked_path_list[" +++ i
                +++ "], opt_unlinked_path_list[" +++ i +++ "]";
              tab +++ ")" ]
          else
            [ tab +++ dt +++ " = _calculate_order_" +++ n
                +++ "_dt_amplitude(A, N, ansatz, trunc, epsilon, h_args, t_args, dt_args, w_args)" ])
      ++ [ tab +++ "return " +++ dt; "" ])%list).

  (** lines 563-579 *)
  Definition render_master_paths : string :=
    nl ++ "def compute_optimized_paths(A, N, truncation):" ++ nl
    ++ tab ++ q3 ++ "Calculate all optimized paths for the `opt_einsum` calls." ++ q3 ++ nl
    ++ nl
    ++ tab ++ "epsilon_opt_paths = compute_optimized_epsilon_paths(A, N, truncation)" ++ nl
    ++ tab ++ "linked_opt_paths = compute_optimized_linked_paths(A, N, truncation)" ++ nl
    ++ tab ++ "unlinked_opt_paths = compute_optimized_unlinked_paths(A, N, truncation)" ++ nl
    ++ nl
    ++ tab ++ "all_opt_paths = [epsilon_opt_paths, linked_opt_paths, unlinked_opt_paths]" ++ nl
    ++ nl
    ++ tab ++ "return all_opt_paths" ++ nl.

  Definition render_epsilon_paths (l : list (string * path)) : string :=
    nl ++ "def compute_optimized_epsilon_paths(A, N, truncation):" ++ nl
    ++ tab ++ q3 ++ "Calculate optimized paths for the constant/epsilon einsum calls up to `highest_order`." ++ q3 ++ nl
    ++ nl
    ++ tab ++ "epsilon_path_list = []" ++ nl
    ++ nl
    ++ concat_str (map (fun e =>
         tab ++ "if truncation." ++ fst e ++ ":" ++ nl
         ++ tab ++ tab ++ "epsilon_path_list.append(oe.contract_expression('" ++ join "," (pt_ins (snd e))
              ++ "->" ++ pt_out (snd e) ++ "', " ++ join ", " (pt_shapes (snd e)) ++ "))" ++ nl
         ++ nl) l)
    ++ tab ++ "return epsilon_path_list" ++ nl.

  Definition render_linked_paths (b : list path_block * list (option nat)) : string :=
    nl ++ "def compute_optimized_linked_paths(A, N, truncation):" ++ nl
    ++ tab ++ q3 ++ "Calculate optimized paths for the linked-disconnected einsum calls up to `highest_order`." ++ q3 ++ nl
    ++ nl
    ++ tab ++ "order_1_list, order_2_list, order_3_list = [], [], []" ++ nl
    ++ tab ++ "order_4_list, order_5_list, order_6_list = [], [], []" ++ nl
    ++ nl
    ++ concat_str (map render_block (fst b))
    ++ tab ++ "return [" ++ render_ret (snd b) ++ "]" ++ nl.

  Definition render_unlinked_paths (b : list path_block * list (option nat)) : string :=
    nl ++ "def compute_optimized_unlinked_paths(A, N, truncation):" ++ nl
    ++ tab ++ q3 ++ "Calculate optimized paths for the unlinked-disconnected einsum calls up to `highest_order`." ++ q3 ++ nl
    ++ nl
    ++ tab ++ "order_1_list, order_2_list, order_3_list = [], [], []" ++ nl
    ++ tab ++ "order_4_list, order_5_list, order_6_list = [], [], []" ++ nl
    ++ nl
    ++ tab ++ "if not truncation.doubles:" ++ nl
    ++ tab ++ tab ++ "log.warning('Did not calculate optimized unlinked paths of the dt amplitudes')" ++ nl
    ++ tab ++ tab ++ "return [[], [], [], [], [], []]" ++ nl
    ++ nl
    ++ concat_str (map render_block (fst b))
    ++ tab ++ "return [" ++ render_ret (snd b) ++ "]" ++ nl.

  (** lines 741-809 [generate_dt_amplitude_string] with the default widths. *)
  Definition generate_dt_amplitude_string (max_order : nat) : res string :=
    let orders := range 1 (max_order + 1) in
    let half (opt : bool) :=
      do l <- mapM (fun o => do f <- write_linked_disconnected o opt; Ok (render_dt_fun false o opt f)) orders;
      do u <- mapM (fun o => do f <- write_un_linked_disconnected o opt; Ok (render_dt_fun true o opt f)) orders;
      do a <- mapM (fun o => do f <- write_dt_amplitude o opt; Ok (render_dt_amplitude o opt f)) orders;
      do s <- mapM (fun o => render_solve o opt) orders;
      Ok (nl ++ named_line_nl "DISCONNECTED TERMS" 28 ++ concat_str l ++ concat_str u
          ++ nl ++ named_line_nl "dt AMPLITUDES" 28 ++ concat_str a
          ++ nl ++ named_line_nl "WRAPPER FUNCTIONS" 28 ++ concat_str s) in
    do default <- half false;
    do optimized <- half true;
    do ep <- epsilon_paths max_order;
    do lp <- optimized_linked_paths max_order;
    do up <- optimized_unlinked_paths max_order;
    Ok (spacing_line_75 ++ named_line_nl "DEFAULT FUNCTIONS" 28 ++ spacing_line_75 ++ default ++ nl
        ++ spacing_line_75 ++ named_line_nl "OPTIMIZED FUNCTIONS" 27 ++ spacing_line_75 ++ optimized
        ++ nl ++ named_line_nl "OPTIMIZED PATHS FUNCTION" 28
        ++ render_master_paths ++ nl ++ render_epsilon_paths ep ++ nl
        ++ render_linked_paths lp ++ nl ++ render_unlinked_paths up ++ nl).

  (** code_import_statements_module.py 44-57 [dt_equations_import_statements] *)
  Definition dt_equations_import_statements : string :=
    "# system imports" ++ nl ++ "from math import factorial" ++ nl ++ nl
    ++ "# third party imports" ++ nl ++ "import numpy as np" ++ nl ++ "import opt_einsum as oe" ++ nl ++ nl
    ++ "# local imports" ++ nl ++ "from ..log_conf import log" ++ nl
    ++ "from .symmetrize import symmetrize_tensor" ++ nl ++ "from . import residual_equations" ++ nl ++ nl.

  (** lines 812-825 [generate_dt_amplitude_equations_file]: the text of the file. *)
  Definition generate_dt_amplitude_equations_file (max_w_order : nat) : res string :=
    do s <- generate_dt_amplitude_string max_w_order;
    Ok (dt_equations_import_statements ++ s).
  Close Scope string_scope.
End Dt.
