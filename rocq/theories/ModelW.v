(** Model of /repo/termfactory/code_w_equations.py (lines 135-982): the
    generated python module that computes the wave operators W.

    The code builds program text directly.  Here each generating function
    returns a small syntax tree of the generated program ([contrib], [expr],
    ...) and a separate [render_*] function turns the tree into exactly the
    text the code writes (compared with the golden files in GoldenW.v).  The
    [run_*] functions give the meaning of the generated program: which
    products it adds to the W array for given ansatz and truncation flags. *)
From Verif Require Import PyBase ModelHelper.

(** ** Tables *)

(** code_w_equations.py 136-146 [t_terms]; entry 0 is [None]. *)
Definition t_term_strings : list (option string) :=
  [ None; Some "t_i"; Some "t_ij"; Some "t_ijk"; Some "t_ijkl"; Some "t_ijklm";
    Some "t_ijklmn"; Some "t_ijklmno"; Some "t_ijklmnop" ]%string.

(** [t_terms[n].string]: [IndexError] past the end; attribute access on [None]
    is reported as a [TypeErr] (python raises [AttributeError]). *)
Definition t_term_string (n : nat) : res string :=
  match nth_error t_term_strings n with
  | Some (Some s) => Ok s
  | Some None => Err TypeErr
  | None => Err IndexErr
  end.

(** code_w_equations.py 180-184 *)
Definition num_tag : list string :=
  ["zero"; "1st"; "2nd"; "3rd"; "4th"; "5th"; "6th"; "7th"; "8th"]%string.
Definition taylor_series_order_tag : list string :=
  [""; "singles"; "doubles"; "triples"; "quadruples"; "quintuples"; "sextuples"]%string.
Definition hamiltonian_order_tag : list string :=
  [""; "linear"; "quadratic"; "cubic"; "quartic"; "quintic"]%string.
Definition einsum_surface_tags : string := "acdefghi".
Definition tag_str : string := "ijklmnop".

(** [str.upper()] on the tags (lower-case ascii letters). *)
Definition upper_char (c : ascii) : ascii :=
  let n := nat_of_ascii c in
  if Nat.leb 97 n && Nat.leb n 122 then ascii_of_nat (n - 32) else c.
Definition upper (s : string) : string := of_chars (map upper_char (chars s)).

(** ** Prefactors *)

(** code_w_equations.py 149-177 [_generate_w_operator_prefactor]: the four
    shapes of text it returns.  [WPnone] is the empty string, [WPone k] is
    "1/factorial(k)", [WPmany k ns] is
    "1/(factorial(k) * factorial(n1) * ...)". *)
Inductive w_prefactor :=
| WPnone
| WPone (k : nat)
| WPmany (k : nat) (ns : list nat).

Definition generate_w_operator_prefactor (tupl : list nat) : w_prefactor :=
  if Nat.eqb (list_max tupl) 1 && Nat.eqb (List.length tupl) 1 then WPnone
  else if Nat.eqb (list_max tupl) 1 then WPone (List.length tupl)
  else if Nat.eqb (List.length tupl) 1 then WPone (list_max tupl)
  else WPmany (List.length tupl) (filter (fun n => negb (Nat.eqb n 1)) tupl).

Definition fact_text (n : nat) : string := ("factorial(" ++ str_nat n ++ ")")%string.

Definition render_prefactor (p : w_prefactor) : string :=
  match p with
  | WPnone => ""
  | WPone k => "1/" ++ fact_text k
  | WPmany k ns => "1/(" ++ join " * " (map fact_text (k :: ns)) ++ ")"
  end%string.

(** The meaning of the text in front of " * (...)": the denominator [d] of
    the factor [1/d]; [None] when the text would not be an expression. *)
Definition prefactor_denominator (p : w_prefactor) : option nat :=
  match p with
  | WPnone => None
  | WPone k => Some (factorial k)
  | WPmany k ns => Some (fold_right Nat.mul 1 (map factorial (k :: ns)))
  end.

(** ** einsum calls *)

Inductive expr :=
| Einsum (ins : list string) (out : string) (args : list string)   (* np.einsum('i1, i2->out', args) *)
| NextOpt (args : list string).                                     (* next(optimized_einsum)(args) *)

(** The operand names of a call. *)
Definition operands (e : expr) : list string :=
  match e with Einsum _ _ args => args | NextOpt args => args end.

Definition render_expr (e : expr) : string :=
  match e with
  | Einsum ins out args =>
      "np.einsum('" ++ join ", " ins ++ "->" ++ out ++ "', " ++ join ", " args ++ ")"
  | NextOpt args => "next(optimized_einsum)(" ++ join ", " args ++ ")"
  end%string.

(** code_w_equations.py 188-199 [_generate_surface_index].  (The tag string
    has 8 letters, so [max_i <= 7] makes the character access valid; the
    substring of length 1 used here is that character.) *)
Definition generate_surface_index (partition : list nat) : res (list string) :=
  let max_i := List.length partition - 1 in
  if Nat.ltb 7 max_i then Err NotImplementedErr
  else Ok (map (fun i => sslice i (i + 2) einsum_surface_tags) (range 0 max_i)
           ++ [(sslice max_i (max_i + 1) einsum_surface_tags ++ "b")%string]).

(** The [N_list.pop(0)] loop of lines 213-215: consecutive groups of letters;
    popping from the empty list raises. *)
Fixpoint pop_groups (letters : list ascii) (comb : list nat) : res (list string) :=
  match comb with
  | [] => Ok []
  | n :: ns =>
      if Nat.ltb (List.length letters) n then Err IndexErr
      else do rest <- pop_groups (skipn n letters) ns;
           Ok (of_chars (firstn n letters) :: rest)
  end.

Section W.
  Variable so : list (list nat) -> list (list nat).   (* set iteration order *)

  (** code_w_equations.py 202-216 [_generate_mode_index] *)
  Definition generate_mode_index (partition : list nat) (order : nat) : res (list (list string)) :=
    if Nat.ltb 6 order then Err NotImplementedErr
    else mapM (pop_groups (firstn order (chars tag_str))) (unique_permutations so partition).

  (** Element-wise [surf_index[a] + mode_index[i][a]] for [a] in
      [range(len(surf_index))] (lines 235, 769). *)
  Fixpoint zip_append (surf modes : list string) : res (list string) :=
    match surf, modes with
    | [], _ => Ok []
    | _ :: _, [] => Err IndexErr
    | s :: ss, m :: ms => do r <- zip_append ss ms; Ok ((s ++ m)%string :: r)
    end.

  (** [for i, tupl in enumerate(combinations)] with [mode_index[i]]. *)
  Fixpoint zip_calls (surf : list string) (out : string)
      (combs : list (list nat)) (modes : list (list string)) : res (list expr) :=
    match combs, modes with
    | [], _ => Ok []
    | _ :: _, [] => Err IndexErr
    | t :: ts, m :: ms =>
        do ins <- zip_append surf m;
        do args <- mapM t_term_string t;
        do r <- zip_calls surf out ts ms;
        Ok (Einsum ins out args :: r)
    end.

  (** code_w_equations.py 219-246 [_w_einsum_list] *)
  Definition w_einsum_list (partition : list nat) (order : nat) : res (list expr) :=
    do surf <- generate_surface_index partition;
    do modes <- generate_mode_index partition order;
    zip_calls surf ("ab" ++ sslice 0 order tag_str)%string (unique_permutations so partition) modes.

  (** code_w_equations.py 249-269 [_optimized_w_einsum_list] *)
  Definition optimized_w_einsum_list (partition : list nat) (order : nat) : res (list expr) :=
    mapM (fun t => do args <- mapM t_term_string t; Ok (NextOpt args))
         (unique_permutations so partition).

  (** ** Contributions *)

  (** One partition's block: label, optional [if truncation.<guard>:], then
      [W += prefactor * (calls)]. *)
  Record contrib := mkContrib {
    cb_tag : string;             (* text of the comment, before .upper() *)
    cb_guard : option string;    (* attribute of `truncation` tested *)
    cb_pref : w_prefactor;
    cb_oneline : bool;           (* len(partition) == order *)
    cb_calls : list expr }.

  (** Body of the loops at 341-392 and 466-517 (identical text).  The
      [len(partition) == 1] branch is unreachable for the lists passed in
      (no linked or unlinked partition has length one) and is not modelled;
      [linked_never_single]/[unlinked_never_single] in ProofsW justify it. *)
  Definition generate_contrib (order : nat) (opt : bool) (partition : list nat) : res contrib :=
    do tag <- py_nth taylor_series_order_tag (list_max partition);
    do calls <- (if opt then optimized_w_einsum_list partition order
                 else w_einsum_list partition order);
    Ok {| cb_tag := tag;
          cb_guard := if Nat.leb 2 (list_max partition) then Some tag else None;
          cb_pref := generate_w_operator_prefactor partition;
          cb_oneline := Nat.eqb (List.length partition) order;
          cb_calls := calls |}.

  (** A generated `_add_order_{order}_{vemx|vecc}_contributions` function:
      either its body is just [raise Exception(...)] or it unpacks
      [t_args] and adds contributions. *)
  Inductive contrib_fun :=
  | CFraise
  | CFbody (unpack : list string) (contribs : list contrib).

  (** code_w_equations.py 273-309 and 312-395 *)
  Definition generate_vemx_contributions (order : nat) (opt : bool) : res contrib_fun :=
    if Nat.ltb 6 order then Err NotImplementedErr
    else do names <- mapM t_term_string (range 1 order);
         if Nat.ltb order 2 then Ok CFraise
         else do cs <- mapM (generate_contrib order opt)
                            (generate_linked_disconnected_partitions_of_n so order);
              Ok (CFbody names cs).

  (** code_w_equations.py 399-435 and 438-520 *)
  Definition generate_vecc_contributions (order : nat) (opt : bool) : res contrib_fun :=
    if Nat.ltb 6 order then Err NotImplementedErr
    else do names <- mapM t_term_string (range 1 (order - 1));
         if Nat.ltb order 4 then Ok CFraise
         else do cs <- mapM (generate_contrib order opt)
                            (generate_un_linked_disconnected_partitions_of_n so order);
              Ok (CFbody names cs).

  (** ** The W function *)

  (** What a `_calculate_order_{order}_w_operator` function does:
      order 1 adds [t_i]; higher orders add the guarded VECI term, then call
      the vemx / vecc helpers depending on the ansatz, then symmetrise. *)
  Inductive w_fun :=
  | WFfirst (unpack : list string)
  | WFgen (unpack : list string)
          (veci_guard : string) (veci_pref : w_prefactor) (veci_term : string)
          (calls_vecc : bool).     (* the VECC branch also calls the vecc helper *)

  (** code_w_equations.py 524-549, 552-633 *)
  Definition write_w_function (order : nat) (opt : bool) : res w_fun :=
    if Nat.ltb 6 order then Err NotImplementedErr
    else do names <- mapM t_term_string (range 1 (order + 1));
         if Nat.eqb order 0 then Err GenericException
         else if Nat.eqb order 1 then Ok (WFfirst names)
         else do tag <- py_nth taylor_series_order_tag order;
              do term <- t_term_string order;
              Ok (WFgen names tag (generate_w_operator_prefactor [order]) term
                        (negb (Nat.ltb order 4))).

  (** ** The optimised paths *)

  (** code_w_equations.py 738-740 [_t_term_shape_string] *)
  Definition t_term_shape_string (order : nat) : string :=
    ("(" ++ join ", " (["A"; "A"] ++ repeat "N" order) ++ ")")%string.

  (** [oe.contract_expression('ins->out', shapes)] *)
  Record path := mkPath { pt_ins : list string; pt_out : string; pt_shapes : list string }.

  Definition render_path (p : path) : string :=
    ("oe.contract_expression('" ++ join ", " (pt_ins p) ++ "->" ++ pt_out p ++ "', "
      ++ join ", " (pt_shapes p) ++ ")," ++ nl)%string.

  Fixpoint zip_paths (surf : list string) (out : string)
      (combs : list (list nat)) (modes : list (list string)) : res (list path) :=
    match combs, modes with
    | [], _ => Ok []
    | _ :: _, [] => Err IndexErr
    | t :: ts, m :: ms =>
        do ins <- zip_append surf m;
        do r <- zip_paths surf out ts ms;
        Ok (mkPath ins out (map t_term_shape_string t) :: r)
    end.

  (** code_w_equations.py 743-783 [_contracted_expressions]: for each
      partition of length > 1 the pair (max of the partition, its calls). *)
  Fixpoint contracted_expressions (partition_list : list (list nat)) (order : nat)
    : res (list (nat * list path)) :=
    match partition_list with
    | [] => Ok []
    | p :: ps =>
        if Nat.eqb (List.length p) 1 then contracted_expressions ps order
        else
          do surf <- generate_surface_index p;
          do modes <- generate_mode_index p order;
          do calls <- zip_paths surf ("ab" ++ sslice 0 order tag_str)%string
                                (unique_permutations so p) modes;
          do rest <- contracted_expressions ps order;
          Ok ((list_max p, calls) :: rest)
    end.

  (** One [if truncation.<guard>: order_k_list.extend([...])] block. *)
  Record path_block := mkBlock { pb_guard : string; pb_order : nat; pb_paths : list path }.

  Definition path_blocks (order : nat) (l : list (nat * list path)) : res (list path_block) :=
    mapM (fun e => do g <- py_nth taylor_series_order_tag (fst e);
                   Ok {| pb_guard := g; pb_order := order; pb_paths := snd e |}) l.

  (** code_w_equations.py 786-836 [_write_optimized_vemx_paths_function]:
      the blocks, in order, and the returned list as list-variable orders
      ([None] stands for a literal [[]]). *)
  Definition optimized_vemx_paths (max_order : nat) : res (list path_block * list (option nat)) :=
    if Nat.ltb 6 max_order then Err NotImplementedErr
    else
      do bs <- mapM (fun order =>
                 do l <- contracted_expressions (generate_linked_disconnected_partitions_of_n so order) order;
                 path_blocks order l)
               (range 2 (max_order + 1));
      Ok (List.concat bs, None :: map Some (range 2 (max_order + 1))).

  (** code_w_equations.py 839-897 [_write_optimized_vecc_paths_function]
      (without the early return for [not truncation.doubles], which
      [run_vecc_paths] below contains). *)
  Definition optimized_vecc_paths (max_order : nat) : res (list path_block * list (option nat)) :=
    if Nat.ltb 6 max_order then Err NotImplementedErr
    else
      do bs <- mapM (fun order =>
                 do l <- contracted_expressions (generate_un_linked_disconnected_partitions_of_n so order) order;
                 path_blocks order l)
               (range 4 (max_order + 1));
      Ok (List.concat bs, [None; None; None] ++ map Some (range 4 (max_order + 1))).

  (** ** The master function *)

  (** code_w_equations.py 637-734 [_write_master_w_compute_function]: always
      the same statements, whatever [max_order] is. *)
  Inductive master_stmt :=
  | MRequire (flag : string)          (* if not truncation.flag: raise Exception *)
  | MCompute (order : nat)            (* w_k = _calculate_order_k_w_operator(...) *)
  | MStopUnless (flag : string) (computed : nat)
  | MRaise.

  Definition write_master_w_compute_function (max_order : nat) : list master_stmt :=
    [ MRequire "singles"; MCompute 1; MCompute 2; MCompute 3;
      MStopUnless "doubles" 3; MCompute 4;
      MStopUnless "triples" 4; MCompute 5;
      MStopUnless "quadruples" 5; MCompute 6;
      MStopUnless "quintuples" 6; MRaise ]%string.

  (** The functions `_calculate_order_{k}_w_operator` that
      [generate_w_operators_string] (901-966) writes into the module. *)
  Definition defined_w_functions (max_order : nat) : list nat := range 1 (max_order + 1).

  (** ** Meaning of the generated program *)

  (** One addition to the W array: the product of the operands [args] with the
      factor [1/den]; [call] keeps the whole call. *)
  Record addend := mkAdd { ad_den : option nat; ad_call : expr }.

  Definition guard_ok (trunc : string -> bool) (g : option string) : bool :=
    match g with None => true | Some f => trunc f end.

  Definition run_contrib (trunc : string -> bool) (c : contrib) : list addend :=
    if guard_ok trunc (cb_guard c)
    then map (mkAdd (prefactor_denominator (cb_pref c))) (cb_calls c)
    else [].

  (** The generated function: raises, or performs its additions. *)
  Definition run_contrib_fun (trunc : string -> bool) (f : contrib_fun) : res (list addend) :=
    match f with
    | CFraise => Err GenericException
    | CFbody _ cs => Ok (flat_map (run_contrib trunc) cs)
    end.

  Inductive ansatz := VECI | VE_MIXED | VECC.

  (** Additions made to [W_{order}] by the generated
      `_calculate_order_{order}_w_operator[_optimized]` before symmetrising.
      The plain statement [W_1 += t_i] is an addition with denominator 1;
      a single amplitude added without einsum is [Einsum [] "" [name]]. *)
  Definition plain (name : string) : expr := Einsum [] "" [name].

  Definition run_w (order : nat) (opt : bool) (an : ansatz) (trunc : string -> bool) : res (list addend) :=
    do f <- write_w_function order opt;
    match f with
    | WFfirst _ => Ok [mkAdd (Some 1) (plain "t_i")]
    | WFgen _ g pf term calls_vecc =>
        let veci := if trunc g then [mkAdd (prefactor_denominator pf) (plain term)] else [] in
        match an with
        | VECI => Ok veci
        | VE_MIXED =>
            do vf <- generate_vemx_contributions order opt;
            do v <- run_contrib_fun trunc vf;
            Ok (veci ++ v)
        | VECC =>
            do vf <- generate_vemx_contributions order opt;
            do v <- run_contrib_fun trunc vf;
            if calls_vecc then
              do uf <- generate_vecc_contributions order opt;
              do u <- run_contrib_fun trunc uf;
              Ok (veci ++ v ++ u)
            else Ok (veci ++ v)
        end
    end.

  (** Names bound when a helper or W function runs (its unpacked t_args). *)
  Definition bound_names (f : contrib_fun) : list string :=
    match f with CFraise => [] | CFbody names _ => names end.

  (** The generated `compute_optimized_vemx_paths` / `..vecc_paths`, run: the
      returned list of lists.  Blocks extend the list variable of their order. *)
  Definition run_blocks (trunc : string -> bool) (bs : list path_block) (ret : list (option nat))
    : list (list path) :=
    map (fun r => match r with
                  | None => []
                  | Some k => flat_map (fun b => if Nat.eqb (pb_order b) k && trunc (pb_guard b)
                                                 then pb_paths b else []) bs
                  end) ret.

  Definition run_vemx_paths (max_order : nat) (trunc : string -> bool) : res (list (list path)) :=
    do b <- optimized_vemx_paths max_order; Ok (run_blocks trunc (fst b) (snd b)).

  Definition run_vecc_paths (max_order : nat) (trunc : string -> bool) : res (list (list path)) :=
    do b <- optimized_vecc_paths max_order;
    if trunc "doubles"%string then Ok (run_blocks trunc (fst b) (snd b))
    else Ok (repeat [] 6).

  (** The master function: the orders it computes, or an exception
      ([KeyErr] stands for python's [NameError] on an undefined function). *)
  Fixpoint run_master (trunc : string -> bool) (defined : list nat) (acc : list nat)
      (l : list master_stmt) : res (list nat) :=
    match l with
    | [] => Ok acc
    | MRequire f :: r => if trunc f then run_master trunc defined acc r else Err GenericException
    | MCompute k :: r => if existsb (Nat.eqb k) defined
                         then run_master trunc defined (acc ++ [k]) r else Err KeyErr
    | MStopUnless f _ :: r => if trunc f then run_master trunc defined acc r else Ok acc
    | MRaise :: _ => Err NotImplementedErr
    end.

  (** ** Rendering to the text the code writes *)
  Open Scope string_scope.
  Definition q3 : string := """""""".

  (** lines 272-309 / 398-435: definition header up to the unpacking *)
  Definition render_contrib_def (kind title : string) (quirk : string) (order : nat) (opt : bool)
      (names : list string) : string :=
    let W := "W_" ++ str_nat order in
    let unpack := join ", " (names ++ ["*unusedargs"]) in
    if opt then
      nl ++ "def _add_order_" ++ str_nat order ++ "_" ++ kind ++ "_contributions_optimized(" ++ W
         ++ ", t_args, truncation, opt_path_list):" ++ nl
      ++ tab ++ q3 ++ "Calculate the order " ++ str_nat order ++ " " ++ title ++ " contributions to the W operator" ++ nl
      ++ tab ++ quirk ++ "for use in the calculation of the residuals." ++ nl
      ++ tab ++ "Uses optimized summation paths generate using `contract_expression` from the `opt_einsum` library." ++ nl
      ++ tab ++ q3 ++ nl
      ++ tab ++ "# unpack the `t_args`" ++ nl
      ++ tab ++ unpack ++ " = t_args" ++ nl
      ++ (if Nat.leb 2 order then
            tab ++ "# make an iterable out of the `opt_path_list`" ++ nl
            ++ tab ++ "optimized_einsum = iter(opt_path_list)" ++ nl
          else "")
    else
      nl ++ "def _add_order_" ++ str_nat order ++ "_" ++ kind ++ "_contributions(" ++ W ++ ", t_args, truncation):" ++ nl
      ++ tab ++ q3 ++ "Calculate the order " ++ str_nat order ++ " " ++ title ++ " contributions to the W operator" ++ nl
      ++ tab ++ "for use in the calculation of the residuals." ++ nl
      ++ tab ++ q3 ++ nl
      ++ tab ++ "# unpack the `t_args`" ++ nl
      ++ tab ++ unpack ++ " = t_args" ++ nl.

  (** lines 323-332 / 449-458: the text before the first triple quote, then
      the exception. *)
  Definition render_contrib_raise (kind first second : string) (order : nat) (opt : bool) : string :=
    let W := "W_" ++ str_nat order in
    nl ++ "def _add_order_" ++ str_nat order ++ "_" ++ kind ++ "_contributions"
       ++ (if opt then "_optimized" else "") ++ "(" ++ W ++ ", t_args, truncation"
       ++ (if opt then ", opt_path_list" else "") ++ "):" ++ nl
    ++ tab ++ q3 ++ "Exists for error checking." ++ q3 ++ nl
    ++ tab ++ "raise Exception(" ++ nl
    ++ tab ++ tab ++ """" ++ first ++ """" ++ nl
    ++ tab ++ tab ++ """" ++ second ++ """" ++ nl
    ++ tab ++ ")" ++ nl.

  (** lines 341-392 / 466-517 *)
  Definition render_contrib (order : nat) (c : contrib) : string :=
    let W := "W_" ++ str_nat order in
    let body :=
      if cb_oneline c then
        tab ++ W ++ " += " ++ render_prefactor (cb_pref c) ++ " * ("
            ++ join " + " (map render_expr (cb_calls c)) ++ ")" ++ nl
      else
        tab ++ W ++ " += " ++ render_prefactor (cb_pref c) ++ " * (" ++ nl
        ++ tab ++ tab ++ join (" +" ++ nl ++ tab ++ tab) (map render_expr (cb_calls c)) ++ nl
        ++ tab ++ ")" ++ nl in
    tab ++ "# " ++ upper (cb_tag c) ++ " contribution" ++ nl
    ++ match cb_guard c with
       | Some g => tab ++ "if truncation." ++ g ++ ":" ++ nl
                   ++ concat_str (map (fun l => tab ++ l ++ nl) (splitlines body))
       | None => body
       end.

  Definition render_vemx (order : nat) (opt : bool) (f : contrib_fun) : string :=
    match f with
    | CFraise => render_contrib_raise "vemx"
        "the first possible purely VECI/CC term is (1, 1) or (dt_i * t_i)"
        "which requires a W operator of at least 2nd order" order opt
    | CFbody names cs =>
        render_contrib_def "vemx" "VECI/CC (mixed)" "" order opt names
        ++ concat_str (map (render_contrib order) cs) ++ tab ++ "return" ++ nl
    end.

  Definition render_vecc (order : nat) (opt : bool) (f : contrib_fun) : string :=
    match f with
    | CFraise => render_contrib_raise "vecc"
        "the first possible purely VECC term is (2, 2) or (dt_ij * t_ij)"
        "which requires a W operator of at least 4th order" order opt
    | CFbody names cs =>
        render_contrib_def "vecc" "VECC" """" order opt names
        ++ concat_str (map (render_contrib order) cs) ++ tab ++ "return" ++ nl
    end.

  (** lines 524-549, 560-633 *)
  Definition render_w_function (order : nat) (opt : bool) (f : w_fun) : string :=
    let W := "W_" ++ str_nat order in
    let names := match f with WFfirst n => n | WFgen n _ _ _ _ => n end in
    let unpack := join ", " (names ++ ["*unusedargs"]) in
    let o := if opt then "_optimized" else "" in
    let vx := if opt then ", vemx_opt_path_list" else "" in
    let vc := if opt then ", vecc_opt_path_list" else "" in
    (if opt then
       nl ++ "def _calculate_order_" ++ str_nat order ++ "_w_operator_optimized(A, N, t_args, ansatz, truncation, vemx_opt_path_list, vecc_opt_path_list):" ++ nl
       ++ tab ++ q3 ++ "Calculate the order " ++ str_nat order ++ " W operator for use in the calculation of the residuals." ++ nl
       ++ tab ++ "Uses optimized summation paths generate using `contract_expression` from the `opt_einsum` library." ++ nl
       ++ tab ++ q3 ++ nl
     else
       nl ++ "def _calculate_order_" ++ str_nat order ++ "_w_operator(A, N, t_args, ansatz, truncation):" ++ nl
       ++ tab ++ q3 ++ "Calculate the order " ++ str_nat order ++ " W operator for use in the calculation of the residuals." ++ q3 ++ nl)
    ++ tab ++ "# unpack the `t_args`" ++ nl
    ++ tab ++ unpack ++ " = t_args" ++ nl
    ++ tab ++ "# Creating the " ++ nth order num_tag "" ++ " order W operator" ++ nl
    ++ tab ++ W ++ " = np.zeros((" ++ join ", " (["A"; "A"] ++ repeat "N" order)%list ++ "), dtype=complex)" ++ nl
    ++ match f with
       | WFfirst _ =>
           tab ++ "# Singles contribution" ++ nl
           ++ tab ++ W ++ " += t_i" ++ nl
           ++ tab ++ "return " ++ W ++ nl
       | WFgen _ g pf term calls_vecc =>
           let vemx_line := tab ++ tab ++ "_add_order_" ++ str_nat order ++ "_vemx_contributions" ++ o
                              ++ "(" ++ W ++ ", t_args, truncation" ++ vx ++ ")" ++ nl in
           nl
           ++ tab ++ "# add the VECI contribution" ++ nl
           ++ tab ++ "if truncation." ++ g ++ ":" ++ nl
           ++ tab ++ tab ++ W ++ " += " ++ render_prefactor pf ++ " * " ++ term ++ nl
           ++ tab ++ "if ansatz.VE_MIXED:" ++ nl
           ++ vemx_line
           ++ tab ++ "elif ansatz.VECC:" ++ nl
           ++ vemx_line
           ++ (if calls_vecc then
                 tab ++ tab ++ "_add_order_" ++ str_nat order ++ "_vecc_contributions" ++ o
                              ++ "(" ++ W ++ ", t_args, truncation" ++ vc ++ ")" ++ nl
               else tab ++ tab ++ "pass  # no VECC contributions for order < 4" ++ nl)
           ++ nl
           ++ tab ++ "# Symmetrize the W operator" ++ nl
           ++ tab ++ "symmetric_w = symmetrize_tensor(N, " ++ W ++ ", order=" ++ str_nat order ++ ")" ++ nl
           ++ tab ++ "return symmetric_w" ++ nl
       end.

  (** lines 637-734.  The code joins the trimmed lines of a literal that
      starts with a newline and ends with a line of blanks only (which the
      trimming turns into the empty line): hence the leading and trailing
      newline. *)
  Definition render_master_stmt (opt : bool) (s : master_stmt) (indent : string) : list string :=
    match s with
    | MRequire f =>
        ["    if not truncation." ++ f ++ ":";
         "        raise Exception(";
         "            ""It appears that `singles` is not true, this cannot be.\n""";
         "            ""Something went terribly wrong!!!\n\n""";
         "            f""{truncation}\n""";
         "        )"; ""]
    | MCompute k =>
        [indent ++ "w_" ++ str_nat k ++ " = _calculate_order_" ++ str_nat k ++ "_w_operator"
           ++ (if opt then "_optimized(A, N, t_args, ansatz, truncation, vemx_optimized_paths["
                 ++ str_nat (k - 1) ++ "], vecc_optimized_paths[" ++ str_nat (k - 1) ++ "])"
               else "(A, N, t_args, ansatz, truncation)")]
    | MStopUnless f k =>
        [""; "    if not truncation." ++ f ++ ":";
         "        return " ++ join ", " (map (fun i => ("w_" ++ str_nat i)%string) (range 1 (k + 1))
                                          ++ repeat "None" (6 - k))%list;
         "    else:"]
    | MRaise =>
        ["        raise NotImplementedError(";
         "            ""Attempting to calculate W^7 operator (quintuples)\n""";
         "            ""This is currently not implemented!!\n""";
         "        )"]
    end.

  Definition render_master (opt : bool) (l : list master_stmt) : string :=
    let head := "def compute_w_operators" ++ (if opt then "_optimized" else "")
                 ++ "(A, N, t_args, ansatz, truncation"
                 ++ (if opt then ", vemx_optimized_paths, vecc_optimized_paths" else "") ++ "):" in
    let fix go (ind : string) (l : list master_stmt) : list string :=
      match l with
      | [] => []
      | s :: r => (render_master_stmt opt s ind
                   ++ go (match s with MStopUnless _ _ => (tab ++ tab)%string | _ => ind end) r)%list
      end in
    join nl ([""; head; (tab ++ q3 ++ "Compute a number of W operators depending on the level of truncation." ++ q3)%string; ""]
             ++ go tab l ++ [""])%list.

  Definition render_block (b : path_block) : string :=
    tab ++ "if truncation." ++ pb_guard b ++ ":" ++ nl
    ++ tab ++ tab ++ "order_" ++ str_nat (pb_order b) ++ "_list.extend([" ++ nl
    ++ concat_str (map (fun p => tab ++ tab ++ tab ++ render_path p) (pb_paths b))
    ++ tab ++ tab ++ "])" ++ nl ++ nl.

  Definition render_ret (l : list (option nat)) : string :=
    join ", " (map (fun r => match r with None => "[]" | Some k => "order_" ++ str_nat k ++ "_list" end) l).

  Definition render_vemx_paths (b : list path_block * list (option nat)) : string :=
    nl ++ "def compute_optimized_vemx_paths(A, N, truncation):" ++ nl
    ++ tab ++ q3 ++ "Calculate optimized paths for the VECI/CC (mixed) einsum calls up to `highest_order`." ++ q3 ++ nl
    ++ nl
    ++ tab ++ "order_2_list, order_3_list = [], []" ++ nl
    ++ tab ++ "order_4_list, order_5_list, order_6_list = [], [], []" ++ nl
    ++ nl
    ++ concat_str (map render_block (fst b))
    ++ nl ++ tab ++ "return [" ++ render_ret (snd b) ++ "]" ++ nl.

  Definition render_vecc_paths (b : list path_block * list (option nat)) : string :=
    nl ++ "def compute_optimized_vecc_paths(A, N, truncation):" ++ nl
    ++ tab ++ q3 ++ "Calculate optimized paths for the VECC einsum calls up to `highest_order`." ++ q3 ++ nl
    ++ nl
    ++ tab ++ "order_4_list, order_5_list, order_6_list = [], [], []" ++ nl
    ++ nl
    ++ tab ++ "if not truncation.doubles:" ++ nl
    ++ tab ++ tab ++ "log.warning('Did not calculate optimized VECC paths of the dt amplitudes')" ++ nl
    ++ tab ++ tab ++ "return [[], [], [], [], [], []]" ++ nl
    ++ nl
    ++ concat_str (map render_block (fst b))
    ++ nl ++ tab ++ "return [" ++ render_ret (snd b) ++ "]" ++ nl.

  (** lines 901-966 [generate_w_operators_string] with the default widths;
      the local [named_line] ends with a newline. *)
  Definition named_line_nl (name : string) (w : nat) : string := named_line name w ++ nl.

  Definition generate_w_operators_string (max_order : nat) : res string :=
    let orders := range 1 (max_order + 1) in
    let half (opt : bool) :=
      do vx <- mapM (fun o => do f <- generate_vemx_contributions o opt; Ok (render_vemx o opt f)) orders;
      do vc <- mapM (fun o => do f <- generate_vecc_contributions o opt; Ok (render_vecc o opt f)) orders;
      do w <- mapM (fun o => do f <- write_w_function o opt; Ok (render_w_function o opt f)) orders;
      Ok (nl ++ named_line_nl "VECI/CC CONTRIBUTIONS" 28 ++ concat_str vx
          ++ nl ++ named_line_nl "VECC CONTRIBUTIONS" 28 ++ concat_str vc
          ++ nl ++ named_line_nl "W OPERATOR FUNCTIONS" 28 ++ concat_str w
          ++ render_master opt (write_master_w_compute_function max_order) ++ nl) in
    do default <- half false;
    do optimized <- half true;
    do vxp <- optimized_vemx_paths max_order;
    do vcp <- optimized_vecc_paths max_order;
    Ok (spacing_line_75 ++ named_line_nl "DEFAULT FUNCTIONS" 28 ++ spacing_line_75 ++ default
        ++ spacing_line_75 ++ named_line_nl "OPTIMIZED FUNCTIONS" 27 ++ spacing_line_75 ++ optimized
        ++ nl ++ named_line_nl "OPTIMIZED PATHS FUNCTION" 28
        ++ render_vemx_paths vxp ++ nl ++ render_vecc_paths vcp ++ nl).

  (** code_import_statements_module.py 75-87 [w_equations_import_statements] *)
  Definition w_equations_import_statements : string :=
    "# system imports" ++ nl ++ "from math import factorial" ++ nl ++ nl
    ++ "# third party imports" ++ nl ++ "import numpy as np" ++ nl ++ "import opt_einsum as oe" ++ nl ++ nl
    ++ "# local imports" ++ nl ++ "from .symmetrize import symmetrize_tensor" ++ nl
    ++ "from ..log_conf import log" ++ nl ++ nl.

  (** lines 969-982 [generate_w_operator_equations_file]: the text of the file. *)
  Definition generate_w_operator_equations_file (max_w_order : nat) : res string :=
    do s <- generate_w_operators_string max_w_order;
    Ok (w_equations_import_statements ++ s).
  Close Scope string_scope.
End W.
