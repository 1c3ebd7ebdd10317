(** Model of /repo/termfactory/code_full_cc.py: python code of the full
    coupled cluster equations. *)
From Verif Require Import PyBase ModelHelper ModelW ModelFullCC ModelPrefactor.

(** common_imports.py 26-27 *)
Definition summation_indices : string := "ijklmnopqr".
Definition unlinked_indices : string := "zyxwvuts".

(** lines 49-51 [_rank_of_t_term_namedtuple] *)
Definition rank_of_t (t : tamp) : nat := m_h t + n_h t + m_o t + n_o t.

(** lines 55-66 [_full_cc_einsum_electronic_components]; only the length of
    the list matters.  Line 64 takes character 0 of the last string. *)
Definition electronic_components (k : nat) : res (list string) :=
  let comps := "ac"%string :: map (fun i => sslice i (i + 2) "cdefgh") (range 0 k) in
  match List.last comps ""%string with
  | EmptyString => Err IndexErr
  | String c _ => Ok (removelast comps ++ [String c "b"])
  end.

(** lines 69-85 [_build_h_term_python_labels] (condense_offset is 0 in every
    call).  The subtractions h.m - h.m_o and h.n - h.n_o are natural here;
    they are never negative for the terms of [full_cc_terms]. *)
Definition h_labels (h : chop) : string * string :=
  if Nat.eqb (ch_rank h) 0 then (""%string, ""%string)
  else
    let h_offset := ch_m h - ch_m_o h in
    ((sslice 0 h_offset summation_indices
      +++ sslice h_offset (h_offset + (ch_n h - ch_n_o h)) summation_indices)%list,
     (sslice 0 (ch_m_o h) unlinked_indices
      +++ sslice (ch_m_o h) (ch_m_o h + ch_n_o h) unlinked_indices)%list).

(** The [offset_dict] of lines 88-136. *)
Record offsets := mkoff { o_upper : nat; o_lower : nat; o_unlinked : nat }.

(** lines 92-101 *)
Definition t_lower_labels (t : tamp) (o : offsets) : string * string * offsets :=
  if Nat.ltb 0 (n_h t) || Nat.ltb 0 (n_o t) then
    let a := o_lower o in
    let b := o_unlinked o in
    (sslice a (a + n_h t) summation_indices, sslice b (b + n_o t) unlinked_indices,
     mkoff (o_upper o) (o_lower o + n_h t) (o_unlinked o + n_o t))
  else (""%string, ""%string, o).

(** lines 103-112 *)
Definition t_upper_labels (t : tamp) (o : offsets) : string * string * offsets :=
  if Nat.ltb 0 (m_h t) || Nat.ltb 0 (m_o t) then
    let a := o_upper o in
    let b := o_unlinked o in
    (sslice a (a + m_h t) summation_indices, sslice b (b + m_o t) unlinked_indices,
     mkoff (o_upper o + m_h t) (o_lower o) (o_unlinked o + m_o t))
  else (""%string, ""%string, o).

(** lines 88-114 [_build_t_term_python_labels] *)
Definition t_labels (t : tamp) (o : offsets) : string * string * offsets :=
  let '(s1, u1, o1) := t_lower_labels t o in
  let '(s2, u2, o2) := t_upper_labels t o1 in
  ((s1 +++ s2)%list, (u1 +++ u2)%list, o2).

(** lines 130-134 *)
Fixpoint t_group_loop (ts : list tamp) (o : offsets) : list (string * string) :=
  match ts with
  | [] => []
  | t :: r => let '(s, u, o') := t_labels t o in (s, u) :: t_group_loop r o'
  end.

(** lines 117-136 [_build_t_term_python_group] *)
Definition t_group (ts : list tamp) (h : chop) : list (string * string) :=
  t_group_loop ts (mkoff (ch_m h - ch_m_o h) 0 (ch_m_o h + ch_n_o h)).

(** lines 139-157 [_full_cc_einsum_vibrational_components] *)
Definition vibrational_components (h : chop) (ts : list tamp) : list string * string :=
  let '(hs, hu) := h_labels h in
  let g := t_group ts h in
  ((hs +++ hu)%list :: map (fun su => (fst su +++ snd su)%list) g,
   concat_str (hu :: map snd g)).

(** ** Prefactor *)

(** A prefactor: the arguments of the factorials of the numerator and of the
    denominator. *)
Definition prefactor : Type := list nat * list nat.

Section SetOrder.
  Variable so : list nat -> list nat.  (* order of a set of factorial strings *)

  (** lines 241-302 [_build_full_cc_python_prefactor] without the glueing;
      [set(connected_ts)] is only counted.  The factors are python strings
      'factorial(n)'; the model keeps n, which the string determines. *)
  Definition build_prefactor (h : chop) (ts : list tamp) : prefactor :=
    if is_bare_h ts then ([], [])
    else
      let connected_ts := filter (fun t => Nat.ltb 0 (m_h t) || Nat.ltb 0 (n_h t)) ts in
      let x := List.length (dedup tamp_eqb connected_ts) in
      let num := if Nat.ltb 1 x then [x] else [] in
      let den := (if Nat.ltb 1 (ch_m h) then [ch_m h] else [])
                 ++ (if Nat.ltb 1 (ch_n h) then [ch_n h] else [])
                 ++ (if Nat.ltb 1 (List.length ts) then [List.length ts] else []) in
      simplify_prefactor Nat.eqb so num den.
End SetOrder.

(** lines 304-311 *)
Definition glue (l : list nat) : string :=
  match l with
  | [] => "1"
  | _ => ("(" ++ join " * " (map fact_text l) ++ ")")%string
  end.
Definition render_full_prefactor (p : prefactor) : string :=
  let numerator := glue (fst p) in
  let denominator := glue (snd p) in
  if String.eqb numerator "1" && String.eqb denominator "1" then ""
  else (numerator ++ "/" ++ denominator ++ " * ")%string.

(** ** Calls *)

(** A call np.einsum(...) of the default code. *)
Record einsum := mkeinsum {
  e_inputs : list string;      (* subscripts of the operands *)
  e_output : string;           (* subscripts of the result *)
  e_h : nat * nat;             (* h_args[(m, n)] *)
  e_ts : list (nat * nat)      (* t_args[(m, n)] *)
}.

Definition pair_text (mn : nat * nat) : string :=
  ("(" ++ str_nat (fst mn) ++ ", " ++ str_nat (snd mn) ++ ")")%string.
Definition h_text (mn : nat * nat) : string := ("h_args[" ++ pair_text mn ++ "]")%string.
Definition t_text (mn : nat * nat) : string := ("t_args[" ++ pair_text mn ++ "]")%string.

(** lines 425-426 and the like *)
Definition render_einsum (e : einsum) : string :=
  ("np.einsum('" ++ join ", " (e_inputs e) ++ " -> " ++ e_output e ++ "', "
   ++ h_text (e_h e) ++ ", " ++ join ", " (map t_text (e_ts e)) ++ ")")%string.

(** A call next(optimized_einsum)(...) of the optimised code (line 428). *)
Record next_call := mknext { n_hop : nat * nat; n_ts : list (nat * nat) }.
Definition render_next (c : next_call) : string :=
  ("next(optimized_einsum)(" ++ h_text (n_hop c) ++ ", " ++ join ", " (map t_text (n_ts c)) ++ ")")%string.

(** A call oe.contract_expression(...) of the path functions: the number of
    N's in each shape (lines 800-802, 846, 878). *)
Definition path_call : Type := list nat.
Definition shape_string (order : nat) : string :=
  ("(" ++ join ", " (["A"; "A"]%string ++ repeat "N"%string order)%list ++ ")")%string.
Definition render_path (c : path_call) : string :=
  ("oe.contract_expression(" ++ join ", " (map shape_string c) ++ ")")%string.

Definition t_operand (t : tamp) : nat * nat := (m_h t + m_o t, n_h t + n_o t).

(** lines 315-344 [_multiple_perms_logic] *)
Inductive perms_kind :=
| NoPerms
| OneKind (ps : list (list nat))
| SeveralKinds (ps : list (list nat)).

Section Perms.
  Variable son : list (list nat) -> list (list nat).  (* order of a set of tuples of integers *)
  Variable soc : list (list ascii) -> list (list ascii).  (* order of a set of tuples of letters *)

  Definition multiple_perms_logic (ts : list tamp) : res perms_kind :=
    match List.length (dedup tamp_eqb ts), List.length ts with
    | 1, 1 => Ok NoPerms
    | 1, k => Ok (OneKind (unique_permutations son (range 0 k)))
    | 0, _ => Err GenericException
    | _, k => Ok (SeveralKinds (unique_permutations son (range 0 k)))
    end.

  (** python's <= of one-letter strings *)
  Definition ascii_leb (a b : ascii) : bool := Nat.leb (nat_of_ascii a) (nat_of_ascii b).

  (** [unique_permutations(remaining_indices)]: only its length is used, since
      the loops of lines 434-444 and 894-900 do not mention [perm]. *)
  Definition letter_permutations (s : string) : list (list ascii) :=
    unique_permutations_gen Ascii.eqb ascii_leb soc (chars s).

  (** [f"{e_a[0]}{v_a[0]}"] followed by [f"{e_a[i+1]}{v_a[p+1]}" for i, p in
      enumerate(perm)], lines 461 and 484 *)
  Definition permuted_subscripts (e_a v_a : list string) (perm : list nat) : res (list string) :=
    do e0 <- py_nth e_a 0;
    do v0 <- py_nth v_a 0;
    do r <- mapM (fun ip => do e <- py_nth e_a (fst ip + 1);
                            do v <- py_nth v_a (snd ip + 1);
                            Ok ((e +++ v)%list))
                 (combine (range 0 (List.length perm)) perm);
    Ok ((e0 +++ v0)%list :: r).

  (** lines 393-493, not optimised: the calls of one term that is not a bare
      h. *)
  Definition einsum_calls (t : term) : res (list einsum) :=
    let '(omega, h, ts) := t in
    let hop := (ch_m h, ch_n h) in
    do pk <- multiple_perms_logic ts;
    do e_a <- electronic_components (List.length ts);
    let '(v_a, remaining_indices) := vibrational_components h ts in
    let out := ("ab" +++ remaining_indices)%list in
    match pk with
    | NoPerms =>
        do ins <- mapM (fun i => do e <- py_nth e_a i; do v <- py_nth v_a i; Ok ((e +++ v)%list))
                       (range 0 (List.length e_a));
        let c := mkeinsum ins out hop (map t_operand ts) in
        if String.eqb remaining_indices "" then Ok [c]
        else Ok (map (fun _ => c) (letter_permutations remaining_indices))
    | OneKind ps =>
        mapM (fun perm =>
          do ins <- permuted_subscripts e_a v_a perm;
          Ok (mkeinsum ins out hop (map t_operand ts))) ps
    | SeveralKinds ps =>
        mapM (fun perm =>
          do tsp <- mapM (py_nth ts) perm;
          do ins <- permuted_subscripts e_a v_a perm;
          Ok (mkeinsum ins out hop (map t_operand tsp))) ps
    end.

  (** The same lines with opt_einsum: the subscripts are computed but not
      printed. *)
  Definition next_calls (t : term) : res (list next_call) :=
    let '(omega, h, ts) := t in
    let hop := (ch_m h, ch_n h) in
    do pk <- multiple_perms_logic ts;
    do e_a <- electronic_components (List.length ts);
    let '(v_a, remaining_indices) := vibrational_components h ts in
    match pk with
    | NoPerms =>
        let c := mknext hop (map t_operand ts) in
        if String.eqb remaining_indices "" then Ok [c]
        else Ok (map (fun _ => c) (letter_permutations remaining_indices))
    | OneKind ps => Ok (map (fun _ => mknext hop (map t_operand ts)) ps)
    | SeveralKinds ps =>
        mapM (fun perm => do tsp <- mapM (py_nth ts) perm; Ok (mknext hop (map t_operand tsp))) ps
    end.

  (** lines 843-932: the path expressions of one term that is not a bare h.
      [assert h.rank == h.m + h.n] comes first. *)
  Definition path_calls (t : term) : res (list path_call) :=
    let '(omega, h, ts) := t in
    let hop := ch_m h + ch_n h in
    do pk <- multiple_perms_logic ts;
    match pk with
    | NoPerms =>
        let '(_, remaining_indices) := vibrational_components h ts in
        let c := hop :: map rank_of_t ts in
        if String.eqb remaining_indices "" then Ok [c]
        else Ok (map (fun _ => c) (letter_permutations remaining_indices))
    | OneKind ps => Ok (map (fun _ => hop :: map rank_of_t ts) ps)
    | SeveralKinds ps =>
        mapM (fun perm => do tsp <- mapM (py_nth ts) perm; Ok (hop :: map rank_of_t tsp)) ps
    end.
End Perms.

(** ** Buckets *)

(** [hamiltonian_rank_list[i][j][prefactor]]: the calls filed under h rank i,
    t rank j and prefactor.  The code has a list of dictionaries of
    dictionaries; the model keeps one list of entries (i, j, prefactor,
    calls) in the order in which the keys were first used.  Selecting the
    entries of given i and j gives python's dictionary in insertion order. *)
Section Buckets.
  Context {C : Type}.
  Definition entry : Type := nat * nat * prefactor * list C.

  (** Two prefactors are the same key iff their texts are equal. *)
  Definition same_key (i j : nat) (p : prefactor) (e : entry) : bool :=
    let '(i', j', p', _) := e in
    Nat.eqb i i' && Nat.eqb j j' && String.eqb (render_full_prefactor p) (render_full_prefactor p').

  (** lines 411 and 870 [hamiltonian_rank_list[...][...][prefactor] = []]
      followed by the appends of the calls of this term: the list of the key is
      replaced, its position kept. *)
  Fixpoint file_calls (i j : nat) (p : prefactor) (calls : list C) (d : list entry) : list entry :=
    match d with
    | [] => [(i, j, p, calls)]
    | e :: r => if same_key i j p e then (i, j, snd (fst e), calls) :: r
                else e :: file_calls i j p calls r
    end.

  Variable so : list nat -> list nat.
  Variable calls_of : term -> res (list C).
  Variable maximum_h_rank maximum_cc_rank : nat.

  (** lines 383-493 and 841-932, one term that is not a bare h: an h rank
      beyond the list is an IndexError, a t rank beyond the dictionary a
      KeyError. *)
  Definition file_term (t : term) (d : list entry) : res (list entry) :=
    let '(omega, h, ts) := t in
    let i := Nat.max (ch_m h) (ch_n h) in
    let j := list_max (map rank_of_t ts) in
    if Nat.ltb maximum_h_rank i then Err IndexErr
    else if Nat.ltb maximum_cc_rank j then Err KeyErr
    else
      do calls <- calls_of t;
      Ok (file_calls i j (build_prefactor so h ts) calls d).

  Fixpoint fill_buckets (ts : list term) (d : list entry) : res (list entry) :=
    match ts with
    | [] => Ok d
    | t :: r =>
        if is_bare_h (snd t) then fill_buckets r d
        else do d' <- file_term t d; fill_buckets r d'
    end.

  Definition bucket (d : list entry) (i j : nat) : list (prefactor * list C) :=
    map (fun e => (snd (fst e), snd e))
      (filter (fun e => Nat.eqb (fst (fst (fst e))) i && Nat.eqb (snd (fst (fst e))) j) d).
End Buckets.

(** ** The generated function bodies *)

(** A body: bare Hamiltonian terms, then blocks.  [BSum] is
    [R += prefactor(call + call + ...)] in the compute functions and
    [list.extend([...])] in the path functions, [BIfT j] the test of the flag
    of t rank j, [BIfH i] that of h rank i with the blank line before it. *)
Inductive block (C : Type) :=
| BBare (h : nat * nat)
| BSum (p : prefactor) (calls : list C)
| BIfT (j : nat) (sums : list (prefactor * list C))
| BIfH (i : nat) (sums : list (prefactor * list C)) (ifs : list (nat * list (prefactor * list C)))
| BPass.
Arguments BBare {C}. Arguments BSum {C}. Arguments BIfT {C}. Arguments BIfH {C}. Arguments BPass {C}.

Section Blocks.
  Context {C : Type}.
  Variable maximum_h_rank maximum_cc_rank : nat.

  (** Indexing [string_list[0]] of an empty list (lines 537, 975). *)
  Definition sums_ok (l : list (prefactor * list C)) : res (list (prefactor * list C)) :=
    mapM (fun pc => match snd pc with [] => Err IndexErr | _ => Ok pc end) l.

  (** lines 545-558, 575-588, 983-996, 1013-1026: the tests of t rank 1.. for
      one h rank; the tag is looked up only for a non-empty dictionary. *)
  Definition t_ifs (d : list (@entry C)) (i : nat) : res (list (nat * list (prefactor * list C))) :=
    do l <- mapM (fun j =>
        match bucket d i j with
        | [] => Ok []
        | b => do _ <- py_nth taylor_series_order_tag j;
               do s <- sums_ok b;
               Ok [(j, s)]
        end) (range 1 (maximum_cc_rank + 1));
    Ok (List.concat l).

  (** lines 541-596 and 979-1034; the tag of h is looked up for every rank,
      a header without code is dropped. *)
  Definition bucket_blocks (d : list (@entry C)) : res (list (block C)) :=
    do s00 <- sums_ok (bucket d 0 0);
    do ifs0 <- t_ifs d 0;
    do hs <- mapM (fun i =>
        do _ <- py_nth hamiltonian_order_tag i;
        do s <- sums_ok (bucket d i 0);
        do ifs <- t_ifs d i;
        Ok (match s, ifs with [], [] => [] | _, _ => [BIfH i s ifs] end))
      (range 1 (maximum_h_rank + 1));
    Ok (map (fun pc => BSum (fst pc) (snd pc)) s00
        ++ map (fun js => BIfT (fst js) (snd js)) ifs0
        ++ List.concat hs).
End Blocks.

Section Bodies.
  Variable so : list nat -> list nat.
  Variable son : list (list nat) -> list (list nat).
  Variable soc : list (list ascii) -> list (list ascii).
  Variable maximum_h_rank maximum_cc_rank : nat.

  (** lines 347-598 [_write_cc_einsum_python_from_list], generic in the calls
      (np.einsum or next). *)
  Definition write_cc_einsum_python_from_list {C} (calls_of : term -> res (list C)) (l : list term)
    : res (list (block C)) :=
    match l with
    | [] => Ok [BPass]
    | _ =>
        do d <- fill_buckets so calls_of maximum_h_rank maximum_cc_rank l [];
        do b <- bucket_blocks maximum_h_rank maximum_cc_rank d;
        Ok (map (fun t => BBare (ch_m (snd (fst t)), ch_n (snd (fst t))))
                (filter (fun t => is_bare_h (snd t)) l) ++ b)
    end.

  (** lines 805-1039 [_write_cc_optimized_paths_from_list] *)
  Definition write_cc_optimized_paths_from_list (l : list term) : res (list (block path_call)) :=
    match l with
    | [] => Ok [BPass]
    | _ =>
        do _ <- mapM (fun t => let h := snd (fst t) in
                       if Nat.eqb (ch_rank h) (ch_m h + ch_n h) then Ok tt else Err AssertionErr) l;
        do d <- fill_buckets so (path_calls son soc) maximum_h_rank maximum_cc_rank l [];
        do b <- bucket_blocks maximum_h_rank maximum_cc_rank d;
        Ok (match b with [] => [BPass] | _ => b end)
    end.
End Bodies.

(** ** Text *)

(** [f"{omega_term}"] of a namedtuple *)
Definition operator_text (o : gop) : string :=
  ("operator(name='" ++ g_name o ++ "', rank=" ++ str_nat (g_rank o) ++ ", m=" ++ str_nat (g_m o)
   ++ ", n=" ++ str_nat (g_n o) ++ ")")%string.

Definition tabs (n : nat) : string := str_repeat tab n.

(** lines 503-539 [_handle_multiline_same_prefactor] *)
Definition render_sum {C} (render : C -> string) (nof_tabs : nat) (pc : prefactor * list C) : list string :=
  let '(p, calls) := pc in
  let tabber := tabs nof_tabs in
  match calls with
  | [c] => [(tabber ++ "R += " ++ render_full_prefactor p ++ render c)%string]
  | _ =>
      (tabber ++ "R += " ++ render_full_prefactor p ++ "(")%string
      :: map (fun c => (tabber ++ tab ++ render c ++ " +")%string) (removelast calls)
      ++ map (fun c => (tabber ++ tab ++ render c)%string) (match rev calls with [] => [] | c :: _ => [c] end)
      ++ [(tabber ++ ")")%string]
  end.

(** lines 941-977 [_handle_multiline_same_prefactor] of the paths *)
Definition render_extend {C} (render : C -> string) (list_name : string) (nof_tabs : nat)
    (pc : prefactor * list C) : list string :=
  let '(p, calls) := pc in
  let tabber := tabs nof_tabs in
  match calls with
  | [c] => [(tabber ++ list_name ++ ".append(" ++ render c ++ ")")%string]
  | _ =>
      (tabber ++ list_name ++ ".extend([")%string
      :: map (fun c => (tabber ++ tab ++ render c ++ ",")%string) (removelast calls)
      ++ map (fun c => (tabber ++ tab ++ render c)%string) (match rev calls with [] => [] | c :: _ => [c] end)
      ++ [(tabber ++ "])")%string]
  end.

Definition tag_t (j : nat) : string := nth j taylor_series_order_tag ""%string.
Definition tag_h (i : nat) : string := nth i hamiltonian_order_tag ""%string.

Definition render_ift {C} (sum : nat -> prefactor * list C -> list string) (nof_tabs : nat)
    (js : nat * list (prefactor * list C)) : list string :=
  (tabs nof_tabs ++ "if truncation." ++ tag_t (fst js) ++ ":")%string
  :: flat_map (sum (nof_tabs + 1)) (snd js).

(** The lines of a body (lines 541-598). *)
Definition render_block {C} (sum : nat -> prefactor * list C -> list string) (b : block C) : list string :=
  match b with
  | BBare h => [("R += " ++ h_text h)%string]
  | BSum p calls => sum 0 (p, calls)
  | BIfT j sums => render_ift sum 0 (j, sums)
  | BIfH i sums ifs =>
      ""%string :: ("if truncation.at_least_" ++ tag_h i ++ ":")%string
      :: flat_map (sum 1) sums ++ flat_map (render_ift sum 1) ifs
  | BPass => ["pass  # no valid terms here"%string]
  end.
Definition render_body {C} (sum : nat -> prefactor * list C -> list string) (l : list (block C)) : list string :=
  flat_map (render_block sum) l.

(** lines 672, 797 *)
Definition term_types : list string := ["fully_connected"; "linked_disconnected"; "unlinked_disconnected"]%string.
(** line 669 *)
Definition optnames : list string := ["connected"; "linked"; "unlinked"]%string.

Definition specifier (o : gop) : string := ("m" ++ str_nat (g_m o) ++ "_n" ++ str_nat (g_n o))%string.

Definition hot_band : string :=
  "raise NotImplementedError('Hot Band amplitudes not implemented properly and have not been theoretically verified!')".

(** A body inside the function: [five_tab.join], three indents removed, each
    line right-stripped. *)
Definition indent_body (lines : list string) : list string :=
  map (fun l => rstrip (tabs 2 ++ l)%string) lines.

Section Functions.
  Variable sot : list (list tamp) -> list (list tamp).
  Variable so : list nat -> list nat.
  Variable son : list (list nat) -> list (list nat).
  Variable soc : list (list ascii) -> list (list ascii).

  (** The truncations H, CC, S, P. *)
  Variable maximum_h_rank maximum_cc_rank s_taylor_max_order omega_max_order : nat.

  (** lines 601-628 and 1042-1069: the three groups of terms of a projection
      operator; f terms are always removed. *)
  Definition python_groups (omega : gop) (only_ground_state : bool)
    : res (list term * list term * list term) :=
    do l <- full_cc_terms sot omega maximum_h_rank maximum_cc_rank s_taylor_max_order only_ground_state true;
    seperate_s_terms_by_connection l.

  (** lines 601-640 [_generate_full_cc_einsums] *)
  Definition generate_full_cc_bodies {C} (calls_of : term -> res (list C)) (omega : gop)
      (only_ground_state : bool) : res (list (list (block C))) :=
    do g <- python_groups omega only_ground_state;
    let '(fully, linked, unlinked) := g in
    mapM (write_cc_einsum_python_from_list so maximum_h_rank maximum_cc_rank calls_of)
         [fully; linked; unlinked].
  Definition generate_full_cc_einsums := generate_full_cc_bodies (einsum_calls son soc).
  Definition generate_full_cc_nexts := generate_full_cc_bodies (next_calls son soc).

  (** lines 1042-1077 [_generate_full_cc_optimized_paths] *)
  Definition generate_full_cc_optimized_paths (omega : gop) (only_ground_state : bool)
    : res (list (list (block path_call))) :=
    do g <- python_groups omega only_ground_state;
    let '(fully, linked, unlinked) := g in
    mapM (write_cc_optimized_paths_from_list so son soc maximum_h_rank maximum_cc_rank)
         [fully; linked; unlinked].

  (** lines 643-725 [_generate_full_cc_compute_functions]; the flag
      only_ground_state of the caller is not used: the bodies are always those
      of the ground state (line 657).  The text is written here line by line
      without the three indents that line 720 removes. *)
  Definition compute_function_text (omega : gop) (opt : bool) (i : nat) (body : list string) : list string :=
    let term_type := nth i term_types ""%string in
    let optname := nth i optnames ""%string in
    ([ ""%string;
       ("def add_" ++ specifier omega ++ "_" ++ term_type ++ "_terms" ++ (if opt then "_optimized" else "")
        ++ "(R, ansatz, truncation, h_args, t_args"
        ++ (if opt then ", opt_" ++ optname ++ "_path_list" else "") ++ "):")%string;
       (tab ++ """""""" ++ (if opt then "Optimized calculation of" else "Calculate") ++ " the "
        ++ operator_text omega ++ " " ++ term_type ++ " terms.""""""")%string;
       ""%string ]
     ++ (if opt
         then [ (tab ++ "# make an iterable out of the `opt_" ++ optname ++ "_path_list`")%string;
                (tab ++ "optimized_einsum = iter(opt_" ++ optname ++ "_path_list)")%string; ""%string ]
         else [])
     ++ [ (tab ++ "if ansatz.ground_state:")%string ]
     ++ indent_body body
     ++ [ (tab ++ "else:")%string; (tabs 2 ++ hot_band)%string; (tab ++ "return")%string; ""%string ])%list.

  Definition number {A} (l : list A) : list (nat * A) := combine (range 0 (List.length l)) l.

  Definition generate_full_cc_compute_functions (omega : gop) (opt : bool) : res string :=
    do bodies <- (if opt
                  then do b <- generate_full_cc_nexts omega true;
                       Ok (map (render_body (render_sum render_next)) b)
                  else do b <- generate_full_cc_einsums omega true;
                       Ok (map (render_body (render_sum render_einsum)) b));
    Ok (concat_str (map (fun ib => (join nl (compute_function_text omega opt (fst ib) (snd ib)) +++ nl)%list)
                        (number bodies))).

  (** lines 1080-1131 [_generate_optimized_paths_functions] *)
  Definition path_function_text (omega : gop) (i : nat) (body : list string) : list string :=
    let term_type := nth i term_types ""%string in
    ([ ""%string;
       ("def compute_" ++ specifier omega ++ "_" ++ term_type
        ++ "_optimized_paths(A, N, ansatz, truncation):")%string;
       (tab ++ """""""Calculate optimized einsum paths for the " ++ term_type ++ " terms.""""""")%string;
       ""%string;
       (tab ++ term_type ++ "_opt_path_list = []")%string;
       ""%string;
       (tab ++ "if ansatz.ground_state:")%string ]
     ++ indent_body body
     ++ [ (tab ++ "else:")%string; (tabs 2 ++ hot_band)%string; ""%string;
          (tab ++ "return " ++ term_type ++ "_opt_path_list")%string; ""%string ])%list.

  Definition generate_optimized_paths_functions (omega : gop) : res string :=
    do b <- generate_full_cc_optimized_paths omega true;
    Ok (concat_str (map (fun ib =>
          let name := (nth (fst ib) term_types ""%string +++ "_opt_path_list")%list in
          (join nl (path_function_text omega (fst ib)
                      (render_body (render_extend render_path name) (snd ib))) +++ nl)%list)
        (number b))).

  Definition width2 (n : nat) : string :=
    if Nat.ltb n 10 then (" " ++ str_nat n)%string else str_nat n.

  (** lines 729-744 and 1134-1149: the header of a rank is printed when the
      rank exceeds that of the previous operator in the list; for i = 0 that
      is the last one. *)
  Definition wrap_generation (ops : list gop) (rank_name name : string) (s : nat)
      (body : gop -> res string) : res string :=
    do l <- mapM (fun io =>
        let '(i, o) := io in
        let prev := match i with 0 => List.last ops o | S k => nth k ops o end in
        do b <- body o;
        Ok ((if Nat.ltb (g_rank prev) (g_rank o)
             then spaced_named_line ("RANK " +++ width2 (g_rank o) +++ " " +++ rank_name) s +++ nl else "")
            +++ nl +++ named_line (operator_text o +++ " " +++ name) (Nat.div s 2) +++ b)%list)
      (number ops);
    Ok (concat_str l).

  (** lines 747-793 [_write_master_full_cc_compute_function] *)
  Definition master_compute_function (o : gop) (opt : bool) : string :=
    let sp := specifier o in
    let suffix := if opt then "_optimized"%string else ""%string in
    let arg i := if opt then (", opt_" ++ nth i optnames "" ++ "_path_list")%string else ""%string in
    join nl
      ([ ""%string;
         ("def compute_" ++ sp ++ "_amplitude" ++ suffix ++ "(A, N, ansatz, truncation, h_args, t_args"
          ++ (if opt then ", opt_path_lists" else "") ++ "):")%string;
         (tab ++ """""""Compute the " ++ operator_text o ++ " amplitude.""""""")%string;
         (tab ++ "truncation.confirm_at_least_singles()")%string;
         ""%string;
         (tab ++ "# the residual tensor")%string;
         (tab ++ "R = np.zeros(shape=" ++ shape_string (g_rank o) ++ ", dtype=complex)")%string;
         ""%string ]
       ++ (if opt
           then [ (tab ++ "# unpack the optimized paths")%string;
                  (tab ++ "opt_connected_path_list, opt_linked_path_list, opt_unlinked_path_list = opt_path_lists["
                   ++ pair_text (g_m o, g_n o) ++ "]")%string;
                  ""%string ]
           else [])
       ++ [ (tab ++ "# add each of the terms")%string ]
       ++ map (fun i => (tab ++ "add_" ++ sp ++ "_" ++ nth i term_types "" ++ "_terms" ++ suffix
                         ++ "(R, ansatz, truncation, h_args, t_args" ++ arg i ++ ")")%string) [0; 1; 2]
       ++ [ (tab ++ "return R")%string; ""%string; ""%string ])%list.

  (** lines 1152-1182 [_write_grouped_optimized_paths_function] *)
  Definition grouped_paths_function (o : gop) : string :=
    let sp := specifier o in
    join nl
      ([ ""%string;
         ("def compute_" ++ sp ++ "_optimized_paths(A, N, ansatz, truncation):")%string;
         (tab ++ """""""Compute the optimized paths for this " ++ operator_text o ++ ".""""""")%string;
         (tab ++ "truncation.confirm_at_least_singles()")%string;
         ""%string ]
       ++ map (fun i => (tab ++ nth i optnames "" ++ "_opt_path_list = compute_" ++ sp ++ "_"
                         ++ nth i term_types "" ++ "_optimized_paths(A, N, ansatz, truncation)")%string) [0; 1; 2]
       ++ [ ""%string;
            (tab ++ "return_dict = {")%string;
            (tabs 2 ++ pair_text (g_m o, g_n o)
             ++ ": [connected_opt_path_list, linked_opt_path_list, unlinked_opt_path_list]")%string;
            (tab ++ "}")%string;
            ""%string;
            (tab ++ "return return_dict")%string; ""%string; ""%string ])%list.

  (** lines 1185-1214 [_write_optimized_master_paths_function] *)
  Definition master_paths_function (ops : list gop) : string :=
    join nl
      ([ ""%string;
         "def compute_all_optimized_paths(A, N, ansatz, truncation):"%string;
         (tab ++ """""""Return dictionary containing optimized contraction paths.")%string;
         (tab ++ "Calculates all optimized paths for the `opt_einsum` calls up to")%string;
         (tabs 2 ++ "a maximum order of m+n=" ++ str_nat maximum_cc_rank
          ++ " for a projection operator P^m_n")%string;
         (tab ++ """""""")%string;
         (tab ++ "all_opt_path_lists = []")%string;
         ""%string ]
       ++ map (fun o => (tab ++ "all_opt_path_lists[" ++ pair_text (g_m o, g_n o) ++ "] = compute_"
                         ++ specifier o ++ "_optimized_paths(A, N, ansatz, truncation)["
                         ++ pair_text (g_m o, g_n o) ++ "]")%string) ops
       ++ [ ""%string; (tab ++ "return all_opt_path_lists")%string; ""%string; ""%string ])%list.

  (** lines 1218-1284 [_generate_full_cc_python_file_contents] after the
      verification of the truncations; s2 = 28, s3 = 25, l2 = 45, l3 = 41. *)
  Definition generate_full_cc_python_file_contents : res string :=
    let ops := generate_omega_operator maximum_cc_rank omega_max_order in
    do default <- wrap_generation ops "FUNCTIONS" "TERMS" 28 (fun o => generate_full_cc_compute_functions o false);
    do optimised <- wrap_generation ops "FUNCTIONS" "TERMS" 28 (fun o => generate_full_cc_compute_functions o true);
    do paths <- wrap_generation ops "OPTIMIZED PATHS" "OPTIMIZED PATHS" 25 generate_optimized_paths_functions;
    Ok (long_spaced_named_line "DEFAULT FUNCTIONS" 45
        ++ nl ++ named_line "INDIVIDUAL TERMS" 45 ++ nl ++ nl ++ default
        ++ nl ++ named_line "RESIDUAL FUNCTIONS" 45
        ++ concat_str (map (fun o => master_compute_function o false) ops)
        ++ long_spaced_named_line "OPTIMIZED FUNCTIONS" 44
        ++ nl ++ named_line "INDIVIDUAL TERMS" 45 ++ nl ++ nl ++ optimised
        ++ nl ++ named_line "RESIDUAL FUNCTIONS" 45
        ++ concat_str (map (fun o => master_compute_function o true) ops)
        ++ long_spaced_named_line "OPTIMIZED PATHS FUNCTIONS" 41
        ++ nl ++ named_line "INDIVIDUAL OPTIMIZED PATHS" 41 ++ nl ++ nl ++ paths
        ++ nl ++ named_line "GROUPED BY PROJECTION OPERATOR" 41
        ++ concat_str (map grouped_paths_function ops)
        ++ nl ++ named_line "MASTER OPTIMIZED PATH FUNCTION" 41
        ++ master_paths_function ops ++ nl)%string.

  (** lines 1287-1304 [generate_full_cc_python]: the data that is written to the
      file, with code_import_statements_module.py 28-40.  The keyword
      only_ground_state is passed on and has no effect. *)
  Definition full_cc_import_statements : string :=
    concat_str (map (fun l => l ++ nl)%string
      ["# system imports"; "from math import factorial"; ""; "# third party imports"; "import numpy as np";
       "import opt_einsum as oe"; ""; "# local imports"; "from .symmetrize import symmetrize_tensor";
       "from ..log_conf import log"; ""]%string).
  Definition generate_full_cc_python : res string :=
    do c <- generate_full_cc_python_file_contents;
    Ok (full_cc_import_statements ++ c)%string.
End Functions.
