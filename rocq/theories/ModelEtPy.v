(** Model of /repo/termfactory/code_eT_zhz.py: python code of the e^T ansatz.

    Not modelled: 387-418 and 755-850 (not called), the debugging output, and
    [_simplify_eT_zhz_python_prefactor] (436-493) together with the text built
    from its result (676-690): the caller overwrites that text at 1110-1117;
    the cancellation itself is in ModelPrefactor.v.  [b_loop_flag] is True in
    every call and [suppress_empty_if_checks] has its default True. *)
From Verif Require Import PyBase ModelHelper ModelW ModelFullCC ModelFullCCPy ModelZhz ModelEt.

(** ** Subscripts *)

(** lines 50-143: '' for each t, then H (or dT) and Z *)
Definition eT_electronic_components (s : side) (t_list : list ett) : list string :=
  (repeat ""%string (List.length t_list) ++ [match s with RHS => "ac" | LHS => "" end; "c"]%string)%list.

(** the [offset_dict] of lines 284-307 *)
Record eoffsets := mkeo {
  eo_sum : nat; eo_unl : nat;
  eo_upper_h : string; eo_lower_h : string; eo_upper_z : string; eo_lower_z : string
}.
Definition no_offsets : eoffsets := mkeo 0 0 "" "" "" "".

(** lines 236-252 *)
Definition eT_t_lower_labels (t : ett) (o : eoffsets) : string * string * eoffsets :=
  if Nat.ltb 0 (et_n t) then
    let a := eo_sum o in
    let b := eo_unl o in
    let h_stop := a + et_n_h t in
    let h_str := sslice a h_stop summation_indices in
    let z_str := sslice h_stop (h_stop + et_n_r t) summation_indices in
    ((h_str +++ z_str)%list, sslice b (b + et_n_lhs t) unlinked_indices,
     mkeo (a + (et_n_h t + et_n_r t)) (b + et_n_lhs t)
          (eo_upper_h o +++ h_str) (eo_lower_h o) (eo_upper_z o +++ z_str) (eo_lower_z o))
  else (""%string, ""%string, o).

(** lines 255-271 *)
Definition eT_t_upper_labels (t : ett) (o : eoffsets) : string * string * eoffsets :=
  if Nat.ltb 0 (et_m t) then
    let a := eo_sum o in
    let b := eo_unl o in
    let h_stop := a + et_m_h t in
    let h_str := sslice a h_stop summation_indices in
    let z_str := sslice h_stop (h_stop + et_m_r t) summation_indices in
    ((h_str +++ z_str)%list, sslice b (b + et_m_lhs t) unlinked_indices,
     mkeo (a + (et_m_h t + et_m_r t)) (b + et_m_lhs t)
          (eo_upper_h o) (eo_lower_h o +++ h_str) (eo_upper_z o) (eo_lower_z o +++ z_str))
  else (""%string, ""%string, o).

(** lines 230-281 [_build_t_term_python_labels] *)
Definition eT_t_labels (t : ett) (o : eoffsets) : string * string * eoffsets :=
  let '(s1, u1, o1) := eT_t_lower_labels t o in
  let '(s2, u2, o2) := eT_t_upper_labels t o1 in
  ((s1 +++ s2)%list, (u1 +++ u2)%list, o2).

(** lines 284-307 [_build_t_term_python_group] *)
Fixpoint eT_t_group (ts : list ett) (o : eoffsets) : list (string * string) * eoffsets :=
  match ts with
  | [] => ([], o)
  | t :: r =>
      let '(s, u, o') := eT_t_labels t o in
      let '(l, o'') := eT_t_group r o' in
      ((s, u) :: l, o'')
  end.

(** lines 182-227 [_build_h_term_python_labels] *)
Definition eT_h_labels (h : eth) (o : eoffsets) : res (string * string * eoffsets) :=
  let sum_label := (eo_upper_h o +++ eo_lower_h o)%list in
  if Nat.eqb (eh_rank h) 0 then
    if String.eqb sum_label "" then Ok (sum_label, ""%string, o) else Err AssertionErr
  else
    let '(sum1, unl1, o1) :=
      if Nat.ltb 0 (eh_m h) then
        let a := eo_sum o in
        let b := eo_unl o in
        let z_str := sslice a (a + eh_m_r h) summation_indices in
        ((sum_label +++ z_str)%list, sslice b (b + eh_m_lhs h) unlinked_indices,
         mkeo (a + eh_m_r h) (b + eh_m_lhs h) (eo_upper_h o) (eo_lower_h o) (eo_upper_z o) (eo_lower_z o +++ z_str))
      else (sum_label, ""%string, o) in
    let '(sum2, unl2, o2) :=
      if Nat.ltb 0 (eh_n h) then
        let a := eo_sum o1 in
        let b := eo_unl o1 in
        let z_str := sslice a (a + eh_n_r h) summation_indices in
        ((sum1 +++ z_str)%list, (unl1 +++ sslice b (b + eh_n_lhs h) unlinked_indices)%list,
         mkeo (a + eh_n_r h) (b + eh_n_lhs h) (eo_upper_h o1) (eo_lower_h o1) (eo_upper_z o1 +++ z_str) (eo_lower_z o1))
      else (sum1, unl1, o1) in
    Ok (sum2, unl2, o2).

(** lines 146-179 [_build_z_term_python_labels] *)
Definition eT_z_labels (z : etz) (o : eoffsets) : res (string * string) :=
  let sum_label := (eo_upper_z o +++ eo_lower_z o)%list in
  if Nat.eqb (ez_rank z) 0 then
    if String.eqb sum_label "" then Ok (sum_label, ""%string) else Err AssertionErr
  else
    let b := eo_unl o in
    let unl1 := if Nat.ltb 0 (ez_m z) then sslice b (b + ez_m_lhs z) unlinked_indices else ""%string in
    let b := if Nat.ltb 0 (ez_m z) then b + ez_m_lhs z else b in
    let unl2 := if Nat.ltb 0 (ez_n z) then sslice b (b + ez_n_lhs z) unlinked_indices else ""%string in
    Ok (sum_label, (unl1 +++ unl2)%list).

(** lines 310-353 and 356-400, the same code for the two sides: the
    vibrational components and the remaining indices *)
Definition eT_vibrational_components (t_list : list ett) (h : eth) (z : etz) : res (list string * string) :=
  let '(group, o) := eT_t_group t_list no_offsets in
  do hl <- eT_h_labels h o;
  let '(hs, hu, o') := hl in
  do zl <- eT_z_labels z o';
  let '(zs, zu) := zl in
  Ok ((map (fun su => (fst su +++ snd su)%list) group ++ [(hs +++ hu)%list; (zs +++ zu)%list])%list,
      concat_str (map snd group ++ [hu; zu])%list).

(** ** Prefactor *)

(** [math.comb(n, k)] where [n] is a difference [a - b]: ValueError if that is
    negative *)
Definition comb_minus (a b k : nat) : res nat := if Nat.ltb a b then Err ValueErr else Ok (comb (a - b) k).

(** [if number > 1: numerator_value *= number] *)
Definition factor_if (n : nat) : nat := if Nat.ltb 1 n then n else 1.
Definition factorial_if (n : nat) : nat := if Nat.ltb 1 n then factorial n else 1.

Definition product_of (l : list nat) : nat := fold_right Nat.mul 1 l.

(** lines 541-565 and 567-591: the factor of one side of h *)
Definition eT_h_numerator (m m_lhs m_r : nat) : res nat :=
  if Nat.ltb 1 m then
    do internal_perms <- comb_minus m m_lhs m_r;
    Ok (factor_if (comb m m_lhs) * factor_if internal_perms)
  else Ok 1.

(** lines 593-634 *)
Definition eT_z_numerator (z : etz) : res nat :=
  if Nat.ltb 1 (ez_m z) then
    do internal_perms <- comb_minus (ez_m z) (ez_m_lhs z) (ez_m_h z);
    do number <- comb_minus (ez_m z) (ez_m_lhs z + ez_m_h z) (list_sum (ez_m_t z));
    if Nat.eqb number 1
    then Ok (factor_if (comb (ez_m z) (ez_m_lhs z)) * factor_if internal_perms * factorial_if (ez_m_h z))
    else Err AssertionErr
  else Ok 1.

(** lines 636-660 *)
Definition eT_z_lower_numerator (z : etz) : nat :=
  if Nat.ltb 1 (ez_n z) then factor_if (comb (ez_n z) (ez_n_lhs z)) * factorial_if (ez_n_h z) else 1.

(** lines 496-692 [_build_eT_zhz_python_prefactor]: numerator_value and
    denominator_value.  (Lines 515-520 do not apply: the lists are not empty,
    and the namedtuple compared with at 519 has fewer fields.) *)
Definition build_eT_zhz_python_prefactor (t_list : list ett) (h : eth) (z : etz) : res (nat * nat) :=
  do hm <- eT_h_numerator (eh_m h) (eh_m_lhs h) (eh_m_r h);
  do hn <- eT_h_numerator (eh_n h) (eh_n_lhs h) (eh_n_r h);
  do zm <- eT_z_numerator z;
  Ok (hm * hn * zm * eT_z_lower_numerator z,
      factorial_if (eh_m h) * factorial_if (eh_n h) * factorial_if (ez_m z) * factorial_if (ez_n z)
      * product_of (map (fun t => factorial_if (et_m t) * factorial_if (et_n t)) t_list)).

(** [Fraction(n, d).as_integer_ratio()], line 1105 (d is never 0) *)
Definition fraction (nd : nat * nat) : nat * nat :=
  let g := Nat.gcd (fst nd) (snd nd) in
  (Nat.div (fst nd) g, Nat.div (snd nd) g).

(** lines 1110-1117 *)
Definition render_eT_prefactor (nd : nat * nat) : string :=
  if Nat.eqb (fst nd) (snd nd) then ""
  else ("(" ++ str_nat (fst nd) ++ " / " ++ str_nat (snd nd) ++ ") * ")%string.

(** ** Calls *)

(** [name[(m, n)]] *)
Definition operand : Type := string * (nat * nat).
Definition render_operand (o : operand) : string := (fst o ++ "[" ++ pair_text (snd o) ++ "]")%string.

(** np.einsum('input, ... -> output', operand, ...) *)
Record ecall := mkecall { c_inputs : list string; c_output : string; c_operands : list operand }.
Definition render_ecall (c : ecall) : string :=
  ("np.einsum('" ++ join ", " (c_inputs c) ++ " -> " ++ c_output c ++ "', "
   ++ join ", " (map render_operand (c_operands c)) ++ ")")%string.

(** lines 1023-1050 *)
Definition eT_h_operand (s : side) (h : eth) : list operand :=
  match s with
  | RHS => [("h_args"%string, (eh_m h, eh_n h))]
  | LHS => if Nat.eqb (eh_m h) 0 && Nat.eqb (eh_n h) 0 then [] else [("dT"%string, (eh_m h, eh_n h))]
  end.
Definition eT_z_operand (s : side) (h : eth) (z : etz) : operand :=
  (match s with
   | RHS => "z_args"
   | LHS => if Nat.eqb (eh_m h) 0 && Nat.eqb (eh_n h) 0 then "dz_args" else "z_args"
   end%string, (ez_m z, ez_n z)).

(** lines 1214-1222 *)
Definition eT_t_operand (s : side) (t : ett) : operand :=
  (match s with RHS => "t_args" | LHS => "t_conj" end%string,
   (et_m_lhs t + et_m_h t + et_m_r t, et_n_lhs t + et_n_h t + et_n_r t)).

(** The number of different permutations of the remaining indices (line 1182).
    The list is sorted and its elements are not used, so the iteration order of
    the set does not matter. *)
Definition nof_permutations (remaining_indices : string) : nat :=
  List.length (dedup (list_eqb Ascii.eqb) (perms (chars remaining_indices))).

(** lines 1132-1294: the strings appended for one term.  [permutations] is the
    single range of all t (lines 717-719, 740-742).  With an empty [t_list]
    the code reuses [unique_dict] of the term before; that is an error here.
    The lists of [_filter_out_valid_eTz_terms] for t_1 have no such term. *)
Definition eT_calls (s : side) (t : etterm) : res (list ecall) :=
  let ts := tt_ts t in
  let h := tt_h t in
  let z := tt_z t in
  do vr <- eT_vibrational_components ts h z;
  let '(v_a, remaining_indices) := vr in
  let combined := map (fun ev => (fst ev +++ snd ev)%list) (combine (eT_electronic_components s ts) v_a) in
  let pruned := filter (fun x => negb (String.eqb x "")) combined in
  let out := (match s with RHS => "a" | LHS => "c" end +++ remaining_indices)%list in
  let hz := (eT_h_operand s h ++ [eT_z_operand s h z])%list in
  let with_ts := (map (eT_t_operand s) ts ++ hz)%list in
  match dedup ett_eqb ts with
  | [] => Err UnboundLocalErr
  | [d] =>
      if Nat.eqb (et_rank d) 0 then
        if String.eqb remaining_indices "" then Ok [mkecall pruned out hz]
        else Ok (repeat (mkecall pruned out hz) (nof_permutations remaining_indices))
      else Ok [mkecall pruned out with_ts]
  | _ => Ok [mkecall combined out with_ts]
  end.

(** ** Buckets *)

(** A string filed under [hamiltonian_rank_list[en_h][en_t][en_z][en_pref]].
    The code has a list of dictionaries of dictionaries of dictionaries; the
    model keeps one list of entries in the order of the appends. *)
Record entry := mkentry { en_h : nat; en_t : nat; en_z : nat; en_pref : nat * nat; en_call : ecall }.

(** lines 1018-1294 for one term *)
Definition eT_entries (s : side) (maximum_h_rank : nat) (t : etterm) : res (list entry) :=
  let h := tt_h t in
  let z := tt_z t in
  if negb (Nat.eqb (eh_m_r h) (ez_n_h z) && Nat.eqb (eh_n_r h) (ez_m_h z)) then Err AssertionErr
  else
    do nd <- build_eT_zhz_python_prefactor (tt_ts t) h z;
    let i := Nat.max (eh_m h) (eh_n h) in
    if Nat.ltb maximum_h_rank i then Err IndexErr
    else
      do calls <- eT_calls s t;
      Ok (map (mkentry i (list_max (map et_rank (tt_ts t))) (ez_rank z) (fraction nd)) calls).

(** ** The generated function bodies *)

(** z rank -> prefactor -> calls *)
Definition zsums : Type := list (nat * list (nat * nat * list ecall)).

Inductive ebody :=
| ENoTerms                     (* line 1001 *)
| EInvalid                     (* lines 1743-1747 *)
| EBody (b00 : zsums)                                (* h rank 0, t rank 0 *)
        (b0 : list (nat * zsums))                    (* h rank 0, t rank j *)
        (bh : list (nat * (zsums * list (nat * zsums)))).  (* h rank i: t rank 0, t rank j *)

Definition same_ecall (a b : ecall) : bool := String.eqb (render_ecall a) (render_ecall b).
Definition ecall_leb (a b : ecall) : bool := String.leb (render_ecall a) (render_ecall b).

(** lines 1309-1317: [sorted(list(set(p_list)))] if that is shorter *)
Definition unique_calls (l : list ecall) : list ecall :=
  let unique := dedup same_ecall l in
  if Nat.eqb (List.length l) (List.length unique) then l else isort ecall_leb unique.

Definition same_pref (a b : nat * nat) : bool := String.eqb (render_eT_prefactor a) (render_eT_prefactor b).
Definition pref_leb (a b : nat * nat) : bool := String.leb (render_eT_prefactor a) (render_eT_prefactor b).

(** lines 1385-1399: [hamiltonian_rank_list[i][j]], keys sorted *)
Definition zsums_of (d : list entry) (i j : nat) : zsums :=
  let here := filter (fun e => Nat.eqb (en_h e) i && Nat.eqb (en_t e) j) d in
  map (fun k =>
    let at_z := filter (fun e => Nat.eqb (en_z e) k) here in
    (k, map (fun p => (p, unique_calls (map en_call (filter (fun e => same_pref (en_pref e) p) at_z))))
          (isort pref_leb (dedup same_pref (map en_pref at_z)))))
    (isort Nat.leb (dedup Nat.eqb (map en_z here))).

(** lines 962-971: the tags of the z ranks *)
Definition z_tags (b : zsums) : res unit :=
  do _ <- mapM (fun kp => match fst kp with 0 => Ok ""%string | k => py_nth hamiltonian_order_tag k end) b; Ok tt.

(** lines 1457-1480 and 1514-1541 *)
Definition eT_ifs (d : list entry) (maximum_cc_rank i : nat) : res (list (nat * zsums)) :=
  do l <- mapM (fun j =>
      match zsums_of d i j with
      | [] => Ok []
      | b => do _ <- z_tags b; do _ <- py_nth taylor_series_order_tag j; Ok [(j, b)]
      end) (range 1 (maximum_cc_rank + 1));
  Ok (List.concat l).

(** lines 1446-1549; every error in these lines is an IndexError *)
Definition eT_body (d : list entry) (maximum_h_rank maximum_cc_rank : nat) : res ebody :=
  let b00 := zsums_of d 0 0 in
  do _ <- z_tags b00;
  do b0 <- eT_ifs d maximum_cc_rank 0;
  do bh <- mapM (fun i =>
      let b := zsums_of d i 0 in
      do _ <- z_tags b;
      do _ <- py_nth hamiltonian_order_tag i;
      do ifs <- eT_ifs d maximum_cc_rank i;
      Ok (i, (b, ifs))) (range 1 (maximum_h_rank + 1));
  Ok (EBody b00 b0 bh).

(** lines 987-1593 [_write_third_eTz_einsum_python] *)
Definition write_third_eTz_einsum_python (s : side) (maximum_h_rank maximum_cc_rank : nat) (l : list etterm) : res ebody :=
  match l with
  | [] => Ok ENoTerms
  | _ => do d <- concatM (eT_entries s maximum_h_rank) l; eT_body d maximum_h_rank maximum_cc_rank
  end.

(** ** Text of a body *)

(** lines 867-909 [_handle_multiline_same_prefactor] *)
Definition render_esum (s : side) (nof_tabs : nat) (pc : nat * nat * list ecall) : list string :=
  let '(p, calls) := pc in
  let tabber := tabs nof_tabs in
  let start := (tabber ++ match s with RHS => "R" | LHS => "Z" end ++ " += " ++ render_eT_prefactor p)%string in
  match calls with
  | [c] => [(start ++ render_ecall c)%string]
  | _ =>
      ((start ++ "(")%string
       :: map (fun c => (tabber ++ tab ++ render_ecall c ++ " +")%string) (removelast calls)
       ++ map (fun c => (tabber ++ tab ++ render_ecall c)%string) (match rev calls with [] => [] | c :: _ => [c] end)
       ++ [(tabber ++ ")")%string])%list
  end.

(** lines 912-971 [_collect_z_contributions] *)
Definition render_zsums (s : side) (nof_tabs : nat) (b : zsums) : list string :=
  flat_map (fun kp =>
    match fst kp with
    | 0 => flat_map (render_esum s nof_tabs) (snd kp)
    | k => (tabs nof_tabs ++ "if truncation.z_at_least_" ++ tag_h k ++ ":")%string
           :: flat_map (render_esum s (nof_tabs + 1)) (snd kp)
    end) b.

Definition render_eifs (s : side) (nof_tabs : nat) (l : list (nat * zsums)) : list string :=
  flat_map (fun jb => (tabs nof_tabs ++ "if truncation.t_" ++ tag_t (fst jb) ++ ":")%string
                      :: render_zsums s (nof_tabs + 1) (snd jb)) l.

(** lines 1567-1574 *)
Fixpoint no_double_blanks (l : list string) : list string :=
  match l with
  | a :: ((b :: _) as r) =>
      if String.eqb a "" && String.eqb b "" then no_double_blanks r else a :: no_double_blanks r
  | _ => l
  end.

(** lines 1576-1590 *)
Definition no_leading_blank (l : list string) : list string :=
  match l with
  | ""%string :: r => r
  | _ => l
  end.

Definition render_ebody (s : side) (b : ebody) : list string :=
  match b with
  | ENoTerms => ["pass  # no valid terms here"%string]
  | EInvalid => ["pass  # all terms invalid"%string]
  | EBody b00 b0 bh =>
      let lines :=
        (render_zsums s 0 b00 ++ render_eifs s 0 b0
         ++ flat_map (fun ib =>
              let beneath := (render_zsums s 1 (fst (snd ib)) ++ render_eifs s 1 (snd (snd ib)))%list in
              ""%string :: match beneath with
                           | [] => []
                           | _ => ("if truncation.h_at_least_" ++ tag_h (fst ib) ++ ":")%string :: beneath
                           end) bh)%list in
      no_leading_blank (no_double_blanks (match lines with [] => ["pass"%string] | _ => lines end))
  end.

(** ** The terms of a function *)

Definition excited (t : gop) : bool := Nat.ltb 0 (g_m t).

(** lines 1597-1650: the loop; [i] is the position, [j] the length of
    [j_list], which is not reset.  The second result is [sum(i_list)]. *)
Fixpoint remove_excited_loop (i j : nat) (l : list series_term) : list series_term * nat :=
  match l with
  | [] => ([], 0)
  | SOne t :: r =>
      let '(r', d) := remove_excited_loop (S i) j r in
      (SOne t :: r', (if excited t then i else 0) + d)
  | SLin e :: r =>
      let j' := j + List.length (filter excited e) in
      let '(r', d) := remove_excited_loop (S i) j' r in
      (SLin (skipn j' e) :: r', d)
  | SProd e :: r =>
      let '(r', d) := remove_excited_loop (S i) j r in
      (SProd (skipn j (map (fun p => skipn (List.length (filter excited p)) p) e)) :: r', d)
  end.

(** lines 1597-1650 [remove_all_excited_state_t_terms].  The code changes its
    argument; the lists of [generate_eT_taylor_expansion] stay as they are (see
    ProofsEtPy.v), so that repeated calls agree with the model. *)
Definition remove_all_excited_state_t_terms (l : list series_term) : list series_term :=
  let '(l', d) := remove_excited_loop 0 0 l in
  filter (fun x => match x with SLin [] | SProd [] => false | _ => true end) (skipn d l').

(** lines 1702-1710 *)
Definition is_solved_for (t : etterm) : bool :=
  Nat.eqb (eh_rank (tt_h t)) 0 && Nat.eqb (ez_m (tt_z t)) (el_n (tt_lhs t)).
Fixpoint remove_first {A} (f : A -> bool) (l : list A) : list A :=
  match l with
  | [] => []
  | x :: r => if f x then r else x :: remove_first f r
  end.

(** lines 1674-1685: the operators left for the ground state.  The code
    changes the lists of its argument. *)
Definition ground_state_operators (s : side) (H : list hop) (Z : list gop) : list hop * list gop :=
  (match s with LHS => filter (fun h => Nat.eqb (h_n h) 0) H | RHS => H end,
   filter (fun z => Nat.eqb (g_n z) 0) Z).

(** lines 1688-1726: the terms without and with amplitudes.  The second list
    is made with the flag 'RHS' on both sides (line 1726). *)
Definition eT_zhz_terms (s : side) (Proj : gop) (H : list hop) (Z : list gop) (eT : list series_term) :
    res (list etterm * list etterm) :=
  match eT with
  | [] => Err IndexErr
  | zero :: rest =>
      do zero_list <- filter_out_valid_eTz_terms Proj zero H Z s;
      do term_list <- concatM (fun st => filter_out_valid_eTz_terms Proj st H Z RHS) rest;
      Ok (remove_first is_solved_for zero_list, term_list)
  end.

(** The ranks [H.maximum_rank] and [master_omega.maximum_rank], and the
    operators. *)
Record eT_operators := mkops {
  op_h_rank : nat; op_cc_rank : nat; op_H : list hop; op_Z : list gop; op_eT : list series_term
}.

(** lines 1655-1774 [_generate_eT_zhz_einsums]: the two bodies *)
Definition generate_eT_zhz_einsums (s : side) (Proj : gop) (ops : eT_operators) (only_ground_state : bool) :
    res (ebody * ebody) :=
  let '(H, Z) := if only_ground_state then ground_state_operators s (op_H ops) (op_Z ops) else (op_H ops, op_Z ops) in
  let eT := if only_ground_state then remove_all_excited_state_t_terms (op_eT ops) else op_eT ops in
  do l <- eT_zhz_terms s Proj H Z eT;
  let '(zero_list, term_list) := l in
  match zero_list, term_list with
  | [], [] => Ok (EInvalid, EInvalid)
  | _, _ =>
      do a <- write_third_eTz_einsum_python s (op_h_rank ops) (op_cc_rank ops) zero_list;
      do b <- write_third_eTz_einsum_python s (op_h_rank ops) (op_cc_rank ops) term_list;
      Ok (a, b)
  end.

(** ** Text of the file *)

Definition eT_hot_band : string := "raise NotImplementedError('Hot Band amplitudes not implemented!')".

(** lines 1785-1798: the two branches; the first call has already changed the
    lists of the second *)
Definition eT_branches (s : side) (Proj : gop) (ops : eT_operators) (only_ground_state : bool) :
    res (list (list string * list string)) :=
  do g <- generate_eT_zhz_einsums s Proj ops true;
  let '(H, Z) := ground_state_operators s (op_H ops) (op_Z ops) in
  let ops' := mkops (op_h_rank ops) (op_cc_rank ops) H Z (op_eT ops) in
  do e <- (if only_ground_state then Ok ([eT_hot_band], [eT_hot_band])
           else do e <- generate_eT_zhz_einsums s Proj ops' false;
                Ok (render_ebody s (fst e), render_ebody s (snd e)));
  Ok [(render_ebody s (fst g), fst e); (render_ebody s (snd g), snd e)].

(** A body inside the function (lines 1857, 1859, 1871); an empty list of lines
    gives an empty line. *)
Definition eT_indent (lines : list string) : list string :=
  map (fun l => rstrip (tabs 2 ++ l)%string) (match lines with [] => [""%string] | _ => lines end).

(** line 1802 *)
Definition eT_term_types : list string := ["HZ"; "eT_HZ"]%string.

Definition opt_suffix (opt : bool) : string := if opt then "_optimized" else "".

(** lines 1806-1815 *)
Definition eT_function_name (s : side) (Proj : gop) (term_type : string) (opt : bool) : string :=
  match s with
  | RHS => ("add_" ++ specifier Proj ++ "_" ++ term_type ++ "_terms" ++ opt_suffix opt)%string
  | LHS => ("compute_" ++ specifier Proj ++ "_" ++ term_type ++ "_LHS" ++ opt_suffix opt)%string
  end.

(** lines 1818-1827 and 1912-1918 *)
Definition eT_arguments (s : side) : string :=
  match s with
  | RHS => "ansatz, truncation, t_args, h_args, z_args"
  | LHS => "ansatz, truncation, t_conj, dT, z_args, dz_args"
  end.
Definition eT_tensor (s : side) : string := match s with RHS => "R" | LHS => "Z" end.

(** lines 1830-1871: one function, line by line without the three indents that
    line 1871 removes; each line is stripped on the right *)
Definition eT_function_text (s : side) (Proj : gop) (opt : bool) (term_type : string) (bodies : list string * list string) :
    list string :=
  ([ ""%string;
     ("def " ++ eT_function_name s Proj term_type opt ++ "(" ++ eT_tensor s ++ ", " ++ eT_arguments s
      ++ (if opt then ", opt_einsum" else "") ++ "):")%string;
     (tab ++ """"""" " ++ (if opt then "Optimized calculation of" else "Calculate") ++ " the " ++ operator_text Proj ++ " "
      ++ term_type ++ " terms.")%string ]
   ++ (if String.eqb term_type "HZ"
       then [ (tab ++ "These terms have no vibrational contribution from the e^T operator.")%string;
              (tab ++ "This reduces the number of possible non-zero permutations of creation/annihilation operators.")%string ]
       else [ (tab ++ "These terms include the vibrational contributions from the e^T operator.")%string;
              (tab ++ "This increases the number of possible non-zero permutations of creation/annihilation operators.")%string ])
   ++ [ (tab ++ """""""")%string; ""%string; (tab ++ "if ansatz.ground_state:")%string ]
   ++ eT_indent (fst bodies)
   ++ [ (tab ++ "else:")%string ]
   ++ eT_indent (snd bodies)
   ++ [ ""%string; (tab ++ "return")%string; ""%string ])%list.

(** lines 1780-1874 [_construct_eT_zhz_compute_function] *)
Definition construct_eT_zhz_compute_function (s : side) (ops : eT_operators) (only_ground_state opt : bool) (Proj : gop) :
    res string :=
  do bodies <- eT_branches s Proj ops only_ground_state;
  Ok (concat_str (map (fun tb => (join nl (eT_function_text s Proj opt (fst tb) (snd tb)) +++ nl)%list)
                      (combine eT_term_types bodies))).

(** lines 1903-1909 *)
Definition eT_truncation_checks (Proj : gop) : list string :=
  (tab ++ "truncation.confirm_at_least_singles()")%string
  :: flat_map (fun kn => if Nat.leb (fst kn) (g_m Proj) || Nat.leb (fst kn) (g_n Proj)
                         then [(tab ++ "truncation.confirm_at_least_" ++ snd kn ++ "()")%string] else [])
       [(2, "doubles"); (3, "triples"); (4, "quadruples"); (5, "quintuples"); (6, "sextuples")]%string.

(** lines 1896-1963 [_write_master_eT_zhz_compute_function] *)
Definition write_master_eT_zhz_compute_function (s : side) (opt : bool) (Proj : gop) : string :=
  let tensor := match s with RHS => "R" | LHS => "dz" end%string in
  let step := match s with RHS => "add" | LHS => "compute" end%string in
  let path term_type := if opt then (", optimized_" ++ term_type ++ "_paths")%string else ""%string in
  join nl
    ([ ""%string;
       ("def compute_" ++ specifier Proj ++ "_amplitude" ++ opt_suffix opt ++ "(A, N, " ++ eT_arguments s
        ++ (if opt then ", opt_paths" else "") ++ "):")%string;
       (tab ++ """""""Compute the " ++ operator_text Proj ++ " amplitude.""""""")%string ]
     ++ eT_truncation_checks Proj
     ++ [ ""%string;
          (tab ++ "# the residual tensor")%string;
          (tab ++ tensor ++ " = np.zeros(shape=(" ++ join ", " ("A"%string :: repeat "N"%string (g_rank Proj))
           ++ "), dtype=complex)")%string;
          ""%string ]
     ++ (if opt then [ (tab ++ "# unpack the optimized paths")%string;
                       (tab ++ "optimized_HZ_paths, optimized_eT_HZ_paths = opt_paths")%string; ""%string ] else [])
     ++ [ (tab ++ "# " ++ step ++ " the terms")%string ]
     ++ map (fun ty => (tab ++ eT_function_name s Proj ty opt ++ "(" ++ tensor ++ ", " ++ eT_arguments s ++ path ty ++ ")")%string)
          eT_term_types
     ++ [ (tab ++ "return " ++ tensor)%string; ""%string; ""%string ])%list.

(** lines 1966-2038 [_generate_eT_zhz_python_file_contents] after the
    verification of the truncations; s2 = 28, l2 = 45.  The projections are
    those without upper indices (lines 1990-1991). *)
Definition eT_projections (maximum_cc_rank omega_max_order : nat) : list gop :=
  filter (fun p => Nat.eqb (g_m p) 0) (generate_omega_operator maximum_cc_rank omega_max_order).

Definition generate_eT_zhz_python_file_contents (s : side) (only_ground_state : bool)
    (maximum_h_rank maximum_cc_rank maximum_T_rank eT_taylor_max_order omega_max_order : nat) : res string :=
  let ps := eT_projections maximum_cc_rank omega_max_order in
  do eT <- generate_eT_taylor_expansion maximum_T_rank eT_taylor_max_order;
  let ops := mkops maximum_h_rank maximum_cc_rank (generate_pruned_H_operator maximum_h_rank)
                   (generate_z_operator maximum_cc_rank only_ground_state) eT in
  do default <- wrap_generation ps "FUNCTIONS" "TERMS" 28 (construct_eT_zhz_compute_function s ops only_ground_state false);
  do optimised <- wrap_generation ps "FUNCTIONS" "TERMS" 28 (construct_eT_zhz_compute_function s ops only_ground_state true);
  Ok (long_spaced_named_line "DEFAULT FUNCTIONS" 45
      ++ nl ++ named_line "INDIVIDUAL TERMS" 45 ++ nl ++ nl ++ default
      ++ nl ++ named_line "RESIDUAL FUNCTIONS" 45
      ++ concat_str (map (write_master_eT_zhz_compute_function s false) ps)
      ++ long_spaced_named_line "OPTIMIZED FUNCTIONS" 44
      ++ nl ++ named_line "INDIVIDUAL TERMS" 45 ++ nl ++ nl ++ optimised
      ++ nl ++ named_line "RESIDUAL FUNCTIONS" 45
      ++ concat_str (map (write_master_eT_zhz_compute_function s true) ps)
      ++ nl ++ named_line "OPTIMIZED PATHS FUNCTION" 45)%string.

(** lines 2041-2055 [generate_eT_zhz_python]: what is written to the file,
    with code_import_statements_module.py 12-24 *)
Definition eT_zhz_import_statements : string :=
  concat_str (map (fun l => (l +++ nl)%list)
    ["# system imports"; "from math import factorial"; ""; "# third party imports"; "import numpy as np";
     "import opt_einsum as oe"; ""; "# local imports"; "from .symmetrize import symmetrize_tensor";
     "from ..log_conf import log"; ""]%string).
Definition generate_eT_zhz_python (s : side) (only_ground_state : bool) (H CC T eT P : nat) : res string :=
  do c <- generate_eT_zhz_python_file_contents s only_ground_state H CC T eT P;
  Ok (eT_zhz_import_statements ++ c)%string.
