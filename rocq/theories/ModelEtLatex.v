(** Model of /repo/termfactory/latex_eT_zhz.py, lines 1136-1787 and 2008-2284:
    the LaTeX of the e^T ansatz.

    As in ModelEt.v there is no left Z: the entries 'lower_left_z' and
    'upper_left_z' of the offsets are written but never read and are left out.
    Not modelled: 1401-1421 (not called), [letters=False] and [color] (never
    passed), [simplify_flag] (1322 tests [False and simplify_flag]), log
    output, the header constants of reference_latex_headers.py. *)
From Verif Require Import PyBase PyStr ModelHelper ModelW ModelFullCC ModelFullCCPy ModelFullCCLatex ModelZhz ModelEt.
Open Scope string_scope.

(** ** Prefactors *)

(** lines 1171-1197 for the upper and 1199-1225 for the lower indices of h *)
Definition eT_h_factors (m m_lhs m_r : nat) (m_t : list nat) : list factor * list factor :=
  if Nat.ltb 1 m
  then ((num_if (comb m m_lhs) ++ num_if (comb (m - m_lhs) m_r) ++ fact_if (list_sum m_t))%list, [FFact m])
  else ([], []).

(** lines 1229-1272; 1269 is the assertion *)
Definition eT_z_upper_factors (z : etz) : res (list factor * list factor) :=
  if Nat.ltb 1 (ez_m z)
  then
    let new_max := ez_m z - ez_m_lhs z in
    if Nat.eqb (comb (new_max - ez_m_h z) (list_sum (ez_m_t z))) 1
    then Ok ((num_if (comb (ez_m z) (ez_m_lhs z)) ++ num_if (comb new_max (ez_m_h z))
              ++ fact_if (ez_m_h z) ++ fact_if (list_sum (ez_m_t z)))%list, [FFact (ez_m z)])
    else Err AssertionErr
  else Ok ([], []).

(** A factor [FNum] of 1274-1299 is printed without parentheses, unlike those
    above; see [render_eT_factor]. *)
Inductive efactor := EParen (f : factor) | EBare (n : nat).

(** lines 1274-1299 *)
Definition eT_z_lower_factors (z : etz) : list efactor * list efactor :=
  if Nat.ltb 1 (ez_n z)
  then
    let t := list_sum (ez_n_t z) in
    (((if Nat.ltb 1 (comb (ez_n z) (ez_n_lhs z)) then [EBare (comb (ez_n z) (ez_n_lhs z))] else [])
      ++ map EParen (fact_if (ez_n_h z))
      ++ (if Nat.ltb 1 t then [EParen (FFact t); EBare (comb (ez_n z) t)] else []))%list, [EParen (FFact (ez_n z))])
  else ([], []).

(** lines 1303-1318 *)
Definition eT_t_factors (ts : list ett) : list factor :=
  (fact_if (List.length ts) ++ flat_map (fun t => fact_if (et_m t) ++ fact_if (et_n t)) ts)%list.

(** lines 1136-1346 [_build_eThz_latex_prefactor]: numerator and denominator;
    [overcounting_prefactor] is not used *)
Definition eThz_prefactor (ts : list ett) (h : eth) (z : etz) : res (list efactor * list efactor) :=
  let a := eT_h_factors (eh_m h) (eh_m_lhs h) (eh_m_r h) (eh_m_t h) in
  let b := eT_h_factors (eh_n h) (eh_n_lhs h) (eh_n_r h) (eh_n_t h) in
  do c <- eT_z_upper_factors z;
  let d := eT_z_lower_factors z in
  Ok ((map EParen (fst a ++ fst b ++ fst c) ++ fst d)%list,
      (map EParen (snd a ++ snd b ++ snd c) ++ snd d ++ map EParen (eT_t_factors ts))%list).

Definition render_eT_factor (f : efactor) : string :=
  match f with
  | EParen (FNum n) => "(" ++ str_nat n ++ ")"
  | EParen (FFact n) => str_nat n ++ "!"
  | EBare n => str_nat n
  end.

(** lines 1336-1346 *)
Definition render_eT_prefactor (p : list efactor * list efactor) : string :=
  let numerator := match fst p with [] => "1" | l => concat_str (map render_eT_factor l) end in
  let denominator := match snd p with [] => "1" | l => concat_str (map render_eT_factor l) end in
  if (numerator =? "1") && (denominator =? "1") then ""
  else "\frac{" ++ numerator ++ "}{" ++ denominator ++ "}".

(** ** Powers of f and fbar *)

(** [isinstance(t, disconnected_t_operator_namedtuple)]: 891 decides by the
    fields *)
Definition t_disconnected (t : ett) : bool := Nat.eqb (et_m_h t) 0 && Nat.eqb (et_n_h t) 0.

(** [enumerate(t_list)] *)
Definition enumerate {A} (l : list A) : list (nat * A) := combine (range 0 (List.length l)) l.

(** lines 1349-1361: in both branches of the test the assertion and the value
    are [t.m_h == h.n_t[i]], with 0 in place of [t.m_h] in the first *)
Definition f_t_h (ts : list ett) (h : eth) : res (list nat) :=
  mapM (fun it => do x <- py_nth (eh_n_t h) (fst it);
                  let t := snd it in
                  if t_disconnected t then check (Nat.eqb 0 (et_m_h t) && Nat.eqb (et_m_h t) x) 0
                  else check (Nat.eqb (et_m_h t) x) (et_m_h t)) (enumerate ts).

(** lines 1364-1376 *)
Definition fbar_t_h (ts : list ett) (h : eth) : res (list nat) :=
  mapM (fun it => do x <- py_nth (eh_m_t h) (fst it);
                  let t := snd it in
                  if t_disconnected t then check (Nat.eqb 0 (et_n_h t) && Nat.eqb (et_n_h t) x) 0
                  else check (Nat.eqb (et_n_h t) x && Nat.leb 1 x) (et_n_h t)) (enumerate ts).

(** lines 1379-1387 *)
Definition f_t_zR (ts : list ett) (z : etz) : res (list nat) :=
  mapM (fun it => do x <- py_nth (ez_n_t z) (fst it); check (Nat.eqb (et_m_r (snd it)) x) (et_m_r (snd it))) (enumerate ts).

(** lines 1390-1399: the assertion is commented out *)
Definition fbar_t_zR (ts : list ett) : list nat := map et_n_r ts.

(** latex_zhz.py 1140-1157: the Z of this ansatz are never instances of the
    type tested there *)
Definition f_h_zR_eT (h : eth) (z : etz) : res nat := check (Nat.eqb (eh_m_r h) (ez_n_h z)) (ez_n_h z).
Definition fbar_h_zR_eT (h : eth) (z : etz) : res nat := check (Nat.eqb (eh_n_r h) (ez_m_h z)) (ez_m_h z).

(** ** Labels *)

Inductive colour := Magenta | Blue | Red.
Definition group : Type := colour * string.
Definition render_group (g : group) : string :=
  (match fst g with Magenta => "\magenta{" | Blue => "\blue{" | Red => "\red{" end) ++ snd g ++ "}".
Definition render_groups (l : list group) : string := concat_str (map render_group l).

(** The dictionary of lines 1697-1706. *)
Record offsets := mkoff {
  o_lower_h : list group; o_upper_h : list group; o_lower_z : list group; o_upper_z : list group;
  o_unlinked : nat; o_summation : nat
}.
Definition no_offsets : offsets := mkoff [] [] [] [] 0 0.

(** Upper and lower groups of an operator. *)
Definition elabel : Type := list group * list group.

(** lines 1443-1466 and 1469-1492: the four groups of one side of a t, and the
    groups for h and for z *)
Definition t_side_groups (s u l h r lhs : nat) : list group * group * group :=
  let gh := (Blue, take_at z_summation_indices (s + l) h) in
  let gz := (Magenta, take_at z_summation_indices (s + l + h) r) in
  ([(Magenta, take_at z_summation_indices s l); gh; gz; (Red, take_at z_unlinked_indices u lhs)], gh, gz).

(** lines 1441-1492 for one t *)
Definition eT_t_label (t : ett) (o : offsets) : elabel * offsets :=
  let '(upper, o) :=
    if Nat.ltb 0 (et_m t)
    then let '(gs, gh, gz) := t_side_groups (o_summation o) (o_unlinked o) (et_m_l t) (et_m_h t) (et_m_r t) (et_m_lhs t) in
         (gs, mkoff (o_lower_h o ++ [gh]) (o_upper_h o) (o_lower_z o ++ [gz]) (o_upper_z o)
                    (o_unlinked o + et_m_lhs t) (o_summation o + et_m_l t + et_m_h t + et_m_r t))
    else ([], o) in
  let '(lower, o) :=
    if Nat.ltb 0 (et_n t)
    then let '(gs, gh, gz) := t_side_groups (o_summation o) (o_unlinked o) (et_n_l t) (et_n_h t) (et_n_r t) (et_n_lhs t) in
         (gs, mkoff (o_lower_h o) (o_upper_h o ++ [gh]) (o_lower_z o) (o_upper_z o ++ [gz])
                    (o_unlinked o + et_n_lhs t) (o_summation o + et_n_l t + et_n_h t + et_n_r t))
    else ([], o) in
  ((upper, lower), o).

(** lines 1424-1504 [_build_eT_term_latex_labels]: [None] where line 1434
    returns the unit operator *)
Fixpoint eT_t_labels (ts : list ett) (o : offsets) : option (list elabel) * offsets :=
  match ts with
  | [] => (Some [], o)
  | t :: r =>
      if Nat.eqb (et_rank t) 0 then (None, o)
      else let '(a, o) := eT_t_label t o in
           let '(b, o) := eT_t_labels r o in
           (match b with None => None | Some b => Some (a :: b) end, o)
  end.

(** lines 1507-1562 [_build_eT_hz_term_latex_labels]: [None] for rank 0 *)
Definition eT_h_label (h : eth) (o : offsets) : option elabel * offsets :=
  if Nat.eqb (eh_rank h) 0 then (None, o)
  else
    let '(lower, o) :=
      if Nat.ltb 0 (eh_n h)
      then let g := (Blue, take_at z_summation_indices (o_summation o) (eh_n_r h)) in
           ((o_lower_h o ++ [g; (Red, take_at z_unlinked_indices (o_unlinked o) (eh_n_lhs h))])%list,
            mkoff (o_lower_h o) (o_upper_h o) (o_lower_z o) (o_upper_z o ++ [g])
                  (o_unlinked o + eh_n_lhs h) (o_summation o + eh_n_r h))
      else ([], o) in
    let '(upper, o) :=
      if Nat.ltb 0 (eh_m h)
      then let g := (Blue, take_at z_summation_indices (o_summation o) (eh_m_r h)) in
           ((o_upper_h o ++ [g; (Red, take_at z_unlinked_indices (o_unlinked o) (eh_m_lhs h))])%list,
            mkoff (o_lower_h o) (o_upper_h o) (o_lower_z o ++ [g]) (o_upper_z o)
                  (o_unlinked o + eh_m_lhs h) (o_summation o + eh_m_r h))
      else ([], o) in
    (Some (upper, lower), o).

(** lines 1565-1632 [_build_eT_right_z_term]: [None] for rank 0 *)
Definition eT_z_label (z : etz) (o : offsets) : option elabel :=
  if Nat.eqb (ez_rank z) 0 then None
  else
    let '(lower, u) :=
      if Nat.ltb 0 (ez_n z)
      then ((o_lower_z o ++ [(Red, take_at z_unlinked_indices (o_unlinked o) (ez_n_lhs z))])%list, o_unlinked o + ez_n_lhs z)
      else ([], o_unlinked o) in
    let upper :=
      if Nat.ltb 0 (ez_m z)
      then (o_upper_z o ++ [(Red, take_at z_unlinked_indices u (ez_m_lhs z))])%list
      else [] in
    Some (upper, lower).

Definition render_elabel (name : string) (l : elabel) : string :=
  name ++ "^{" ++ render_groups (fst l) ++ "}_{" ++ render_groups (snd l) ++ "}".

(** lines 1434 and 1497-1504 *)
Definition render_eT_ts (s : side) (l : option (list elabel)) : string :=
  match l with
  | None => "\mathds{1}"
  | Some l => concat_str (map (render_elabel (match s with RHS => "\bt" | LHS => "\bs" end)) l)
  end.

Definition derivative (x : string) : string := "\left(i\dv{" ++ x ++ "}{\tau}\right)".

(** lines 1510-1516 and 1557-1562: the f-string of 1516 prints the number 1
    without braces *)
Definition render_eT_h (s : side) (l : option elabel) : string :=
  match l, s with
  | None, RHS => "\bh_0"
  | None, LHS => "\mathds1"
  | Some l, RHS => render_elabel "\bh" l
  | Some l, LHS => derivative (render_elabel "\bt" l)
  end.

(** lines 1572-1586 and 1623-1632; [h_0] for [h.rank == 0] *)
Definition render_eT_z (s : side) (h_0 : bool) (l : option elabel) : string :=
  let z := match l with None => "\bz_0" | Some l => render_elabel "\bz" l end in
  match s with RHS => z | LHS => if h_0 then derivative z else z end.

(** ** Printed terms *)

Record elterm := mkelterm {
  lx_f : nat; lx_fbar : nat; lx_prefactor : list efactor * list efactor;
  lx_ts : option (list elabel); lx_h : option elabel; lx_z : option elabel; lx_h_0 : bool
}.

Definition render_elterm (s : side) (t : elterm) : string :=
  render_power "f" (lx_f t) ++ render_power "\bar{f}" (lx_fbar t) ++ render_eT_prefactor (lx_prefactor t)
  ++ render_eT_ts s (lx_ts t) ++ render_eT_h s (lx_h t) ++ render_eT_z s (lx_h_0 t) (lx_z t).

(** lines 1672-1746 for one term: [None] for the [continue] of 1684 *)
Definition third_eTz_term (remove_f_terms print_prefactors : bool) (t : etterm) : res (option elterm) :=
  let ts := tt_ts t in let h := tt_h t in let z := tt_z t in
  do f1 <- f_h_zR_eT h z;
  do f2 <- f_t_h ts h;
  do f3 <- f_t_zR ts z;
  let f := f1 + list_sum f2 + list_sum f3 in
  if Nat.ltb 0 f && remove_f_terms then Ok None
  else
    do b1 <- fbar_h_zR_eT h z;
    do b2 <- fbar_t_h ts h;
    do p <- (if print_prefactors then eThz_prefactor ts h z else Ok ([], []));
    let '(lt, o) := eT_t_labels ts no_offsets in
    let '(lh, o) := eT_h_label h o in
    Ok (Some (mkelterm f (b1 + list_sum b2 + list_sum (fbar_t_zR ts)) p lt lh (eT_z_label z o) (Nat.eqb (eh_rank h) 0))).

(** lines 1766-1779: the lines of a long sum ([w] is not 0: 1769 divides) *)
Definition eT_lines {A} (w : nat) (l : list A) : list (list A) :=
  (map (fun i => slice (i * w) ((i + 1) * w) l) (range 0 (List.length l / w))
   ++ let k := List.length l mod w in
      if Nat.eqb k 0 then [] else [skipn (List.length l - k) l])%list.

Inductive esum := EPlain (l : list elterm) | ESplit (ls : list (list elterm)).

(** lines 1635-1787 [_prepare_third_eTz_latex] *)
Definition prepare_third_eTz_latex (s : side) (split_width : nat)
    (remove_f_terms print_prefactors suppress_duplicates : bool) (l : list etterm) : res esum :=
  do r <- concatM (fun t => do o <- third_eTz_term remove_f_terms print_prefactors t; Ok (option_list o)) l;
  let r := if suppress_duplicates then keep_first (fun a b => render_elterm s a =? render_elterm s b) [] r else r in
  Ok (if Nat.leb (List.length r) (split_width + 2) then EPlain r else ESplit (eT_lines split_width r)).

Definition render_esum_latex (s : side) (x : esum) : string :=
  match x with
  | EPlain l => "(" ++ join " + " (map (render_elterm s) l) ++ ")"
  | ESplit ls => nl ++ join splitting (map (fun l => join " + " (map (render_elterm s) l)) ls) ++ nl
  end.

(** lines 2008-2044 [_build_third_eTz_term]: [None] for the empty string *)
Definition build_third_eTz_term (lhs : gop) (eT : list series_term) (H : list hop) (Z : list gop) (s : side)
    (remove_f_terms : bool) : res (option esum) :=
  do l <- concatM (fun st => filter_out_valid_eTz_terms lhs st H Z s) eT;
  match l with
  | [] => Ok None
  | _ => do x <- prepare_third_eTz_latex s 4 remove_f_terms true true l; Ok (Some x)
  end.

Definition render_third_eTz (s : side) (x : option esum) : string :=
  match x with None => "" | Some x => render_esum_latex s x end.

(** lines 2047-2111 [_generate_eT_z_symmetric_latex_equations]: the sum *)
Definition eT_z_symmetric_latex_sum (lhs : gop) (eT : list series_term) (H : list hop) (Z : list gop) (s : side)
    (only_ground_state remove_f_terms : bool) : res (option esum) :=
  if only_ground_state then build_third_eTz_term lhs eT H Z s remove_f_terms else Err NotImplementedErr.

(** ... and the text *)
Definition render_eT_equation (s : side) (lhs : gop) (x : option esum) : string :=
  replace_empty "_{}" (replace_empty "^{}"
    ((match s with RHS => build_first_z_term lhs | LHS => "" end)
     ++ "\\&+\sum\Big(" ++ render_third_eTz s x ++ "\Big)"
     ++ (match s with RHS => "\\&-i\sum\Big(" ++ render_fifth_term lhs ++ "\Big)" | LHS => "" end))).

(** ** The file *)

(** lines 2204-2231 *)
Definition wrap_eT_z_align_environment (s : side) (lhs eqns : string) : string :=
  "\begin{align}\begin{split}" ++ nl ++ "LHS &=" ++ nl
  ++ (match s with RHS => tab ++ lhs ++ nl ++ "\\ RHS &=" ++ nl | LHS => "" end)
  ++ "%" ++ nl ++ "%" ++ nl ++ eqns ++ nl
  ++ "\end{split}\end{align}" ++ nl ++ nl.

(** lines 2146-2261: the equations printed, each with the rank of the operator
    before it in the list of projections (the last one for the first) *)
Fixpoint eT_equations_loop (s : side) (eT : list series_term) (H : list hop) (Z : list gop)
    (only_ground_state remove_f_terms : bool) (prev : nat) (l : list gop) : res (list (nat * gop * option esum)) :=
  match l with
  | [] => Ok []
  | omega :: r =>
      if Nat.ltb 0 (g_m omega) then eT_equations_loop s eT H Z only_ground_state remove_f_terms (g_rank omega) r
      else
        do _ <- py_nth rank_names (g_rank omega);
        do e <- eT_z_symmetric_latex_sum omega eT H Z s only_ground_state remove_f_terms;
        do es <- eT_equations_loop s eT H Z only_ground_state remove_f_terms (g_rank omega) r;
        Ok ((prev, omega, e) :: es)
  end.

(** lines 2114-2144; line 2124 verifies the truncations, see ModelTrunc.v *)
Definition eT_latex_equations (s : side) (only_ground_state remove_f_terms : bool)
    (maximum_h_rank maximum_cc_rank maximum_T_rank eT_taylor_max_order omega_max_order : nat) :
    res (list (nat * gop * option esum)) :=
  let master_omega := generate_omega_operator maximum_cc_rank omega_max_order in
  do eT <- generate_eT_taylor_expansion maximum_T_rank eT_taylor_max_order;
  eT_equations_loop s eT (generate_pruned_H_operator maximum_h_rank) (generate_z_operator maximum_cc_rank only_ground_state)
    only_ground_state remove_f_terms (match rev master_omega with [] => 0 | omega :: _ => g_rank omega end) master_omega.

(** lines 2160-2261 for one projection; [_generate_t_lhs], [_wrap_t_latex] and
    [_generate_z_lhs] have the same text as in latex_zhz.py *)
Definition render_eT_latex_equation (s : side) (e : nat * gop * option esum) : string :=
  let '(prev, omega, x) := e in
  (if Nat.ltb prev (g_rank omega)
   then "\paragraph{" ++ nth (g_rank omega) rank_names "" ++ " Equations}" ++ nl ++ nl
   else "\vspace{2cm}")
  ++ percents ++ wrap_t_latex omega (generate_t_lhs omega)
  ++ percents ++ wrap_eT_z_align_environment s (generate_z_lhs omega) (render_eT_equation s omega x).

(** lines 2114-2284 [generate_eT_z_t_symmetric_latex]: the text that follows
    the header *)
Definition generate_eT_z_t_symmetric_latex (s : side) (only_ground_state remove_f_terms : bool)
    (maximum_h_rank maximum_cc_rank maximum_T_rank eT_taylor_max_order omega_max_order : nat) : res string :=
  do l <- eT_latex_equations s only_ground_state remove_f_terms
            maximum_h_rank maximum_cc_rank maximum_T_rank eT_taylor_max_order omega_max_order;
  Ok ((if remove_f_terms then "\textbf{Note that all terms with a $f$ prefactor have been removed}" ++ nl else "")
      ++ concat_str (map (render_eT_latex_equation s) l)
      ++ "\end{document}").
