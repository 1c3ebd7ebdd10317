(** Model of /repo/termfactory/latex_full_cc.py 714-1583: LaTeX code of the
    full coupled cluster equations. *)
From Verif Require Import PyBase PyStr ModelHelper ModelW ModelFullCC ModelPrefactor ModelFullCCPy ModelLatexW.

(** [s.replace(sub, '')] for a non-empty [sub]: from the left, without
    overlaps; [skip] characters still belong to the occurrence just found. *)
Fixpoint remove_sub (sub : string) (skip : nat) (s : string) : string :=
  match s with
  | EmptyString => EmptyString
  | String c r =>
      match skip with
      | S k => remove_sub sub k r
      | O => if String.prefix sub s then remove_sub sub (String.length sub - 1) r
             else String c (remove_sub sub 0 r)
      end
  end.
Definition replace_empty (sub s : string) : string := remove_sub sub 0 s.

(** ** Labels *)

(** The two coloured parts of an index: the letters summed over (blue) and
    the letters of the projection operator (red). *)
Definition label : Type := string * string.

Open Scope string_scope.

(** lines 731-732, 769-770 ([color=True] in every call) *)
Definition render_label (l : label) : string :=
  "\blue{" ++ fst l ++ "}\red{" ++ snd l ++ "}".

(** lines 715-745 [_build_h_term_latex_labels]: upper and lower labels, [None]
    for the Hamiltonian operator of rank 0 *)
Definition h_latex_labels (h : chop) (condense_offset : nat) : option (label * label) :=
  if Nat.eqb (ch_rank h) 0 then None
  else
    let h_offset := ch_m h - ch_m_o h in
    Some ((sslice 0 h_offset summation_indices,
           sslice condense_offset (condense_offset + ch_m_o h) unlinked_indices),
          (sslice h_offset (h_offset + (ch_n h - ch_n_o h)) summation_indices,
           sslice (condense_offset + ch_m_o h) (condense_offset + ch_m_o h + ch_n_o h) unlinked_indices)).

Definition render_h_latex (l : option (label * label)) : string :=
  match l with
  | None => "\bh_0"
  | Some (up, down) => "\bh^{" ++ render_label up ++ "}_{" ++ render_label down ++ "}"
  end.

(** The labels of an amplitude: a part is absent if no index is there. *)
Record t_label := mklab { tl_up : option label; tl_down : option label }.

(** lines 748-790 [_build_t_term_latex_labels]: the subscripts first *)
Definition t_latex_labels (t : tamp) (o : offsets) : t_label * offsets :=
  let '(s1, u1, o1) := t_lower_labels t o in
  let '(s2, u2, o2) := t_upper_labels t o1 in
  (mklab (if Nat.ltb 0 (m_h t) || Nat.ltb 0 (m_o t) then Some (s2, u2) else None)
        (if Nat.ltb 0 (n_h t) || Nat.ltb 0 (n_o t) then Some (s1, u1) else None), o2).

Definition render_part (l : option label) : string :=
  match l with None => "" | Some l => render_label l end.
Definition render_t_latex (l : t_label) : string :=
  "\bt^{" ++ render_part (tl_up l) ++ "}_{" ++ render_part (tl_down l) ++ "}".

(** lines 826-831; an amplitude without indices is not printed *)
Fixpoint t_latex_loop (ts : list tamp) (o : offsets) : list t_label :=
  match ts with
  | [] => []
  | t :: r =>
      let '(l, o') := t_latex_labels t o in
      match tl_up l, tl_down l with
      | None, None => t_latex_loop r o'
      | _, _ => l :: t_latex_loop r o'
      end
  end.

(** lines 801-833 [_build_t_term_latex_group]; [unlinked] is the entry of the
    given [offset_dict] (the two other entries are 0 in every call). *)
Definition t_latex_group (ts : list tamp) (h : option chop) (unlinked : nat) : list t_label :=
  match h with
  | None => t_latex_loop ts (mkoff 0 0 unlinked)
  | Some h => t_latex_loop ts (mkoff (ch_m h - ch_m_o h) 0 (unlinked + (ch_m_o h + ch_n_o h)))
  end.

(** ** Condensing *)

Section SetOrders.
  Variable so : list (list tamp) -> list (list tamp).   (* sets of tuples of amplitudes *)
  Variable son : list nat -> list nat.                  (* sets of factorials *)

  Definition term_omega (t : term) : comega := fst (fst t).
  Definition term_h (t : term) : chop := snd (fst t).
  Definition term_ts (t : term) : list tamp := snd t.

  Definition disconnected_factors (t : term) : list tamp := filter (fun s => negb (is_connected s)) (term_ts t).

  (** lines 848-878 [_generate_linked_common_terms]; [o.m_t] has one entry per
      amplitude *)
  Definition generate_linked_common_terms (l : list term) : list (list tamp) :=
    isort (fun a b => Nat.leb (List.length b) (List.length a))
      (so (dedup tamps_eqb (map disconnected_factors l))).

  (** lines 897-912, the unlinked branch of [prepare_condensed_terms] *)
  Definition unlinked_factor (l : list term) : res tamp :=
    match l with
    | [] => Err IndexErr
    | t :: _ =>
        let c := mkt 0 0 (co_n (term_omega t)) (co_m (term_omega t)) in
        if forallb (fun x => existsb (tamp_eqb c) (term_ts x)) l then Ok c else Err AssertionErr
    end.

  (** lines 914-953, its linked branch *)
  Definition linked_factors (l : list term) : res (list (list tamp)) :=
    match l with
    | [] => Err IndexErr
    | t :: _ =>
        if Nat.eqb (co_rank (term_omega t)) 2 || Nat.eqb (co_rank (term_omega t)) 3
        then Ok (generate_linked_common_terms l) else Err NotImplementedErr
    end.

  (** lines 1029-1070 of [_build_latex_prefactor] build the same lists as the
      python generator (with "n!" for "factorial(n)"); its simplification
      (956-1009) is the same function. *)
  Definition latex_prefactor (h : chop) (ts : list tamp) : prefactor := build_prefactor son h ts.

  (** lines 1073-1079 *)
  Definition render_latex_prefactor (p : prefactor) : string :=
    let glue l := match l with [] => "1" | _ => concat_str (map (fun n => str_nat n ++ "!") l) end in
    let numerator := glue (fst p) in
    let denominator := glue (snd p) in
    if (numerator =? "1") && (denominator =? "1") then ""
    else "\frac{" ++ numerator ++ "}{" ++ denominator ++ "}".

  (** [t_list.index(t, offset)] *)
  Fixpoint index_from (t : tamp) (l : list tamp) (pos offset : nat) : option nat :=
    match l with
    | [] => None
    | x :: r => if Nat.leb offset pos && tamp_eqb t x then Some pos else index_from t r (S pos) offset
    end.

  (** lines 1094-1098 *)
  Fixpoint factor_indices (factor ts : list tamp) (offset : nat) : option (list nat) :=
    match factor with
    | [] => Some []
    | t :: r =>
        match index_from t ts 0 offset with
        | None => None
        | Some i => match factor_indices r ts (S i) with None => None | Some l => Some (i :: l) end
        end
    end.

  Definition without_indices (idx : list nat) (ts : list tamp) : list tamp :=
    map snd (filter (fun it => negb (existsb (Nat.eqb (fst it)) idx)) (combine (range 0 (List.length ts)) ts)).

  Definition legs (ts : list tamp) : nat := list_sum (map (fun t => m_o t + n_o t) ts).

  (** lines 1082-1126 [_linked_condensed_adjust_t_terms]: the place of the
      factor, the remaining amplitudes and the entry 'unlinked' of the offset.
      [last] is [new_t_list], unassigned at first (line 1125 would then fail);
      the indices found are increasing, so [len(set(indxs)) == len(indxs)]. *)
  Fixpoint adjust_loop (i : nat) (factors : list (list tamp)) (h : chop) (ts : list tamp)
      (last : option (list tamp)) : res (nat * list tamp * nat) :=
    match factors with
    | [] => match last with None => Err UnboundLocalErr | Some l => Ok (0, l, 0) end
    | f :: r =>
        match factor_indices f ts 0 with
        | None => adjust_loop (S i) r h ts last
        | Some [] => adjust_loop (S i) r h ts (Some ts)
        | Some idx =>
            Ok (i, without_indices idx ts,
                if Nat.eqb (ch_m_o h) 0 && Nat.eqb (ch_n_o h) 0 then legs f
                else ch_m_o h + ch_n_o h + legs f)
        end
    end.
  Definition linked_condensed_adjust_t_terms (factors : list (list tamp)) (h : chop) (ts : list tamp) :=
    adjust_loop 0 factors h ts None.

  (** lines 1129-1141: the exponents of f and of fbar, 0 if there is none *)
  Definition f_power (o : comega) (h : chop) : nat :=
    if Nat.leb 1 (co_m_h o) && Nat.leb 1 (ch_n_o h) then co_m_h o else 0.
  Definition fbar_power (o : comega) (h : chop) : nat :=
    if Nat.leb 1 (co_n_h o) && Nat.leb 1 (ch_m_o h) then co_n_h o else 0.

  (** ** One printed term *)
  Record lterm := mklt {
    lt_f : nat; lt_fbar : nat; lt_prefactor : prefactor;
    lt_h : option (label * label); lt_ts : list t_label
  }.

  Definition render_power (s : string) (k : nat) : string :=
    match k with
    | 0 => ""
    | 1 => s
    | _ => s ++ "^{" ++ str_nat k ++ "}"
    end.

  (** lines 1170-1212 *)
  Definition render_lterm (t : lterm) : string :=
    render_power "f" (lt_f t) ++ render_power "\bar{f}" (lt_fbar t)
    ++ render_latex_prefactor (lt_prefactor t)
    ++ render_h_latex (lt_h t) ++ concat_str (map render_t_latex (lt_ts t)).

  (** lines 1163-1215, not linked *)
  Definition latex_term (t : term) : lterm :=
    let '(o, h, ts) := t in
    mklt (f_power o h) (fbar_power o h) (latex_prefactor h ts)
      (h_latex_labels h 0) (t_latex_group ts (Some h) 0).

  (** lines 1194-1205: the group and the printed term *)
  Definition latex_linked_term (factors : list (list tamp)) (t : term) : res (nat * lterm) :=
    let '(o, h, ts) := t in
    do r <- linked_condensed_adjust_t_terms factors h ts;
    let '(i, rest, unlinked) := r in
    do f <- py_nth factors i;
    Ok (i, mklt (f_power o h) (fbar_power o h) (latex_prefactor h ts)
             (h_latex_labels h (legs f)) (t_latex_group rest (Some h) unlinked)).

  (** ** Sums *)
  Inductive lsum :=
  | LNone                                              (* no terms of this kind *)
  | LPlain (ts : list lterm)                           (* one line *)
  | LSplit (ls : list (list lterm))                    (* several lines *)
  | LLinked (gs : list (list lterm * list t_label))    (* (...)t + (...)t *)
  | LUnlinked (ts : list lterm) (common : t_label).    (* (...)t *)

  Definition split_number : nat := 7.

  (** lines 1275-1295 *)
  Definition glue_plain (l : list lterm) : lsum :=
    if Nat.ltb (List.length l) (split_number * 2) then LPlain l
    else LSplit (map (fun i => slice (i * split_number) ((i + 1) * split_number) l)
                     (range 0 (List.length l / split_number))).

  (** lines 1144-1295 [_make_latex] ([print_prefactors] and [color] have
      their defaults in every call) *)
  Definition make_latex_plain (l : list term) : lsum := glue_plain (map latex_term l).

  Definition make_latex_linked (l : list term) : res lsum :=
    do factors <- linked_factors l;
    do its <- mapM (latex_linked_term factors) l;
    Ok (LLinked (map (fun i_f =>
            (map snd (filter (fun it => Nat.eqb (fst it) (fst i_f)) its),
             t_latex_group (snd i_f) None 0))
          (combine (range 0 (List.length factors)) factors))).

  (** [_build_t_term_latex] takes element 0 of the list *)
  Definition make_latex_unlinked (l : list term) : res lsum :=
    do c <- unlinked_factor l;
    do lab <- py_nth (t_latex_group [c] None 0) 0;
    Ok (LUnlinked (map latex_term l) lab).

  Definition splitting : string := nl ++ tab ++ "\\  &+  % split long equation" ++ nl.

  Definition render_line (l : list lterm) : string := join " + " (map render_lterm l).

  Definition render_lsum (none : string) (s : lsum) : string :=
    match s with
    | LNone => none
    | LPlain l => "(" ++ render_line l ++ ")"
    | LSplit ls => "(" ++ nl ++ join splitting (map render_line ls) ++ nl ++ ")"
    | LLinked gs =>
        join splitting (map (fun g => "(" ++ render_line (fst g) ++ ")" ++ concat_str (map render_t_latex (snd g))) gs)
    | LUnlinked l c =>
        "(" ++ join " + " (map (fun t => replace_empty (render_t_latex c) (render_lterm t)) l) ++ ")"
        ++ render_t_latex c
    end.

  (** ** Right hand side of one equation *)
  Record equation := mkeq { eq_fully : lsum; eq_linked : lsum; eq_unlinked : lsum }.

  Definition or_none (l : list term) (r : res lsum) : res lsum :=
    match l with [] => Ok LNone | _ => r end.

  (** lines 1298-1339 [_write_cc_latex_from_lists] *)
  Definition write_cc_latex_from_lists (rank : nat) (fully linked unlinked : list term) : res equation :=
    if Nat.eqb rank 0 then
      Ok (mkeq (make_latex_plain fully) (make_latex_plain linked) (make_latex_plain unlinked))
    else
      do a <- or_none fully (Ok (make_latex_plain fully));
      do b <- or_none linked (if Nat.ltb 1 rank then make_latex_linked linked else Ok (make_latex_plain linked));
      do c <- or_none unlinked (make_latex_unlinked unlinked);
      Ok (mkeq a b c).

  Definition section_break : string := nl ++ "%" ++ nl ++ "%" ++ nl ++ "\\  &+" ++ nl ++ "%" ++ nl ++ "%" ++ nl.

  Definition render_equation (rank : nat) (e : equation) : string :=
    replace_empty "_{}" (replace_empty "^{}"
      (if Nat.eqb rank 0 then
         join " + " (map (render_lsum "") [eq_fully e; eq_linked e; eq_unlinked e])
       else
         render_lsum (tab ++ "\textit{no fully connected terms}") (eq_fully e)
         ++ section_break
         ++ render_lsum (tab ++ "\textit{no linked disconnected terms}") (eq_linked e)
         ++ section_break
         ++ render_lsum (tab ++ "\textit{no unlinked disconnected terms}") (eq_unlinked e))).

  (** lines 1343-1384 [_generate_cc_latex_equations] *)
  Definition generate_cc_latex_equations (omega : gop)
      (maximum_h_rank maximum_cc_rank s_taylor_max_order : nat)
      (only_ground_state remove_f_terms : bool) : res equation :=
    do l <- full_cc_terms so omega maximum_h_rank maximum_cc_rank s_taylor_max_order
              only_ground_state remove_f_terms;
    do g <- seperate_s_terms_by_connection l;
    let '(fully, linked, unlinked) := g in
    write_cc_latex_from_lists (g_rank omega) fully linked unlinked.
End SetOrders.

(** ** Left hand side *)

Section Left.
  Variable sop : list (list (nat * nat)) -> list (list (nat * nat)).  (* matched_set *)

  (** A printed amplitude: upper and lower letters. *)
  Definition amp : Type := string * string.
  Definition render_amp (a : amp) : string := "\bt^{" ++ fst a ++ "}_{" ++ snd a ++ "}".

  (** lines 1452-1462 *)
  Fixpoint label_group (count : nat) (g : list (nat * nat)) : list amp :=
    match g with
    | [] => []
    | t :: r =>
        (sslice count (count + fst t) summation_indices,
         sslice (count + fst t) (count + fst t + snd t) summation_indices)
        :: label_group (count + fst t + snd t) r
    end.

  (** A term of the left hand side: the derivative of one amplitude of a
      product, or a product times epsilon. *)
  Inductive lhs_term :=
  | LDeriv (left : list amp) (d : amp) (right : list amp)
  | LEps (l : list amp).

  (** lines 1471-1487 *)
  Definition derivatives (g : list amp) : list lhs_term :=
    flat_map (fun i => match skipn i g with
                       | [] => []
                       | d :: r => [LDeriv (firstn i g) d r]
                       end) (range 0 (List.length g)).

  (** lines 1389-1491 [_generate_left_hand_side]: [None] for the projection
      operator of rank 0.  The lines 1399-1442 are those of
      [latex_w_equations.generate_t_terms_group] for W^n_m: the upper sum is
      compared with n, the lower sum with m. *)
  Definition left_groups (omega : gop) : option (list (list amp)) :=
    match generate_t_terms_group sop (g_n omega, g_m omega) with
    | inl _ => None
    | inr gs => Some (map (label_group 0) gs)
    end.

  Definition generate_left_hand_side (omega : gop) : option (list lhs_term) :=
    match left_groups omega with
    | None => None
    | Some gs => Some (flat_map derivatives gs ++ map LEps gs)%list
    end.

  Definition render_lhs_term (t : lhs_term) : string :=
    match t with
    | LDeriv l d r =>
        concat_str (map render_amp l) ++ "\dv{" ++ render_amp d ++ "}{\tau}" ++ concat_str (map render_amp r)
    | LEps l => concat_str (map render_amp l) ++ "\varepsilon"
    end.

  Definition render_left (l : option (list lhs_term)) : string :=
    match l with
    | None => "i\left(\varepsilon\right)"
    | Some l => "i\left(" ++ join " + " (map render_lhs_term l) ++ "\right)"
    end.
End Left.

(** ** The file *)

(** lines 1497-1506; the letter is [summation_indices[i]].  The name of an
    operator has as many letters as its rank. *)
Fixpoint omega_letters (i : nat) (name : string) : string :=
  match name with
  | EmptyString => ""
  | String c r =>
      (if Ascii.eqb c "d" then "\up{" ++ sslice i (i + 1) summation_indices ++ "}"
       else if Ascii.eqb c "b" then "\down{" ++ sslice i (i + 1) summation_indices ++ "}"
       else "") ++ omega_letters (S i) r
  end.

(** lines 1494-1521 [_wrap_align_environment] *)
Definition wrap_align_environment (omega : gop) (lhs eqns : string) : string :=
  let o := omega_letters 0 (g_name omega) in
  "\begin{align}\begin{split}" ++ nl
  ++ tab ++ "\hat{\Omega} = " ++ (if o =? "" then "1" else o) ++ nl
  ++ "\\ LHS &=" ++ nl
  ++ tab ++ lhs ++ nl
  ++ "\\ RHS &=" ++ nl ++ "%" ++ nl ++ "%" ++ nl
  ++ eqns ++ nl
  ++ "\end{split}\end{align}" ++ nl ++ nl.

(** lines 1545-1547, after [capitalize()] *)
Definition rank_names : list string :=
  ["0 order"; "Linear"; "Quadratic"; "Cubic"; "Quartic"; "Quintic"; "Sextic"; "Septic"; "Octic"].

Section File.
  Variable so : list (list tamp) -> list (list tamp).
  Variable son : list nat -> list nat.
  Variable sop : list (list (nat * nat)) -> list (list (nat * nat)).

  (** lines 1549-1570, without the text *)
  Definition latex_equations (maximum_h_rank maximum_cc_rank s_taylor_max_order omega_max_order : nat)
      (only_ground_state remove_f_terms : bool) : res (list (gop * option (list lhs_term) * equation)) :=
    mapM (fun omega =>
      do e <- generate_cc_latex_equations so son omega maximum_h_rank maximum_cc_rank
                s_taylor_max_order only_ground_state remove_f_terms;
      do _ <- py_nth rank_names (g_rank omega);
      Ok (omega, generate_left_hand_side sop omega, e))
      (generate_omega_operator maximum_cc_rank omega_max_order).

  (** line 1566: for i = 0 the previous operator is the last one *)
  Fixpoint render_equations (prev : nat) (l : list (gop * option (list lhs_term) * equation)) : string :=
    match l with
    | [] => ""
    | (omega, lhs, e) :: r =>
        "%" ++ nl ++ "%" ++ nl ++ "%" ++ nl ++ "%" ++ nl ++ "%" ++ nl ++ nl
        ++ (if Nat.ltb prev (g_rank omega) then
              (if Nat.leb 2 (g_rank omega) then "\newpage" ++ nl else "")
              ++ "\subsection{" ++ nth (g_rank omega) rank_names "" ++ " Equations}" ++ nl ++ nl
            else "")
        ++ wrap_align_environment omega (render_left lhs) (render_equation (g_rank omega) e)
        ++ render_equations (g_rank omega) r
    end.

  (** lines 1524-1583 [generate_full_cc_latex] after the verification of the
      truncations (see ModelTrunc): the text that follows the header (the
      headers of reference_latex_headers.py are constants). *)
  Definition generate_full_cc_latex (maximum_h_rank maximum_cc_rank s_taylor_max_order omega_max_order : nat)
      (only_ground_state remove_f_terms : bool) : res string :=
    do l <- latex_equations maximum_h_rank maximum_cc_rank s_taylor_max_order omega_max_order
              only_ground_state remove_f_terms;
    Ok (render_equations
          (match rev l with [] => 0 | (omega, _, _) :: _ => g_rank omega end) l
        ++ "\end{document}").
End File.
