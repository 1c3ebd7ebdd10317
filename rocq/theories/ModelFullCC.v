(** Model of /repo/termfactory/latex_full_cc.py, lines 33-711: the operators
    of the full coupled cluster expansion, the generation of all terms
    Omega * H * (S * ... * S) and their separation into groups.  Both the
    LaTeX and the python generator of the ansatz start from these lists. *)
From Verif Require Import PyBase.

(** ** Operators *)

(** namedtuple_defines.py 15 [general_operator_namedtuple] *)
Record gop := mkgop { g_name : string; g_rank : nat; g_m : nat; g_n : nat }.

(** latex_full_cc.py 35 [h_operator_namedtuple] *)
Record hop := mkhop { h_rank : nat; h_m : nat; h_n : nat }.

(** The double loop `for m in range(r + 1): for n in range(r + 1 - m)` of
    lines 69-70, 89-90 and 107-108. *)
Definition mn_pairs (r : nat) : list (nat * nat) :=
  flat_map (fun m => map (fun n => (m, n)) (range 0 (r + 1 - m))) (range 0 (r + 1)).

(** lines 72: ["d"*m + "b"*n] *)
Definition omega_name (m n : nat) : string := (str_repeat "d" m ++ str_repeat "b" n)%string.

(** line 77: [sort(key=lambda x: len(x.name))], stable. *)
Definition name_len_leb (a b : gop) : bool :=
  Nat.leb (String.length (g_name a)) (String.length (g_name b)).

(** lines 57-79 [generate_omega_operator]: the [operator_list]. *)
Definition generate_omega_operator (maximum_cc_rank omega_max_order : nat) : list gop :=
  isort name_len_leb
    (map (fun mn => mkgop (omega_name (fst mn) (snd mn)) (fst mn + snd mn) (fst mn) (snd mn))
       (filter (fun mn => Nat.leb (fst mn + snd mn) omega_max_order) (mn_pairs maximum_cc_rank))).

(** lines 82-93 [generate_full_cc_hamiltonian_operator] *)
Definition generate_full_cc_hamiltonian_operator (maximum_rank : nat) : list hop :=
  map (fun mn => mkhop (fst mn + snd mn) (fst mn) (snd mn)) (mn_pairs maximum_rank).

(** lines 118-120 *)
Definition s_name (m n : nat) : string :=
  ("s" ++ (if Nat.ltb 0 m then "^" ++ str_nat m else "")
       ++ (if Nat.ltb 0 n then "_" ++ str_nat n else ""))%string.

(** lines 96-124 [generate_s_operator] *)
Definition generate_s_operator (maximum_cc_rank : nat) (only_ground_state : bool) : list gop :=
  map (fun mn => mkgop (s_name (fst mn) (snd mn)) (fst mn + snd mn) (fst mn) (snd mn))
    (filter (fun mn => negb (only_ground_state && Nat.ltb 0 (snd mn))
                       && negb (Nat.eqb (fst mn) 0 && Nat.eqb (snd mn) 0))
       (mn_pairs maximum_cc_rank)).

(** One entry of the expansion of e^S: the bare operator 1, a list of
    operators, or a list of lists (lines 127-151). *)
Inductive series_term :=
| SOne (s : gop)
| SLin (l : list gop)
| SProd (l : list (list gop)).

(** lines 154-189 [generate_s_taylor_expansion] *)
Definition generate_s_taylor_expansion (maximum_cc_rank s_taylor_max_order : nat)
    (only_ground_state : bool) : list series_term :=
  let S := generate_s_operator maximum_cc_rank only_ground_state in
  SOne (mkgop "1" 0 0 0)
  :: (if Nat.leb 1 s_taylor_max_order then [SLin S] else [])
  ++ (if Nat.leb 2 s_taylor_max_order
      then map (fun n => SProd (product (repeat S n))) (range 2 (s_taylor_max_order + 1))
      else []).

(** ** Validating operator pairings *)

(** lines 276-294 *)
Definition t_joining_with_t_terms (omega : gop) (h : hop) (s_list : list gop) : bool :=
  let available_b := g_n omega + h_n h in
  let available_d := g_m omega + h_m h in
  let required_b := list_sum (map g_m s_list) in
  let required_d := list_sum (map g_n s_list) in
  Nat.ltb available_b required_b || Nat.ltb available_d required_d.

(** lines 297-317 *)
Definition omega_joining_with_itself (omega : gop) (h : hop) (s_list : list gop) : bool :=
  if Nat.eqb (g_m omega) 0 || Nat.eqb (g_n omega) 0 then false
  else if (Nat.ltb 0 (g_n omega) && Nat.ltb 0 (h_m h)) || (Nat.ltb 0 (g_m omega) && Nat.ltb 0 (h_n h))
  then false
  else negb (existsb (fun s => (Nat.ltb 0 (g_n omega) && Nat.ltb 0 (g_m s))
                               || (Nat.ltb 0 (g_m omega) && Nat.ltb 0 (g_n s))) s_list).

(** lines 320-340 *)
Definition h_joining_with_itself (omega : gop) (h : hop) (s_list : list gop) : bool :=
  if Nat.eqb (h_m h) 0 || Nat.eqb (h_n h) 0 then false
  else if (Nat.ltb 0 (h_m h) && Nat.ltb 0 (g_n omega)) || (Nat.ltb 0 (h_n h) && Nat.ltb 0 (g_m omega))
  then false
  else negb (existsb (fun s => (Nat.ltb 0 (h_m h) && Nat.ltb 0 (g_n s))
                               || (Nat.ltb 0 (h_n h) && Nat.ltb 0 (g_m s))) s_list).

(** lines 360-403 [_generate_valid_s_n_operator_permutations] *)
Definition valid_permutation (omega : gop) (h : hop) (perm : list gop) : bool :=
  let nof_creation_ops := g_m omega + h_m h + list_sum (map g_m perm) in
  let nof_annihilation_ops := g_n omega + h_n h + list_sum (map g_n perm) in
  if negb (Nat.eqb nof_creation_ops nof_annihilation_ops) then false
  else if t_joining_with_t_terms omega h perm then false
  else if omega_joining_with_itself omega h perm then false
  else if h_joining_with_itself omega h perm then false
  else true.

Definition generate_valid_s_n_operator_permutations omega h (series : list (list gop)) : list (list gop) :=
  filter (valid_permutation omega h) series.

(** ** Connections *)

(** namedtuple_defines.py 40-41: [connected_namedtuple] and
    [disconnected_namedtuple] have the same fields.  Which of the two types an
    object has is decided, where the objects are built (latex_full_cc.py
    488-494), by its fields, and python compares and sorts both as plain
    tuples; the model therefore keeps the fields only. *)
Record tamp := mkt { m_h : nat; n_h : nat; m_o : nat; n_o : nat }.

(** lines 488-494: [isinstance(s, connected_namedtuple)] *)
Definition is_connected (s : tamp) : bool := negb (Nat.eqb (m_h s) 0 && Nat.eqb (n_h s) 0).

Definition tkey4 (s : tamp) : list nat := [m_h s; n_h s; m_o s; n_o s].
Definition tamp_eqb (a b : tamp) : bool := nats_eqb (tkey4 a) (tkey4 b).
Definition tamp_leb (a b : tamp) : bool := nats_leb (tkey4 a) (tkey4 b).
Definition tamps_eqb := list_eqb tamp_eqb.

(** [disconnected_namedtuple(0, 0, 0, 0)]: the factor 1 of e^S *)
Definition t_one : tamp := mkt 0 0 0 0.

(** [(i, M - i) for i in range(0, M + 1)], lines 421-425 *)
Definition splits (M : nat) : list (nat * nat) := map (fun i => (i, M - i)) (range 0 (M + 1)).

(** lines 406-463 [_generate_all_valid_t_connection_permutations]; by
    convention the pairs are (o, h). *)
Definition upper_perms (omega : gop) (h : hop) (s_term_list : list gop) : list (list (nat * nat)) :=
  filter (fun p => Nat.leb (list_sum (map snd p)) (h_n h) && Nat.leb (list_sum (map fst p)) (g_n omega))
    (product (map (fun s => splits (g_m s)) s_term_list)).

Definition lower_perms (omega : gop) (h : hop) (s_term_list : list gop) : list (list (nat * nat)) :=
  filter (fun p => Nat.leb (list_sum (map snd p)) (h_m h) && Nat.leb (list_sum (map fst p)) (g_m omega))
    (product (map (fun s => splits (g_n s)) s_term_list)).

(** lines 480-494: one amplitude per pair of an upper and a lower split. *)
Definition combine_perms (upper lower : list (nat * nat)) : list tamp :=
  map (fun ul => mkt (snd (fst ul)) (snd (snd ul)) (fst (fst ul)) (fst (snd ul))) (combine upper lower).

(** lines 466-499 [_generate_all_omega_h_connection_permutations] *)
Definition connection_permutations (omega : gop) (h : hop) (valid : list (list gop))
  : res (list (list tamp)) :=
  do ls <- mapM (fun perm =>
      mapM (fun ul : list (nat * nat) * list (nat * nat) =>
              if Nat.eqb (List.length (fst ul)) (List.length (snd ul))
              then Ok (combine_perms (fst ul) (snd ul)) else Err AssertionErr)
           (flat_map (fun upper => map (fun lower => (upper, lower)) (lower_perms omega h perm))
                     (upper_perms omega h perm)))
    valid;
  Ok (List.concat ls).

(** lines 52-53 *)
Record comega := mkco { co_rank : nat; co_m : nat; co_n : nat; co_m_h : nat; co_n_h : nat;
                        co_m_t : list nat; co_n_t : list nat }.
Record chop := mkch { ch_rank : nat; ch_m : nat; ch_n : nat; ch_m_o : nat; ch_n_o : nat;
                      ch_m_t : list nat; ch_n_t : list nat }.

Definition term : Type := comega * chop * list tamp.

(** lines 529-559, one iteration: [None] is `continue`.  The four
    subtractions are taken over the integers in python; the assertions that
    the results are not negative come first here, so that natural numbers
    suffice after them. *)
Definition explicit_connection (omega : gop) (h : hop) (s_list : list tamp) : res (option term) :=
  let om_t := map n_o s_list in
  let on_t := map m_o s_list in
  let hm_t := map n_h s_list in
  let hn_t := map m_h s_list in
  if Nat.ltb (g_m omega) (list_sum om_t) || Nat.ltb (g_n omega) (list_sum on_t) then Err AssertionErr
  else if Nat.ltb (h_m h) (list_sum hm_t) || Nat.ltb (h_n h) (list_sum hn_t) then Err AssertionErr
  else
    let om_h := g_m omega - list_sum om_t in
    let on_h := g_n omega - list_sum on_t in
    let hm_o := h_m h - list_sum hm_t in
    let hn_o := h_n h - list_sum hn_t in
    if negb (Nat.eqb hm_o on_h) then Ok None
    else if negb (Nat.eqb hn_o om_h) then Ok None
    else Ok (Some (mkco (g_m omega + g_n omega) (g_m omega) (g_n omega) om_h on_h om_t on_t,
                   mkch (h_m h + h_n h) (h_m h) (h_n h) hm_o hn_o hm_t hn_t,
                   s_list)).

Fixpoint catOptions {A} (l : list (option A)) : list A :=
  match l with
  | [] => []
  | Some x :: r => x :: catOptions r
  | None :: r => catOptions r
  end.

(** lines 520-561 [_generate_explicit_connections] *)
Definition generate_explicit_connections omega h (unique_s_permutations : list (list tamp)) : res (list term) :=
  do os <- mapM (explicit_connection omega h) unique_s_permutations; Ok (catOptions os).

(** lines 564-580 [_remove_f_zero_terms] *)
Definition remove_f_zero_terms (l : list term) : list term :=
  filter (fun t => negb (Nat.leb 1 (co_m_h (fst (fst t))))) l.

Section Terms.
  (** The iteration order of the set of sorted tuples of line 504. *)
  Variable so : list (list tamp) -> list (list tamp).

  (** lines 502-517 [_remove_duplicate_s_permutations] *)
  Definition remove_duplicate_s_permutations (s_list : list (list tamp)) : list (list tamp) :=
    so (dedup tamps_eqb (map (isort tamp_leb) s_list)).

  (** lines 609-649, one Hamiltonian operator.  The test [term[2] != set()] of
      line 647 compares a tuple with a set and always holds. *)
  Definition h_terms (omega : gop) (series : list (list gop)) (remove_f_terms : bool) (h : hop)
    : res (list term) :=
    match generate_valid_s_n_operator_permutations omega h series with
    | [] => Ok []
    | valid =>
        do conn <- connection_permutations omega h valid;
        do labeled <- generate_explicit_connections omega h (remove_duplicate_s_permutations conn);
        Ok (if remove_f_terms && (Nat.leb 1 (g_m omega) && Nat.leb 1 (h_n h))
            then remove_f_zero_terms labeled else labeled)
    end.

  (** lines 590-606: what the entry of the expansion is.  An empty list has no
      element 0; a list of lists shorter than 2 matches no branch and leaves
      [s_order] unassigned. *)
  Definition wrap_series (s : series_term) : res (list (list gop)) :=
    match s with
    | SOne x => Ok [[x]]
    | SLin [] => Err IndexErr
    | SLin l => Ok (map (fun x => [x]) l)
    | SProd [] => Err IndexErr
    | SProd ((f :: l) as r) => if Nat.leb 2 (List.length f) then Ok r else Err UnboundLocalErr
    end.

  (** lines 583-651 [_filter_out_valid_s_terms] *)
  Definition filter_out_valid_s_terms (omega : gop) (H : list hop) (s : series_term)
      (remove_f_terms : bool) : res (list term) :=
    do series <- wrap_series s;
    do ls <- mapM (h_terms omega series remove_f_terms) H;
    Ok (List.concat ls).

  (** latex_full_cc.py 1369-1374 and code_full_cc.py 623-625, 1064-1066: the
      list of all valid terms of one projection operator. *)
  Definition valid_term_list (omega : gop) (H : list hop) (expansion : list series_term)
      (remove_f_terms : bool) : res (list term) :=
    do ls <- mapM (fun s => filter_out_valid_s_terms omega H s remove_f_terms) expansion;
    Ok (List.concat ls).

  (** The list for given truncations. *)
  Definition full_cc_terms (omega : gop) (maximum_h_rank maximum_cc_rank s_taylor_max_order : nat)
      (only_ground_state remove_f_terms : bool) : res (list term) :=
    valid_term_list omega (generate_full_cc_hamiltonian_operator maximum_h_rank)
      (generate_s_taylor_expansion maximum_cc_rank s_taylor_max_order only_ground_state)
      remove_f_terms.
End Terms.

(** ** Separation *)

Inductive group := Fully | Linked | Unlinked.

(** lines 667-698: the loop over the amplitudes with its break and else. *)
Fixpoint separate_loop (omega : comega) (linked_flag : bool) (l : list tamp) : res group :=
  match l with
  | [] => Ok (if linked_flag then Linked else Fully)
  | s :: r =>
      if is_connected s then separate_loop omega linked_flag r
      else if Nat.eqb (m_o s) (co_n omega) && Nat.eqb (n_o s) (co_m omega) then Ok Unlinked
      else if Nat.eqb (co_rank omega) 1 then Err GenericException
      else separate_loop omega true r
  end.

(** lines 663, 1030 (and code_full_cc.py 259, 389): a single factor 1 *)
Definition is_bare_h (l : list tamp) : bool :=
  match l with [s] => tamp_eqb s t_one | _ => false end.

Definition group_of (t : term) : res group :=
  let '(omega, h, s_term_list) := t in
  if is_bare_h s_term_list then Ok Fully else separate_loop omega false s_term_list.

(** lines 654-711 [_seperate_s_terms_by_connection] (the misspelling is in
    the code) *)
Fixpoint seperate_s_terms_by_connection (total : list term)
  : res (list term * list term * list term) :=
  match total with
  | [] => Ok ([], [], [])
  | t :: r =>
      do g <- group_of t;
      do fl <- seperate_s_terms_by_connection r;
      let '(fully, linked, unlinked) := fl in
      Ok (match g with
          | Fully => (t :: fully, linked, unlinked)
          | Linked => (fully, t :: linked, unlinked)
          | Unlinked => (fully, linked, t :: unlinked)
          end)
  end.
