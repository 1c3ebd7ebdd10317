(** Model of /repo/termfactory/latex_zhz.py: the z t symmetrised equations
    (projection * Z * H * Z).

    Not modelled: 104-168 and 276-419 (not called anywhere; they use names the
    file does not import), 171-272 (not called), 1050-1117 (called only after
    a [raise]), log output. *)
From Verif Require Import PyBase PyStr ModelHelper ModelW ModelLatexW ModelFullCC ModelFullCCPy ModelFullCCLatex.

(** common_imports.py: the index letters of this ansatz *)
Definition z_summation_indices : string := "klmno".
Definition z_unlinked_indices : string := "yxwvuts".

(** ** Operators *)

(** lines 94-96 *)
Definition z_name (m n : nat) : string :=
  ("z" ++ (if Nat.ltb 0 m then "^" ++ str_nat m else "")
       ++ (if Nat.ltb 0 n then "_" ++ str_nat n else ""))%string.

(** lines 78-100 [generate_z_operator]: the [operator_list] *)
Definition generate_z_operator (maximum_cc_rank : nat) (only_ground_state : bool) : list gop :=
  map (fun mn => mkgop (z_name (fst mn) (snd mn)) (fst mn + snd mn) (fst mn) (snd mn))
    (filter (fun mn => negb (only_ground_state && Nat.ltb 0 (snd mn))) (mn_pairs maximum_cc_rank)).

(** A missing Z is [general_operator_namedtuple(None, 0, 0, 0)] (817, 825). *)
Definition z_counts (z : option gop) : gop :=
  match z with Some z => z | None => mkgop "" 0 0 0 end.

(** ** Validating pairings *)

(** lines 422-459 [_z_joining_with_z_terms] *)
Definition z_joining_with_z_terms (lhs : gop) (h : hop) (left_z right_z : gop) : bool :=
  Nat.ltb (g_n lhs + h_n h + g_n right_z) (g_m left_z)
  || Nat.ltb (g_m lhs + h_m h + g_m right_z) (g_n left_z)
  || Nat.ltb (g_n lhs + h_n h + g_n left_z) (g_m right_z)
  || Nat.ltb (g_m lhs + h_m h + g_m left_z) (g_n right_z).

(** lines 462-507 [_generate_valid_z_n_operator_permutations]; the functions of
    lines 494 and 499 are those of latex_full_cc.py *)
Definition valid_z_permutation (lhs : gop) (h : hop) (perm : option gop * option gop) : bool :=
  let left_z := z_counts (fst perm) in
  let right_z := z_counts (snd perm) in
  if negb (Nat.eqb (g_m lhs + h_m h + g_m left_z + g_m right_z)
                   (g_n lhs + h_n h + g_n left_z + g_n right_z)) then false
  else if z_joining_with_z_terms lhs h left_z right_z then false
  else if omega_joining_with_itself lhs h [left_z; right_z] then false
  else if h_joining_with_itself lhs h [left_z; right_z] then false
  else true.

Definition generate_valid_z_n_operator_permutations lhs h (perms : list (option gop * option gop)) :=
  filter (valid_z_permutation lhs h) perms.

(** ** Connections *)

(** (with the projection, with h, with the other Z) *)
Definition three : Type := nat * nat * nat.
Definition at_lhs (t : three) : nat := fst (fst t).
Definition at_h (t : three) : nat := snd (fst t).
Definition at_z (t : three) : nat := snd t.

(** lines 529-541 *)
Definition triples (M : nat) : list three :=
  map (fun ab => (fst ab, snd ab, M - (fst ab + snd ab)))
    (filter (fun ab => Nat.leb (fst ab + snd ab) M) (list_prod (range 0 (M + 1)) (range 0 (M + 1)))).

(** lines 546-579 for the upper, 581-618 for the lower indices:
    [lhs], [h], [right] and [left] are the counts on the other side *)
Definition connection_perms (M_left M_right lhs h right left : nat) : list (three * three) :=
  filter (fun p => Nat.leb (at_h (fst p) + at_h (snd p)) h
                   && Nat.leb (at_lhs (fst p) + at_lhs (snd p)) lhs
                   && Nat.leb (at_z (fst p)) right
                   && Nat.leb (at_z (snd p)) left)
    (list_prod (triples M_left) (triples M_right)).

(** lines 510-620 [_generate_all_valid_z_connection_permutations] *)
Definition generate_all_valid_z_connection_permutations (lhs : gop) (h : hop) (left_z right_z : gop) :
    list (three * three) * list (three * three) :=
  (connection_perms (g_m left_z) (g_m right_z) (g_n lhs) (h_n h) (g_n right_z) (g_n left_z),
   connection_perms (g_n left_z) (g_n right_z) (g_m lhs) (h_m h) (g_m right_z) (g_m left_z)).

(** lines 56-72: the four namedtuples for a Z operator; [.._x] is [.._r] on the
    left and [.._l] on the right.  The connected and the disconnected types
    have the same fields; 664 and 686 decide between them by the fields. *)
Record zcon := mkz {
  z_rank : nat; z_m : nat; z_n : nat; z_m_lhs : nat; z_n_lhs : nat;
  z_m_h : nat; z_n_h : nat; z_m_x : nat; z_n_x : nat
}.
Definition z_disconnected (z : zcon) : bool := Nat.eqb (z_m_h z) 0 && Nat.eqb (z_n_h z) 0.

Definition three_zero (t : three) : bool :=
  Nat.eqb (at_lhs t) 0 && Nat.eqb (at_h t) 0 && Nat.eqb (at_z t) 0.

(** lines 648-690 for one of the two sides *)
Definition build_z (z : option gop) (upper lower : three) : res (option zcon) :=
  match z with
  | None => if three_zero upper && three_zero lower then Ok None else Err AssertionErr
  | Some z => Ok (Some (mkz (g_rank z) (g_m z) (g_n z) (at_lhs upper) (at_lhs lower)
                            (at_h upper) (at_h lower) (at_z upper) (at_z lower)))
  end.

(** lines 693-704 *)
Definition z_z_consistent (l r : option zcon) : bool :=
  match l, r with
  | Some l, Some r => Nat.eqb (z_m_x l) (z_n_x r) && Nat.eqb (z_n_x l) (z_m_x r)
  | _, _ => true
  end.

Definition zpair : Type := option zcon * option zcon.

Definition concatM {A B} (f : A -> res (list B)) (l : list A) : res (list B) :=
  do r <- mapM f l; Ok (List.concat r).

(** lines 623-717 [_generate_all_o_h_z_connection_permutations] *)
Definition generate_all_o_h_z_connection_permutations (lhs : gop) (h : hop)
    (perms : list (option gop * option gop)) : res (list zpair) :=
  concatM (fun perm =>
    let '(uppers, lowers) :=
      generate_all_valid_z_connection_permutations lhs h (z_counts (fst perm)) (z_counts (snd perm)) in
    concatM (fun upper =>
      concatM (fun lower =>
        do l <- build_z (fst perm) (fst upper) (fst lower);
        do r <- build_z (snd perm) (snd upper) (snd lower);
        Ok (if z_z_consistent l r then [(l, r)] else [])) lowers) uppers) perms.

(** lines 47-54 *)
Record clhs := mkl {
  l_rank : nat; l_m : nat; l_n : nat; l_m_l : nat; l_n_l : nat;
  l_m_h : nat; l_n_h : nat; l_m_r : nat; l_n_r : nat
}.
Record hcon := mkhz {
  hz_rank : nat; hz_m : nat; hz_n : nat; hz_m_lhs : nat; hz_n_lhs : nat;
  hz_m_l : nat; hz_n_l : nat; hz_m_r : nat; hz_n_r : nat
}.

Definition zterm : Type := clhs * hcon * zpair.

Definition count_of (f : zcon -> nat) (z : option zcon) : nat :=
  match z with Some z => f z | None => 0 end.

(** lines 729-803 [_generate_explicit_z_connections]: [None] for a [continue] *)
Definition explicit_z_connection (lhs : gop) (h : hop) (p : zpair) : res (option zterm) :=
  let '(zl, zr) := p in
  match zl, zr with
  | None, None => Err AssertionErr      (* line 741 *)
  | _, _ =>
      let m_l := count_of z_n_lhs zl in
      let n_l := count_of z_m_lhs zl in
      let m_r := count_of z_n_lhs zr in
      let n_r := count_of z_m_lhs zr in
      let hm_l := count_of z_n_h zl in
      let hn_l := count_of z_m_h zl in
      let hm_r := count_of z_n_h zr in
      let hn_r := count_of z_m_h zr in
      if Nat.leb (m_l + m_r) (g_m lhs) && Nat.leb (n_l + n_r) (g_n lhs)
         && Nat.leb (hm_l + hm_r) (h_m h) && Nat.leb (hn_l + hn_r) (h_n h)
      then
        let m_h := g_m lhs - (m_l + m_r) in
        let n_h := g_n lhs - (n_l + n_r) in
        let m_lhs := h_m h - (hm_l + hm_r) in
        let n_lhs := h_n h - (hn_l + hn_r) in
        if negb (Nat.eqb m_lhs n_h) then Ok None
        else if negb (Nat.eqb n_lhs m_h) then Ok None
        else Ok (Some (mkl (g_m lhs + g_n lhs) (g_m lhs) (g_n lhs) m_l n_l m_h n_h m_r n_r,
                       mkhz (h_m h + h_n h) (h_m h) (h_n h) m_lhs n_lhs hm_l hn_l hm_r hn_r,
                       p))
      else Err AssertionErr               (* lines 777-778 *)
  end.

Definition option_list {A} (o : option A) : list A := match o with Some x => [x] | None => [] end.

Definition generate_explicit_z_connections lhs h (ps : list zpair) : res (list zterm) :=
  concatM (fun p => do o <- explicit_z_connection lhs h p; Ok (option_list o)) ps.

(** Which Z operators take part: H Z, Z H or Z H Z (815-839; both missing is
    an error nowhere reached). *)
Inductive z_sides :=
| HZ (right : list gop)
| ZH (left : list gop)
| ZHZ (left right : list gop).

(** line 841 *)
Definition all_z_permutations (s : z_sides) : list (option gop * option gop) :=
  match s with
  | HZ r => map (fun z => (None, Some z)) r
  | ZH l => map (fun z => (Some z, None)) l
  | ZHZ l r => map (fun p => (Some (fst p), Some (snd p))) (list_prod l r)
  end.

(** the [..._terms[0]] of lines 819, 827, 838 and 839 *)
Definition sides_nonempty (s : z_sides) : bool :=
  match s with
  | HZ [] | ZH [] | ZHZ [] _ | ZHZ _ [] => false
  | _ => true
  end.

(** lines 806-900 [_filter_out_valid_z_terms]: the terms appended *)
Definition filter_out_valid_z_terms (lhs : gop) (H : list hop) (s : z_sides) : res (list zterm) :=
  if sides_nonempty s then
    concatM (fun h =>
      do ps <- generate_all_o_h_z_connection_permutations lhs h
                 (generate_valid_z_n_operator_permutations lhs h (all_z_permutations s));
      generate_explicit_z_connections lhs h ps) H
  else Err IndexErr.

(** ** Labels *)
Open Scope string_scope.

(** The three parts of an index, in the order printed; [None] if the operator
    has no such index. *)
Definition zlab : Type := option (string * string * string).

(** [base[o:o + k]] *)
Definition take_at (base : string) (o k : nat) : string := sslice o (o + k) base.

(** lines 904-959 [_build_left_z_term] ([color] is true in every call); parts:
    with h (not coloured), with the right Z, with the projection *)
Definition left_z_labels (z : zcon) : option (zlab * zlab) :=
  if Nat.eqb (z_rank z) 0 then None
  else
    Some (if Nat.ltb 0 (z_m z)
          then Some (take_at z_summation_indices 0 (z_m_h z),
                     take_at z_summation_indices (z_m_h z) (z_m_x z),
                     take_at z_unlinked_indices 0 (z_m_lhs z))
          else None,
          if Nat.ltb 0 (z_n z)
          then Some (take_at z_summation_indices (z_m_h z + z_m_x z) (z_n_h z),
                     take_at z_summation_indices (z_m_h z + z_m_x z + z_n_h z) (z_n_x z),
                     take_at z_unlinked_indices (z_m_lhs z) (z_n_lhs z))
          else None).

(** lines 962-1001 [_build_hz_term_latex_labels]; [a], [s] and [u] are the
    entries 'left_upper', 'summation_index' and 'unlinked_index'; parts: with
    the left Z, with the right Z, with the projection.  Upper, lower. *)
Definition hz_labels (h : hcon) (a s u : nat) : option (zlab * zlab) :=
  if Nat.eqb (hz_rank h) 0 then None
  else
    let '(lower, s, u) :=
      if Nat.ltb 0 (hz_n h)
      then (Some (take_at z_summation_indices 0 (hz_n_l h),
                  take_at z_summation_indices s (hz_n_r h),
                  take_at z_unlinked_indices u (hz_n_lhs h)), s + hz_n_r h, u + hz_n_lhs h)
      else (None, s, u) in
    let upper :=
      if Nat.ltb 0 (hz_m h)
      then Some (take_at z_summation_indices a (hz_m_l h),
                 take_at z_summation_indices s (hz_m_r h),
                 take_at z_unlinked_indices u (hz_m_lhs h))
      else None in
    Some (upper, lower).

(** The offsets of lines 1411-1417 and 1499-1505. *)
Record right_offsets := mkro { ro_left_lower : nat; ro_left_upper : nat; ro_h_lower : nat; ro_h_upper : nat; ro_unlinked : nat }.

(** lines 1004-1046 [_build_right_z_term]; parts: with the left Z, with h,
    with the projection *)
Definition right_z_labels (z : zcon) (o : right_offsets) : option (zlab * zlab) :=
  if Nat.eqb (z_rank z) 0 then None
  else
    let '(lower, u) :=
      if Nat.ltb 0 (z_n z)
      then (Some (take_at z_summation_indices (ro_left_lower o) (z_n_x z),
                  take_at z_summation_indices (ro_h_lower o) (z_n_h z),
                  take_at z_unlinked_indices (ro_unlinked o) (z_n_lhs z)), ro_unlinked o + z_n_lhs z)
      else (None, ro_unlinked o) in
    let upper :=
      if Nat.ltb 0 (z_m z)
      then Some (take_at z_summation_indices (ro_left_upper o) (z_m_x z),
                 take_at z_summation_indices (ro_h_upper o) (z_m_h z),
                 take_at z_unlinked_indices u (z_m_lhs z))
      else None in
    Some (upper, lower).

Definition render_parts (a b : string) (l : zlab) : string :=
  match l with
  | None => ""
  | Some (x, y, z) =>
      (if a =? "" then x else a ++ "{" ++ x ++ "}") ++ b ++ "{" ++ y ++ "}\red{" ++ z ++ "}"
  end.
Definition render_op (name a b : string) (l : option (zlab * zlab)) : string :=
  match l with
  | None => name ++ "_0"
  | Some (up, down) => name ++ "^{" ++ render_parts a b up ++ "}_{" ++ render_parts a b down ++ "}"
  end.
Definition render_left_z := render_op "\bz" "" "\blue".
Definition render_hz := render_op "\bh" "\blue" "\blue".
Definition render_right_z := render_op "\bz" "\magenta" "\blue".

(** ** Prefactors *)

Definition check (b : bool) {A} (a : A) : res A := if b then Ok a else Err AssertionErr.

(** lines 1120-1169 *)
Definition f_zL_h (z : zcon) (h : hcon) : res nat :=
  if z_disconnected z then check (Nat.eqb (hz_n_l h) 0) 0
  else check (Nat.eqb (z_m_h z) (hz_n_l h)) (z_m_h z).
Definition fbar_zL_h (z : zcon) (h : hcon) : res nat :=
  if z_disconnected z then check (Nat.eqb (hz_m_l h) 0) 0
  else check (Nat.eqb (z_n_h z) (hz_m_l h)) (z_n_h z).
Definition f_h_zR (h : hcon) (z : zcon) : res nat :=
  if z_disconnected z then check (Nat.eqb (hz_m_r h) 0) 0
  else check (Nat.eqb (hz_m_r h) (z_n_h z)) (z_n_h z).
Definition fbar_h_zR (h : hcon) (z : zcon) : res nat :=
  if z_disconnected z then check (Nat.eqb (hz_n_r h) 0) 0
  else check (Nat.eqb (hz_n_r h) (z_m_h z)) (z_m_h z).
Definition f_zL_zR (l r : zcon) : res nat := check (Nat.eqb (z_m_x l) (z_n_x r)) (z_m_x l).
Definition fbar_zL_zR (l r : zcon) : res nat := check (Nat.eqb (z_n_x l) (z_m_x r)) (z_n_x l).

(** A factor of a printed prefactor: a number or a factorial. *)
Inductive factor := FNum (n : nat) | FFact (n : nat).
Definition render_factor (f : factor) : string :=
  match f with FNum n => str_nat n | FFact n => str_nat n ++ "!" end.
Definition factor_value (f : factor) : nat := match f with FNum n => n | FFact n => Factorial.fact n end.

(** [math.comb] *)
Fixpoint comb (n k : nat) : nat :=
  match k, n with
  | 0, _ => 1
  | S _, 0 => 0
  | S k', S n' => comb n' k' + comb n' k
  end.

Definition num_if (n : nat) : list factor := if Nat.ltb 1 n then [FNum n] else [].
Definition fact_if (n : nat) : list factor := if Nat.ltb 1 n then [FFact n] else [].

(** lines 1277-1336 of [_build_hz_latex_prefactor] without left Z: numerator
    and denominator *)
Definition hz_prefactor (h : hcon) (z : zcon) : list factor * list factor :=
  let a := if Nat.ltb 1 (hz_m h) then (num_if (comb (hz_m h) (hz_m_r h)), [FFact (hz_m h)]) else ([], []) in
  let b := if Nat.ltb 1 (hz_n h) then (num_if (comb (hz_n h) (hz_n_r h)), [FFact (hz_n h)]) else ([], []) in
  let c := if Nat.ltb 1 (z_m z)
           then ((num_if (comb (z_m z) (z_m_lhs z)) ++ fact_if (z_m_h z))%list, [FFact (z_m z)]) else ([], []) in
  let d := if Nat.ltb 1 (z_n z)
           then ((num_if (comb (z_n z) (z_n_lhs z)) ++ fact_if (z_n_h z))%list, [FFact (z_n z)]) else ([], []) in
  ((fst a ++ fst b ++ fst c ++ fst d)%list, (snd a ++ snd b ++ snd c ++ snd d)%list).

(** lines 1359-1366 ([simplify_flag] is false in every call of the code) *)
Definition render_hz_prefactor (p : list factor * list factor) : string :=
  let numerator := match fst p with [] => "1" | l => join "*" (map render_factor l) end in
  let denominator := match snd p with [] => "1" | l => concat_str (map render_factor l) end in
  if (numerator =? "1") && (denominator =? "1") then ""
  else "\frac{" ++ numerator ++ "}{" ++ denominator ++ "}".

Definition factors_value (l : list factor) : nat := fold_right Nat.mul 1 (map factor_value l).

(** lines 1343-1355: the text with [simplify_flag] ([Fraction] reduces) *)
Definition render_simplified_prefactor (p : list factor * list factor) : string :=
  let n := factors_value (fst p) in
  let d := factors_value (snd p) in
  let g := Nat.gcd n d in
  if Nat.eqb n d then "" else "\frac{" ++ str_nat (n / g) ++ "}{" ++ str_nat (d / g) ++ "}".

(** ** Printed terms *)
Record zlterm := mkzl {
  zl_f : nat; zl_fbar : nat; zl_prefactor : list factor * list factor;
  zl_left : option (option (zlab * zlab)); zl_h : option (zlab * zlab);
  zl_right : option (option (zlab * zlab)); zl_disconnected : bool
}.

Definition render_zlterm (t : zlterm) : string :=
  let s := render_power "f" (zl_f t) ++ render_power "\bar{f}" (zl_fbar t)
           ++ render_hz_prefactor (zl_prefactor t)
           ++ (match zl_left t with None => "" | Some l => render_left_z l end)
           ++ render_hz (zl_h t)
           ++ (match zl_right t with None => "" | Some l => render_right_z l end) in
  if zl_disconnected t then "\disconnected{" ++ s ++ "}" else s.

Definition no_prefactor : list factor * list factor := ([], []).

(** lines 1185-1223; a missing left Z would be an AttributeError *)
Definition second_z_term (remove_f_terms : bool) (t : zterm) : res (option zlterm) :=
  match t with
  | (_, h, (Some z, _)) =>
      do f <- f_zL_h z h;
      if remove_f_terms && Nat.ltb 0 f then Ok None
      else
        do fbar <- fbar_zL_h z h;
        Ok (Some (mkzl f fbar no_prefactor (Some (left_z_labels z))
                    (hz_labels h (z_m z - z_m_lhs z) (z_rank z - z_m_lhs z - z_n_lhs z) (z_m_lhs z + z_n_lhs z))
                    None false))
  | _ => Err TypeErr
  end.

(** lines 1381-1427 *)
Definition third_z_term (remove_f_terms print_prefactors : bool) (t : zterm) : res (option zlterm) :=
  match t with
  | (_, h, (_, Some z)) =>
      do f <- f_h_zR h z;
      if remove_f_terms && Nat.ltb 0 f then Ok None
      else
        do fbar <- fbar_h_zR h z;
        Ok (Some (mkzl f fbar (if print_prefactors then hz_prefactor h z else no_prefactor) None
                    (hz_labels h 0 0 0)
                    (Some (right_z_labels z (mkro 0 0 (hz_n_r h) 0 (hz_m_lhs h + hz_n_lhs h)))) false))
  | _ => Err TypeErr
  end.

(** lines 1461-1523.  [_build_hz_term_latex_labels] (1508) changes
    [h_offset_dict] only after [right_z_offset_dict] is built. *)
Definition fourth_z_term (remove_f_terms : bool) (t : zterm) : res (option zlterm) :=
  match t with
  | (_, h, (Some zl, Some zr)) =>
      do f1 <- f_zL_h zl h;
      do f2 <- f_h_zR h zr;
      do f3 <- f_zL_zR zl zr;
      let f := f1 + f2 + f3 in
      if remove_f_terms && Nat.ltb 0 f then Ok None
      else
        do b1 <- fbar_zL_h zl h;
        do b2 <- fbar_h_zR h zr;
        do b3 <- fbar_zL_zR zl zr;
        let a := z_m zl - z_m_lhs zl in
        let s := z_rank zl - z_m_lhs zl - z_n_lhs zl in
        let u := z_m_lhs zl + z_n_lhs zl in
        Ok (Some (mkzl f (b1 + b2 + b3) no_prefactor (Some (left_z_labels zl))
                    (hz_labels h a s u)
                    (Some (right_z_labels zr (mkro (z_m_h zl) (a + z_n_h zl) (s + hz_n_r h) s (u + hz_m_lhs h + hz_n_lhs h))))
                    (z_disconnected zl || z_disconnected zr)))
  | _ => Err AssertionErr
  end.

(** ** Lines *)

(** lines 1225-1235, 1429-1439 and 1525-1535: the lines of a long sum.  The
    last one is the slice from [(len % w) - w + 1], a negative number, or from
    0 when that is 0. *)
Definition z_lines {A} (w : nat) (l : list A) : list (list A) :=
  (map (fun i => slice (i * w) ((i + 1) * w) l) (range 0 (List.length l / w))
   ++ [let k := w - 1 - List.length l mod w in
       if Nat.eqb k 0 then l else skipn (List.length l - k) l])%list.

Inductive zsum := ZPlain (l : list zlterm) | ZSplit (ls : list (list zlterm)).

Definition glue_z (l : list zlterm) : zsum :=
  if Nat.ltb (List.length l) (7 * 2) then ZPlain l else ZSplit (z_lines 7 l).

(** [closing] is ")" except for line 1446 *)
Definition render_zsum (closing : string) (s : zsum) : string :=
  match s with
  | ZPlain l => "(" ++ join " + " (map render_zlterm l) ++ ")"
  | ZSplit ls => "(" ++ nl ++ join splitting (map (fun l => join " + " (map render_zlterm l)) ls) ++ nl ++ closing
  end.

Definition keep_terms (f : zterm -> res (option zlterm)) (l : list zterm) : res zsum :=
  do r <- concatM (fun t => do o <- f t; Ok (option_list o)) l; Ok (glue_z r).

(** lines 1173-1242, 1369-1446, 1449-1545 *)
Definition prepare_second_z_latex (l : list zterm) (remove_f_terms : bool) : res zsum :=
  keep_terms (second_z_term remove_f_terms) l.
Definition prepare_third_z_latex (l : list zterm) (remove_f_terms print_prefactors : bool) : res zsum :=
  keep_terms (third_z_term remove_f_terms print_prefactors) l.
Definition prepare_fourth_z_latex (l : list zterm) (remove_f_terms : bool) : res zsum :=
  keep_terms (fourth_z_term remove_f_terms) l.

(** lines 1574-1625 [_build_second_z_term], [_build_third_z_term],
    [_build_fourth_z_term]: [None] for the empty string *)
Definition build_z_term (prepare : list zterm -> res zsum) (lhs : gop) (H : list hop) (s : z_sides) : res (option zsum) :=
  do l <- filter_out_valid_z_terms lhs H s;
  match l with [] => Ok None | _ => do x <- prepare l; Ok (Some x) end.
Definition build_second_z_term lhs H Z remove_f_terms :=
  build_z_term (fun l => prepare_second_z_latex l remove_f_terms) lhs H (ZH Z).
Definition build_third_z_term lhs H Z remove_f_terms :=
  build_z_term (fun l => prepare_third_z_latex l remove_f_terms true) lhs H (HZ Z).
Definition build_fourth_z_term lhs H Z remove_f_terms :=
  build_z_term (fun l => prepare_fourth_z_latex l remove_f_terms) lhs H (ZHZ Z Z).

Definition render_z_term (closing : string) (o : option zsum) : string :=
  match o with None => "" | Some s => render_zsum closing s end.

(** lines 1549-1571 [_build_first_z_term] *)
Definition build_first_z_term (lhs : gop) : string :=
  if Nat.eqb (g_rank lhs) 0 then "\bh_{0,xb}(1-\delta_{x\gamma})"
  else "\bh^{" ++ sslice 0 (g_n lhs) summation_indices ++ "}_{"
       ++ sslice (g_n lhs) (g_n lhs + g_m lhs) summation_indices ++ "}(1-\delta_{x\gamma})".

(** lines 1635-1661: the term for one [z_m]: the letters of dt and of z,
    [None] where only the number 0 is printed *)
Definition fifth_z_term (lhs : gop) (k : nat) : option (string * string) * option string :=
  (if Nat.eqb (g_m lhs) 0 && Nat.eqb (g_n lhs - k) 0 then None
   else Some (sslice 0 (g_n lhs - k) summation_indices, sslice (g_n lhs) (g_n lhs + g_m lhs) summation_indices),
   if Nat.eqb k 0 then None else Some (sslice (g_rank lhs - k) (g_rank lhs) summation_indices)).

(** line 1643 and 1644 print nothing for an empty range *)
Definition render_fifth (t : option (string * string) * option string) : string :=
  (match fst t with
   | None => "\dv{\hat{\bt}_{0, \gamma}}{\tau}"
   | Some (u, d) =>
       "\dv{\hat{\bt}" ++ (if u =? "" then "" else "^{" ++ u ++ "}")
       ++ (if d =? "" then "_{\gamma}" else "_{" ++ d ++ ", \gamma}") ++ "}{\tau}"
   end) ++ "\,"
  ++ (match snd t with
      | None => "\hat{\bz}_{0, \gamma}"
      | Some u => "\hat{\bz}^{" ++ u ++ "}_{\gamma}"
      end).

(** lines 1628-1663 [_build_fifth_z_term] *)
Definition build_fifth_z_term (lhs : gop) : list (option (string * string) * option string) :=
  map (fifth_z_term lhs) (range 0 (g_n lhs + 1)).
Definition render_fifth_term (lhs : gop) : string := join " + " (map render_fifth (build_fifth_z_term lhs)).

(** lines 1667-1718 [_generate_z_symmetric_latex_equations]: the text *)
Definition generate_z_symmetric_latex_equations (lhs : gop) (H : list hop) (Z : list gop)
    (only_ground_state remove_f_terms : bool) : res string :=
  if only_ground_state then
    do third <- build_third_z_term lhs H Z remove_f_terms;
    Ok (replace_empty "_{}" (replace_empty "^{}"
          (build_first_z_term lhs
           ++ "\\&+\sum\Big(" ++ render_z_term "" third ++ "\Big)(1-\delta_{cb})"
           ++ "\\&-i\sum\Big(" ++ render_fifth_term lhs ++ "\Big)")))
  else Err NotImplementedErr.

(** ** The file *)

(** line 1739 *)
Definition pruned_hamiltonian (maximum_h_rank : nat) : list hop :=
  filter (fun h => Nat.ltb (h_rank h) 3 || Nat.eqb (h_m h) 0) (generate_full_cc_hamiltonian_operator maximum_h_rank).

(** lines 1765-1776 *)
Definition generate_t_lhs (omega : gop) : string :=
  let lower := sslice (g_n omega) (g_rank omega) summation_indices in
  "i\dv{\hat{\bt}^{" ++ sslice 0 (g_n omega) summation_indices ++ "}_{" ++ lower
  ++ (if lower =? "" then "\gamma" else ",\gamma") ++ "}}{\tau}".

(** lines 1778-1804 *)
Definition wrap_t_latex (omega : gop) (lhs : string) : string :=
  let o := omega_letters 0 (g_name omega) in
  let lower := if Nat.ltb 0 (g_m omega) then sslice (g_n omega) (g_rank omega) summation_indices else "" in
  "\begin{equation}" ++ nl
  ++ tab ++ "\hat{\Omega} = " ++ (if o =? "" then "1" else o) ++ nl
  ++ "\qquad\qquad" ++ nl ++ tab ++ lhs ++ " = \hat{G}^{"
  ++ (if Nat.ltb 0 (g_n omega) then sslice 0 (g_n omega) summation_indices else "") ++ "}_{" ++ lower
  ++ (if lower =? "" then "\gamma\gamma" else ", \gamma\gamma") ++ "}" ++ nl
  ++ "\end{equation}" ++ nl ++ nl.

(** lines 1833-1840 *)
Definition generate_z_lhs (omega : gop) : string :=
  "i\Big(\dv{\hat{\bz}^{" ++ sslice 0 (g_rank omega) summation_indices ++ "}_{\gamma}}{\tau}\Big)".

(** lines 1816-1831 *)
Definition wrap_z_align_environment (lhs eqns : string) : string :=
  "\begin{align}\begin{split}" ++ nl ++ "LHS &=" ++ nl ++ tab ++ lhs ++ nl
  ++ "\\ RHS &=" ++ nl ++ "%" ++ nl ++ "%" ++ nl ++ eqns ++ nl
  ++ "\end{split}\end{align}" ++ nl ++ nl.

Definition percents : string := "%" ++ nl ++ "%" ++ nl ++ "%" ++ nl ++ "%" ++ nl ++ "%" ++ nl ++ nl.

(** lines 1748-1853 *)
Definition z_equations (maximum_h_rank maximum_cc_rank omega_max_order : nat)
    (only_ground_state remove_f_terms : bool) : res (list (gop * string)) :=
  mapM (fun omega =>
    do _ <- py_nth rank_names (g_rank omega);
    do e <- generate_z_symmetric_latex_equations omega (pruned_hamiltonian maximum_h_rank)
              (generate_z_operator maximum_cc_rank only_ground_state) only_ground_state remove_f_terms;
    Ok (omega, e)) (generate_omega_operator maximum_cc_rank omega_max_order).

Fixpoint render_z_equations (prev : nat) (l : list (gop * string)) : string :=
  match l with
  | [] => ""
  | (omega, e) :: r =>
      (if Nat.ltb prev (g_rank omega)
       then "\paragraph{" ++ nth (g_rank omega) rank_names "" ++ " Equations}" ++ nl ++ nl
       else "\vspace{2cm}")
      ++ percents ++ wrap_t_latex omega (generate_t_lhs omega)
      ++ percents ++ wrap_z_align_environment (generate_z_lhs omega) e
      ++ render_z_equations (g_rank omega) r
  end.

(** lines 1721-1869 [generate_z_t_symmetric_latex]: the text that follows the
    header constant of reference_latex_headers.py.  The truncations are not
    verified. *)
Definition generate_z_t_symmetric_latex (maximum_h_rank maximum_cc_rank omega_max_order : nat)
    (only_ground_state remove_f_terms : bool) : res string :=
  do l <- z_equations maximum_h_rank maximum_cc_rank omega_max_order only_ground_state remove_f_terms;
  Ok ((if remove_f_terms then "\textbf{Note that all terms with a $f$ prefactor have been removed}" ++ nl else "")
      ++ render_z_equations (match rev l with [] => 0 | (omega, _) :: _ => g_rank omega end) l
      ++ "\end{document}").
