(** Model of /repo/termfactory/code_residual_equations.py: the residual
    terms (built and then re-read as text, like the code does) and the
    generated functions calculate_order_<p>_residual. *)
From Verif Require Import PyBase PyStr ModelHelper ModelW ModelDt.

(** namedtuple_defines.py [general_operator_namedtuple]
    (name, rank, m, n). *)
Record operator := mkOp { op_name : string; op_rank : nat; op_m : nat; op_n : nat }.

(** code_residual_equations.py 44-65 [generate_hamiltonian_operator] (the
    operator list). *)
Definition residual_h_operator (m n : nat) : operator :=
  (if Nat.eqb m 0 && Nat.eqb n 0 then mkOp "h_0" 0 0 0
   else if Nat.eqb m 0 then mkOp ("h_" ++ str_nat n) (0 + n) 0 n
   else if Nat.eqb n 0 then mkOp ("h^" ++ str_nat m) (m + 0) m 0
   else mkOp ("h^" ++ str_nat m ++ "_" ++ str_nat n) (m + n) m n)%string.

Definition residual_hamiltonian (maximum_h_rank : nat) : list operator :=
  flat_map (fun m => map (residual_h_operator m) (range 0 (maximum_h_rank + 1 - m)))
           (range 0 (maximum_h_rank + 1)).

Open Scope string_scope.

(** ** Prefactors (text) *)

(** lines 70-83 [extract_numerator_denominator_from_string] *)
Definition extract_numerator_denominator (s : string) : res (nat * nat) :=
  let s := if has_char "*" s then hd "" (split_char "*" s) else s in
  match split_char "/" (del_char ")" (del_char "(" s)) with
  | [numer; denom] =>
      let denom := hd "" (split_char "!" denom) in
      do n <- py_int numer;
      do d <- py_int denom;
      Ok (n, d)
  | _ => Err ValueErr
  end.

(** lines 86-111 [simplified_prefactor].  [pre[0] = ...] on a string raises
    [TypeError]. *)
Definition simplified_prefactor (pre : string) : res string :=
  do nd <- extract_numerator_denominator pre;
  let numerator := fst nd in
  let denominator := snd nd in
  if String.eqb pre "*(1/2)" then Ok "1/2"
  else if Nat.eqb denominator numerator then
    if contains "*(1/2)" pre then
      if Nat.eqb denominator 1 || Nat.eqb denominator 2 then Ok "(1/2)"
      else Ok ("(" ++ str_nat numerator ++ "/(2*" ++ str_nat denominator ++ "))")
    else
      if Nat.eqb denominator 1 || Nat.eqb denominator 2 then Ok ""
      else Ok pre
  else if contains "*(1/2)" pre then
    if Nat.even numerator then Err TypeErr
    else Ok (sslice 0 3 pre ++ "(2*" ++ sdrop 3 (sdrop_end 6 pre) ++ ")")
  else Ok pre.

(** lines 114-162 [construct_prefactor].  [p - h.m] is only computed when
    [h.m <= p], so natural subtraction is python's. *)
Definition construct_prefactor (h : operator) (p : nat) (simplify_flag : bool) : res string :=
  if Nat.ltb p (op_m h) then Ok ""
  else
    let i_number_w := p - op_m h in
    let total_number_w := p - op_m h + op_n h in
    if Nat.eqb total_number_w 0 then
      if Nat.eqb (op_m h) 2 then Ok "(1/2)" else Ok ""
    else
      let t := str_nat total_number_w in
      let prefactor :=
        if Nat.eqb i_number_w 1 || Nat.eqb (op_n h) 1 then "(" ++ t ++ "/" ++ t ++ "!)"
        else if Nat.ltb 1 (op_n h) && Nat.ltb 1 i_number_w
             then "(" ++ str_nat (list_sum (range 0 total_number_w)) ++ "/" ++ t ++ "!)"
        else if Nat.eqb (op_n h) 0 || Nat.eqb i_number_w 0 then "(1/" ++ t ++ "!)"
        else "" in
      let prefactor := if Nat.eqb (op_m h) 2 then prefactor ++ "*(1/2)" else prefactor in
      if simplify_flag then simplified_prefactor prefactor else Ok prefactor.

(** ** Labels (text) *)

(** lines 167-184 [construct_upper_w_label].  The assertion of line 181
    compares with the opening bracket. *)
Definition construct_upper_w_label (h : operator) (p : nat) : res string :=
  if (Nat.eqb (op_m h) p && Nat.eqb (op_n h) 0) || Nat.ltb p (op_m h) then Ok ""
  else
    let w_label :=
      "^{" ++ concat_str (map (fun a => "i_" ++ str_nat a ++ ",") (range (op_m h + 1) (p + 1)))
           ++ concat_str (map (fun b => "k_" ++ str_nat b ++ ",") (range 1 (op_n h + 1))) in
    if String.eqb w_label "^{" then Err AssertionErr
    else Ok (sdrop_end 1 w_label ++ "}").

(** lines 187-200 [construct_upper_h_label] *)
Definition construct_upper_h_label (h : operator) (p : nat) : string :=
  if Nat.eqb (op_m h) 0 || Nat.ltb p (op_m h) then ""
  else sdrop_end 1 ("^{" ++ concat_str (map (fun c => "i_" ++ str_nat c ++ ",") (range 1 (op_m h + 1)))) ++ "}".

(** lines 203-222 [construct_lower_h_label] *)
Definition construct_lower_h_label (h : operator) (p : nat) : string :=
  if Nat.eqb (op_m h) 0 && Nat.eqb (op_n h) 0 then "_0"
  else if Nat.eqb (op_n h) 0 || Nat.ltb p (op_m h) then ""
  else sdrop_end 1 ("_{" ++ concat_str (map (fun d => "k_" ++ str_nat d ++ ",") (range 1 (op_n h + 1)))) ++ "}".

(** ** Terms *)

(** The texts [generate_p_term] returns: "1.0", "0.5", "(n/d)", "(n/(2*d))". *)
Inductive p_term :=
| POne
| PHalf
| PFrac (n d : nat)
| PTwice (n d : nat).

Definition render_p_term (t : p_term) : string :=
  match t with
  | POne => "1.0"
  | PHalf => "0.5"
  | PFrac n d => "(" ++ str_nat n ++ "/" ++ str_nat d ++ ")"
  | PTwice n d => "(" ++ str_nat n ++ "/(2*" ++ str_nat d ++ "))"
  end.

(** The number such a text denotes, as numerator and denominator. *)
Definition p_value (t : p_term) : nat * nat :=
  match t with
  | POne => (1, 1)
  | PHalf => (1, 2)
  | PFrac n d => (n, d)
  | PTwice n d => (n, 2 * d)
  end.

(** lines 227-243 [generate_p_term] *)
Definition generate_p_term (str_fac : string) : res p_term :=
  if String.eqb str_fac "" then Ok POne
  else if String.eqb str_fac "(1/2) * " then Ok PHalf
  else
    do nd <- extract_numerator_denominator str_fac;
    if contains "/(2*" str_fac then Ok (PTwice (fst nd) (factorial (snd nd)))
    else Ok (PFrac (fst nd) (factorial (snd nd))).

(** [residual_term(prefactor, h, w)] with [h_namedtuple(max_i, max_k)] and
    [w_namedtuple(max_i, max_k, order)]. *)
Record rterm := mkRterm {
  rt_pref : p_term;
  rt_h_i : nat; rt_h_k : nat;
  rt_w_i : nat; rt_w_k : nat; rt_w_order : nat }.

(** lines 246-252 [generate_h_term] *)
Definition generate_h_term (str_h : string) : nat * nat :=
  if has_char "0" str_h then (0, 0) else (count_char "i" str_h, count_char "k" str_h).

(** lines 255-262 [generate_w_term] (the empty-string case gives the same
    zeros) *)
Definition generate_w_term (str_w : string) : nat * nat * nat :=
  if String.eqb str_w "" then (0, 0, 0)
  else let max_i := count_char "i" str_w in
       let max_k := count_char "k" str_w in
       (max_i, max_k, max_i + max_k).

(** lines 267-304 [generate_residual_string_list]: one loop step. *)
Definition residual_step (order : nat) (h : operator) : res (option (string * rterm)) :=
  let h_result := "h" ++ construct_upper_h_label h order ++ construct_lower_h_label h order in
  do wl <- construct_upper_w_label h order;
  let w_result := "w" ++ wl in
  do prefactor <- construct_prefactor h order true;
  if String.eqb h_result "h" then Ok None
  else
    do pt <- generate_p_term prefactor;
    let ht := generate_h_term h_result in
    let wt := generate_w_term w_result in
    let w_text := if String.eqb w_result "w" then "" else " * " ++ w_result in
    let p_text := if String.eqb prefactor "" then "" else prefactor ++ " * " in
    Ok (Some (p_text ++ h_result ++ w_text,
              mkRterm pt (fst ht) (snd ht) (fst (fst wt)) (snd (fst wt)) (snd wt))).

Fixpoint residual_loop (order : nat) (hs : list operator) : res (list (string * rterm)) :=
  match hs with
  | [] => Ok []
  | h :: r =>
      do x <- residual_step order h;
      do rest <- residual_loop order r;
      Ok (match x with None => rest | Some y => y :: rest end)
  end.

Definition generate_residual_string_list (hamiltonian : list operator) (order : nat)
  : res (list string * list rterm) :=
  do l <- residual_loop order hamiltonian; Ok (map fst l, map snd l).

(** lines 307-317 [generate_residual_data] *)
Definition generate_residual_data (H : list operator) (max_order : nat)
  : res (list (list string) * list (list rterm)) :=
  do l <- mapM (generate_residual_string_list H) (range 0 (max_order + 1));
  Ok (map fst l, map snd l).

(** ** Generated statements *)

(** lines 325-332 [h_dict] *)
Definition h_dict (i k : nat) : res string :=
  match i, k with
  | 0, 0 => Ok "h_ab" | 0, 1 => Ok "h_abI" | 1, 0 => Ok "h_abi"
  | 1, 1 => Ok "h_abIj" | 0, 2 => Ok "h_abIJ" | 2, 0 => Ok "h_abij"
  | _, _ => Err KeyErr
  end.

(** lines 346-347 *)
Definition i_list : list string := ["i"; "j"; "k"; "l"].
Definition k_list : list string := ["m"; "n"].

(** lines 350-376 *)
Definition einsum_h_indices (t : rterm) : string :=
  "ac" ++ concat_str (slice 0 (rt_h_k t) k_list) ++ concat_str (slice 0 (rt_h_i t) i_list).
Definition einsum_w_indices (t : rterm) : string :=
  "cb" ++ concat_str (slice 0 (rt_w_k t) k_list)
       ++ concat_str (slice (rt_h_i t) (rt_h_i t + rt_w_i t) i_list).
Definition einsum_output_indices (t : rterm) : string :=
  "ab" ++ concat_str (slice 0 (rt_h_i t + rt_w_i t) i_list).

(** What [R += prefactor * ...] adds: an array, or an einsum of two. *)
Inductive radd :=
| RPlain (pref : p_term) (h : string)
| REinsum (pref : p_term) (h_dims w_dims out_dims h w : string).

(** lines 379-403 [_residual_terms_einsum].  [term.prefactor] is a string, so
    [term.prefactor == 1.0] is never true and the prefactor is printed. *)
Definition residual_terms_einsum (t : rterm) : res radd :=
  do h <- h_dict (rt_h_i t) (rt_h_k t);
  if Nat.eqb (rt_w_order t) 0 then Ok (RPlain (rt_pref t) h)
  else
    do w <- w_dict (rt_w_order t);
    Ok (REinsum (rt_pref t) (einsum_h_indices t) (einsum_w_indices t) (einsum_output_indices t) h w).

Definition render_radd (a : radd) : string :=
  match a with
  | RPlain p h => "R += " ++ render_p_term p ++ " * " ++ h ++ nl
  | REinsum p hd wd od h w =>
      "R += " ++ render_p_term p ++ " * np.einsum('" ++ hd ++ "," ++ wd ++ "->" ++ od ++ "', "
      ++ h ++ ", " ++ w ++ ")" ++ nl
  end.

(** lines 21-30 [residual_term.__eq__] *)
Definition rterm_eqb (a b : rterm) : bool :=
  String.eqb (render_p_term (rt_pref a)) (render_p_term (rt_pref b))
  && Nat.eqb (rt_h_i a) (rt_h_i b) && Nat.eqb (rt_h_k a) (rt_h_k b)
  && Nat.eqb (rt_w_i a) (rt_w_i b) && Nat.eqb (rt_w_k a) (rt_w_k b)
  && Nat.eqb (rt_w_order a) (rt_w_order b).

(** lines 406-408 *)
Definition same_w_order_term_list (t : rterm) (l : list rterm) : list rterm :=
  filter (fun x => Nat.eqb (rt_w_order x) (rt_w_order t)) l.

(** The statements written by the loop of lines 449-489.  In [SQuad] each
    item is [if w_k is not None: ...] ([QIf k]) or [else: ...] ([QElse]). *)
Inductive qitem :=
| QIf (k : nat) (a : radd)
| QElse (a : radd).

Inductive rstmt :=
| SAdd (a : radd)
| SQuad (items : list qitem)          (* if truncation.quadratic: *)
| SIfW (k : nat) (l : list radd).     (* if w_k is not None: *)

Definition is_quadratic (t : rterm) : bool := Nat.leb 2 (rt_h_i t) || Nat.leb 2 (rt_h_k t).

Definition quad_item (t : rterm) : res qitem :=
  do a <- residual_terms_einsum t;
  if Nat.leb 2 (rt_w_order t)
  then do w <- w_dict (rt_w_order t); Ok (QIf (rt_w_order t) a)
  else Ok (QElse a).

(** lines 449-489: the loop, [all] is residual_terms_list. *)
Fixpoint residual_statements (all printed l : list rterm) : res (list rstmt) :=
  match l with
  | [] => Ok []
  | t :: r =>
      if existsb (rterm_eqb t) printed then residual_statements all printed r
      else if Nat.eqb (rt_w_order t) 0 || Nat.eqb (rt_w_order t) 1 then
        do a <- residual_terms_einsum t;
        do rest <- residual_statements all (printed ++ [t])%list r;
        Ok (SAdd a :: rest)
      else if is_quadratic t then
        let quads := filter is_quadratic all in
        do items <- mapM quad_item quads;
        do rest <- residual_statements all (printed ++ quads)%list r;
        Ok (SQuad items :: rest)
      else
        do w <- w_dict (rt_w_order t);
        let same := same_w_order_term_list t all in
        do adds <- mapM residual_terms_einsum same;
        do rest <- residual_statements all (printed ++ same)%list r;
        Ok (SIfW (rt_w_order t) adds :: rest)
  end.

(** lines 411-493 [write_residual_function_string]: names unpacked from
    w_args, the truncation flag asserted, the statements. *)
Record residual_fun := mkRfun {
  rf_order : nat; rf_w_names : list string; rf_assert : string; rf_body : list rstmt }.

Definition write_residual_function (terms : list rterm) (order : nat) : res residual_fun :=
  do ws <- mapM w_dict (range 1 (order + 3));
  do flag <- (if Nat.leb order 1 then py_nth taylor_series_order_tag 1
              else py_nth taylor_series_order_tag order);
  do body <- residual_statements terms [] terms;
  Ok (mkRfun order ws flag body).

(** ** Meaning of a generated function *)

(** One python [if]/[else] chain: an [else] belongs to the [if] written
    directly before it; an [else] anywhere else is a syntax error. *)
Fixpoint run_qitems (avail : nat -> bool) (prev : option bool) (l : list qitem) : res (list radd) :=
  match l with
  | [] => Ok []
  | QIf k a :: r =>
      do rest <- run_qitems avail (Some (avail k)) r;
      Ok (if avail k then a :: rest else rest)
  | QElse a :: r =>
      match prev with
      | None => Err SyntaxErr
      | Some taken =>
          do rest <- run_qitems avail None r;
          Ok (if taken then rest else a :: rest)
      end
  end.

Fixpoint run_rstmts (quadratic : bool) (avail : nat -> bool) (l : list rstmt) : res (list radd) :=
  match l with
  | [] => Ok []
  | SAdd a :: r => do rest <- run_rstmts quadratic avail r; Ok (a :: rest)
  | SQuad items :: r =>
      do here <- run_qitems avail None items;
      do rest <- run_rstmts quadratic avail r;
      Ok (if quadratic then (here ++ rest)%list else rest)
  | SIfW k adds :: r =>
      do rest <- run_rstmts quadratic avail r;
      Ok (if avail k then (adds ++ rest)%list else rest)
  end.

(** Running calculate_order_<p>_residual: [trunc] are the truncation flags,
    [w_args] tells for each W operator passed in whether it is not None.
    Unpacking needs at least as many entries as there are names; the
    truncation assertion comes next. *)
Definition run_residual_fun (f : residual_fun) (trunc : string -> bool) (w_args : list bool)
  : res (list radd) :=
  if Nat.ltb (List.length w_args) (List.length (rf_w_names f)) then Err ValueErr
  else if negb (trunc (rf_assert f)) then Err AssertionErr
  else run_rstmts (trunc "quadratic") (fun k => nth (k - 1) w_args false) (rf_body f).

(** The whole chain of lines 506-520 for one order: Hamiltonian of the given
    rank, terms, generated function, run. *)
Definition run_residual (maximum_h_rank order : nat) (trunc : string -> bool) (w_args : list bool)
  : res (list radd) :=
  do st <- generate_residual_string_list (residual_hamiltonian maximum_h_rank) order;
  do f <- write_residual_function (snd st) order;
  run_residual_fun f trunc w_args.

(** ** Text *)

Definition render_qitem (q : qitem) : res string :=
  match q with
  | QIf k a => do w <- w_dict k;
               Ok (tab ++ tab ++ "if " ++ w ++ " is not None:" ++ nl ++ tab ++ tab ++ tab ++ render_radd a)
  | QElse a => Ok (tab ++ tab ++ "else:" ++ nl ++ tab ++ tab ++ tab ++ render_radd a)
  end.

Definition render_rstmt (s : rstmt) : res string :=
  match s with
  | SAdd a => Ok (nl ++ tab ++ render_radd a)
  | SQuad items =>
      do l <- mapM render_qitem items;
      Ok (nl ++ tab ++ "if truncation.quadratic:" ++ nl ++ concat_str l)
  | SIfW k adds =>
      do w <- w_dict k;
      Ok (nl ++ tab ++ "if " ++ w ++ " is not None:" ++ nl
          ++ concat_str (map (fun a => tab ++ tab ++ render_radd a) adds))
  end.

Definition quote : string := """".

Definition render_residual_fun (f : residual_fun) : res string :=
  do body <- mapM render_rstmt (rf_body f);
  let o := str_nat (rf_order f) in
  Ok (nl ++ "def calculate_order_" ++ o ++ "_residual(A, N, truncation, h_args, w_args):" ++ nl
      ++ tab ++ quote ++ quote ++ quote ++ "Calculate the " ++ o
      ++ " order residual as a function of the W operators." ++ quote ++ quote ++ quote ++ nl
      ++ tab ++ "h_ab, h_abI, h_abi, h_abIj, h_abIJ, h_abij = h_args" ++ nl
      ++ tab ++ join ", " (rf_w_names f ++ ["*unusedargs"])%list ++ " = w_args" ++ nl
      ++ nl
      ++ tab ++ "R = np.zeros((" ++ join ", " (["A"; "A"] ++ repeat "N" (rf_order f))%list
      ++ "), dtype=complex)" ++ nl
      ++ nl
      ++ tab ++ "assert truncation." ++ rf_assert f ++ ", \" ++ nl
      ++ tab ++ tab ++ "f" ++ quote ++ "Cannot calculate order " ++ o
      ++ " residual for {truncation.cc_truncation_order}" ++ quote ++ nl
      ++ concat_str body
      ++ nl ++ tab ++ "return R").

(** lines 496-503, 506-531 and the header of
    code_import_statements_module.py 62-71 *)
Definition residual_header : string :=
  "# system imports" ++ nl ++ nl ++ "# third party imports" ++ nl ++ "import numpy as np" ++ nl
  ++ nl ++ "# local imports" ++ nl ++ "from .symmetrize import symmetrize_tensor" ++ nl ++ nl.

Definition generate_residual_equations_file (max_residual_order maximum_h_rank : nat) : res string :=
  do data <- generate_residual_data (residual_hamiltonian maximum_h_rank) max_residual_order;
  do funs <- mapM (fun order =>
               do terms <- py_nth (snd data) order;
               do f <- write_residual_function terms order;
               render_residual_fun f) (range 0 (max_residual_order + 1));
  Ok (residual_header ++ join (nl ++ nl) funs ++ nl).

(** What an addition refers to: the h array, the W operator (if any), and the
    value of its prefactor. *)
Definition radd_key (a : radd) : string * option string :=
  match a with RPlain _ h => (h, None) | REinsum _ _ _ _ h w => (h, Some w) end.
Definition radd_value (a : radd) : nat * nat :=
  match a with RPlain p _ => p_value p | REinsum p _ _ _ _ _ => p_value p end.

(** The indices of a term: h (upper, lower), W (free, contracted, order). *)
Definition shape_of (t : rterm) : nat * nat * (nat * nat * nat) :=
  (rt_h_i t, rt_h_k t, (rt_w_i t, rt_w_k t, rt_w_order t)).

