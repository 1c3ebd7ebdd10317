(** Model of /repo/termfactory/latex_eT_zhz.py, lines 35-1076 and 1792-2005:
    the terms  projection * e^T * H * Z  of the e^T ansatz.  Both the LaTeX and
    the python generator of this ansatz start from these lists.

    Simplified: every call in the repository passes [Z_left = None] (2034,
    code_eT_zhz.py 1691 and 1726), and the model has no left Z; the fields
    about a left Z are left out of the records where they are then always 0.
    Not modelled: 1080-1129 (not called), log output. *)
From Verif Require Import PyBase PyStr ModelHelper ModelW ModelFullCC ModelFullCCPy ModelZhz.

Inductive side := LHS | RHS.

(** ** Operators *)

(** lines 35-57 [generate_eT_operator]: the [operator_list] *)
Definition generate_eT_operator (maximum_eT_rank : nat) : list gop :=
  map (fun n => mkgop (s_name 0 n) (0 + n) 0 n)
    (filter (fun n => negb (Nat.eqb n 0)) (range 0 (maximum_eT_rank + 1 - 0))).

(** lines 60-98 [generate_eT_taylor_expansion]; line 81 raises if the list has
    only one element *)
Definition generate_eT_taylor_expansion (maximum_eT_rank eT_taylor_max_order : nat) : res (list series_term) :=
  let T := generate_eT_operator maximum_eT_rank in
  if Nat.eqb eT_taylor_max_order 0 then Err IndexErr
  else Ok (SOne (mkgop "1" 0 0 0) :: SLin T
           :: map (fun n => SProd (product (repeat T n))) (range 2 (eT_taylor_max_order + 1))).

(** lines 101-111 [generate_pruned_H_operator]: the [operator_list] *)
Definition generate_pruned_H_operator (maximum_h_rank : nat) : list hop :=
  filter (fun h => Nat.ltb (h_rank h) 3 || Nat.eqb (h_m h) 0) (generate_full_cc_hamiltonian_operator maximum_h_rank).

(** ** Validating pairings *)

Definition sum_m (l : list gop) : nat := list_sum (map g_m l).
Definition sum_n (l : list gop) : nat := list_sum (map g_n l).

(** lines 115-155; the tests about the left Z compare 0 with a sum *)
Definition z_joining_with_z_terms_eT (lhs : gop) (t_list : list gop) (h : hop) (right_z : gop) : bool :=
  Nat.ltb (g_n lhs + h_n h + sum_n t_list) (g_m right_z)
  || Nat.ltb (g_m lhs + h_m h + sum_m t_list) (g_n right_z).

(** lines 158-176 *)
Definition t_joining_with_t_terms_eT (omega : gop) (t_list : list gop) (h : hop) (z : gop) : bool :=
  Nat.ltb (g_n omega + h_n h + g_n z) (sum_m t_list) || Nat.ltb (g_m omega + h_m h + g_m z) (sum_n t_list).

(** lines 179-207 *)
Definition omega_joining_with_itself_eT (omega : gop) (t_list : list gop) (h : hop) (z : gop) : bool :=
  if Nat.eqb (g_m omega) 0 || Nat.eqb (g_n omega) 0 then false
  else if Nat.ltb 0 (g_n omega)
          && (Nat.ltb 0 (h_m h) || Nat.ltb 0 (g_m z) || existsb (fun t => Nat.ltb 0 (g_m t)) t_list) then false
  else if Nat.ltb 0 (g_m omega)
          && (Nat.ltb 0 (h_n h) || Nat.ltb 0 (g_n z) || existsb (fun t => Nat.ltb 0 (g_n t)) t_list) then false
  else true.

(** lines 210-238 *)
Definition h_joining_with_itself_eT (omega : gop) (t_list : list gop) (h : hop) (z : gop) : bool :=
  if Nat.eqb (h_m h) 0 || Nat.eqb (h_n h) 0 then false
  else if Nat.ltb 0 (h_n h)
          && (Nat.ltb 0 (g_m omega) || Nat.ltb 0 (g_m z) || existsb (fun t => Nat.ltb 0 (g_m t)) t_list) then false
  else if Nat.ltb 0 (h_m h)
          && (Nat.ltb 0 (g_n omega) || Nat.ltb 0 (g_n z) || existsb (fun t => Nat.ltb 0 (g_n t)) t_list) then false
  else true.

Definition valid_eT_permutation (lhs : gop) (h : hop) (p : list gop * gop) : bool :=
  let '(perm_T, right_z) := p in
  if negb (Nat.eqb (g_m lhs + h_m h + g_m right_z + sum_m perm_T)
                   (g_n lhs + h_n h + g_n right_z + sum_n perm_T)) then false
  else if z_joining_with_z_terms_eT lhs perm_T h right_z then false
  else if t_joining_with_t_terms_eT lhs perm_T h right_z then false
  else if omega_joining_with_itself_eT lhs perm_T h right_z then false
  else if h_joining_with_itself_eT lhs perm_T h right_z then false
  else true.

(** lines 282-350 [_generate_valid_eT_z_n_operator_permutations] *)
Definition generate_valid_eT_z_n_operator_permutations (lhs : gop) (eT : list (list gop)) (h : hop) (Z : list gop) :
    list (list gop * gop) :=
  filter (valid_eT_permutation lhs h) (list_prod eT Z).

(** ** Connections of Z *)

(** The lists of [k] numbers whose sum is at most [M], in the order of
    [it.product(range(M+1), repeat=k)]; see [bounded_lists_product] in
    ProofsEt.v. *)
Fixpoint bounded_lists (k M : nat) : list (list nat) :=
  match k with
  | 0 => [[]]
  | S k' => flat_map (fun a => map (cons a) (bounded_lists k' (M - a))) (range 0 (M + 1))
  end.

(** (with the projection, with each t, with h, with the other Z) *)
Record zperm := mkzp { zp_lhs : nat; zp_t : list nat; zp_h : nat; zp_rest : nat }.

(** lines 384-397 *)
Definition z_perms (M nof_t_terms : nat) : list zperm :=
  flat_map (fun l => match l with
                     | a :: b :: t => [mkzp a t b (M - (a + b + list_sum t))]
                     | _ => []
                     end) (bounded_lists (2 + nof_t_terms) M).

(** lines 412-440 for the upper and 467-495 for the lower indices: [lhs_o],
    [h_o], [ts_o] and [z_o] are the counts on the other side, [lhs_s] and [h_s]
    those on the same side *)
Definition z_perm_ok (lhs_o h_o : nat) (ts_o ranks : list nat) (z_o lhs_s h_s : nat) (p : zperm) : bool :=
  Nat.leb (zp_h p) h_o
  && Nat.leb (zp_lhs p) lhs_o
  && Nat.leb (list_sum (zp_t p)) (list_sum ts_o)
  && forallb (fun q => Nat.leb (fst (fst q)) (lhs_s + h_s + snd q) && Nat.leb (snd q) (snd (fst q)))
       (combine (combine ts_o ranks) (zp_t p))
  && Nat.leb (zp_rest p) z_o.

(** lines 353-530 [_generate_all_valid_eT_z_connection_permutations]: the
    permutations of the right Z; those of the missing left Z are zeros *)
Definition generate_all_valid_eT_z_connection_permutations (lhs : gop) (t_list : list gop) (h : hop) (right_z : gop) :
    list zperm * list zperm :=
  let nt := List.length t_list in
  (filter (z_perm_ok (g_n lhs) (h_n h) (map g_n t_list) (map g_rank t_list) 0 (g_m lhs) (h_m h)) (z_perms (g_m right_z) nt),
   filter (z_perm_ok (g_m lhs) (h_m h) (map g_m t_list) (map g_rank t_list) 0 (g_n lhs) (h_n h)) (z_perms (g_n right_z) nt)).

(** lines 252-278: the namedtuples for a right Z and for a t.  The connected
    and the disconnected types have the same fields; 787 and 896 decide between
    them by the fields, and python compares both as tuples. *)
Record etz := mkez {
  ez_rank : nat; ez_m : nat; ez_n : nat; ez_m_lhs : nat; ez_n_lhs : nat;
  ez_m_t : list nat; ez_n_t : list nat; ez_m_h : nat; ez_n_h : nat; ez_m_l : nat; ez_n_l : nat
}.
Record ett := mket {
  et_rank : nat; et_m : nat; et_n : nat; et_m_lhs : nat; et_n_lhs : nat;
  et_m_l : nat; et_n_l : nat; et_m_h : nat; et_n_h : nat; et_m_r : nat; et_n_r : nat
}.

(** lines 767-791 *)
Definition build_right_z (z : gop) (upper lower : zperm) : etz :=
  mkez (g_rank z) (g_m z) (g_n z) (zp_lhs upper) (zp_lhs lower) (zp_t upper) (zp_t lower)
       (zp_h upper) (zp_h lower) (zp_rest upper) (zp_rest lower).

(** lines 711-821 *)
Definition right_z_connections (lhs : gop) (t_list : list gop) (h : hop) (right_z : gop) : list etz :=
  let '(uppers, lowers) := generate_all_valid_eT_z_connection_permutations lhs t_list h right_z in
  map (fun p => build_right_z right_z (fst p) (snd p)) (list_prod uppers lowers).

(** ** Connections of the t *)

(** (with the projection, with the left Z, with h, with the right Z) *)
Definition four : Type := nat * nat * nat * nat.
Definition f_lhs (f : four) : nat := fst (fst (fst f)).
Definition f_left (f : four) : nat := snd (fst (fst f)).
Definition f_h (f : four) : nat := snd (fst f).
Definition f_right (f : four) : nat := snd f.
Definition f_sum (f : four) : nat := f_lhs f + f_left f + f_h f + f_right f.

(** lines 586-605: [c] indices of the t, [x] of them with the right Z;
    [range(M+1)] is empty for a negative [M] *)
Definition t_splits (c x : nat) : list four :=
  if Nat.leb x c then map (fun a => (a, 0, c - x - a, x)) (range 0 (c - x + 1)) else [].

(** [z.n_t[i]] for every t *)
Definition entries (l : list nat) (t_list : list gop) : res (list nat) :=
  mapM (py_nth l) (range 0 (List.length t_list)).

(** lines 609-656 *)
Definition t_perms_within (lhs h : nat) (perms : list (list four)) : list (list four) :=
  filter (fun p => Nat.leb (list_sum (map f_h p)) h && Nat.leb (list_sum (map f_lhs p)) lhs) perms.

(** lines 533-666 [_generate_all_valid_eT_connection_permutations]: upper,
    lower *)
Definition generate_all_valid_eT_connection_permutations (lhs : gop) (t_list : list gop) (h : hop) (z : etz) :
    res (list (list four) * list (list four)) :=
  let none_m := Nat.eqb (sum_m t_list) (list_sum (ez_n_t z)) in
  let none_n := Nat.eqb (sum_n t_list) (list_sum (ez_m_t z)) in
  if none_n && none_m then
    do us <- entries (ez_n_t z) t_list;
    do ls <- entries (ez_m_t z) t_list;
    Ok ([map (fun x => (0, 0, 0, x)) us], [map (fun x => (0, 0, 0, x)) ls])
  else if none_m then
    do us <- entries (ez_n_t z) t_list;
    do ls <- entries (ez_m_t z) t_list;
    Ok (t_perms_within (g_n lhs) (h_n h) (product (map (fun p => t_splits (g_m (fst p)) (snd p)) (combine t_list us))),
        t_perms_within (g_m lhs) (h_m h) (product (map (fun p => t_splits (g_n (fst p)) (snd p)) (combine t_list ls))))
  else Err NotImplementedErr.

(** lines 853-898: one permutation of the t; [i] counts the t *)
Fixpoint build_t_list (s : side) (z : etz) (i : nat) (t_list : list gop) (upper lower : list four) : res (list ett) :=
  match t_list with
  | [] => Ok []
  | t :: ts =>
      match upper, lower with
      | u :: us, d :: ds =>
          if negb (Nat.eqb (f_sum u) 0) then Err AssertionErr
          else
            let mismatch := negb (Nat.eqb (g_m t) (f_sum u)) || negb (Nat.eqb (g_n t) (f_sum d)) in
            match mismatch, s with
            | true, RHS => Err NotImplementedErr
            | true, LHS => build_t_list s z (i + 1) ts us ds
            | false, _ =>
                do zm <- py_nth (ez_m_t z) i;
                if negb (Nat.eqb (f_right d) zm) then Err GenericException
                else
                  do zn <- py_nth (ez_n_t z) i;
                  if negb (Nat.eqb (f_right u) zn) then Err GenericException
                  else
                    do r <- build_t_list s z (i + 1) ts us ds;
                    Ok (mket (g_rank t) (g_m t) (g_n t) (f_lhs u) (f_lhs d) (f_left u) (f_left d)
                             (f_h u) (f_h d) (f_right u) (f_right d) :: r)
            end
      | _, _ => Err IndexErr
      end
  end.

Fixpoint foldM {A B} (f : A -> B -> res A) (l : list B) (a : A) : res A :=
  match l with
  | [] => Ok a
  | b :: r => do a' <- f a b; foldM f r a'
  end.

Definition four_zeros : four := (0, 0, 0, 0).

(** lines 834-838 *)
Definition t_permutations (lhs : gop) (t_list : list gop) (h : hop) (z : etz) :
    res (list (list four) * list (list four)) :=
  match t_list with
  | [t] => if Nat.eqb (g_rank t) 0 then Ok ([[four_zeros]], [[four_zeros]])
           else generate_all_valid_eT_connection_permutations lhs t_list h z
  | _ => generate_all_valid_eT_connection_permutations lhs t_list h z
  end.

(** What lines 672-900 carry from one permutation to the next: the output, the
    list [annotated_z_permutations] and the local variable [perm_list]. *)
Record carried := mkcarried {
  c_out : list (list ett * etz); c_zs : list etz; c_perm : option (list ett)
}.

(** lines 830-900 for one [z_pair]; line 900 stands after the two loops over
    the permutations *)
Definition annotate_z_pair (s : side) (lhs : gop) (h : hop) (t_list : list gop)
    (st : list (list ett * etz) * option (list ett)) (z : etz) : res (list (list ett * etz) * option (list ett)) :=
  let '(out, perm) := st in
  do ul <- t_permutations lhs t_list h z;
  do perm <- foldM (fun _ p => do l <- build_t_list s z 0 t_list (fst p) (snd p); Ok (Some l))
               (list_prod (fst ul) (snd ul)) perm;
  match perm with
  | None => Err UnboundLocalErr
  | Some l => Ok ((out ++ [(l, z)])%list, perm)
  end.

(** lines 695-900 for one of the [valid_permutations]; the loop of 824-828
    only computes permutations for the log *)
Definition annotate_triplet (s : side) (lhs : gop) (h : hop) (st : carried) (p : list gop * gop) : res carried :=
  let '(t_list, right_z) := p in
  let zs := (c_zs st ++ right_z_connections lhs t_list h right_z)%list in
  do _ <- mapM (generate_all_valid_eT_connection_permutations lhs t_list h) zs;
  do r <- foldM (annotate_z_pair s lhs h t_list) zs (c_out st, c_perm st);
  Ok (mkcarried (fst r) zs (snd r)).

(** lines 669-914 [_generate_all_o_eT_h_z_connection_permutations] *)
Definition generate_all_o_eT_h_z_connection_permutations (lhs : gop) (h : hop)
    (valid_permutations : list (list gop * gop)) (s : side) : res (list (list ett * etz)) :=
  do st <- foldM (annotate_triplet s lhs h) valid_permutations (mkcarried [] [] None);
  Ok (c_out st).

(** ** Removing duplicates *)

Definition ett_key (t : ett) : list nat :=
  [et_rank t; et_m t; et_n t; et_m_lhs t; et_n_lhs t; et_m_l t; et_n_l t; et_m_h t; et_n_h t; et_m_r t; et_n_r t].
Definition ett_eqb (a b : ett) : bool := nats_eqb (ett_key a) (ett_key b).
Definition ett_leb (a b : ett) : bool := nats_leb (ett_key a) (ett_key b).
Definition etz_key (z : etz) : list (list nat) :=
  [[ez_rank z; ez_m z; ez_n z; ez_m_lhs z; ez_n_lhs z]; ez_m_t z; ez_n_t z; [ez_m_h z; ez_n_h z; ez_m_l z; ez_n_l z]].
Definition etz_eqb (a b : etz) : bool := list_eqb nats_eqb (etz_key a) (etz_key b).
Definition et_perm_eqb (a b : list ett * etz) : bool :=
  list_eqb ett_eqb (fst a) (fst b) && etz_eqb (snd a) (snd b).

Section KeepFirst.
  Context {A : Type} (eqb : A -> A -> bool).
  (** the elements not seen before *)
  Fixpoint keep_first (seen : list A) (l : list A) : list A :=
    match l with
    | [] => []
    | x :: r => if existsb (eqb x) seen then keep_first seen r else x :: keep_first (x :: seen) r
    end.
End KeepFirst.

(** lines 917-978 [_remove_duplicate_t_tuple_permutations]: each permutation
    with its count *)
Definition remove_duplicate_t_tuple_permutations (l : list (list ett * etz)) : list (list ett * etz * nat) :=
  let sorted := map (fun p => (isort ett_leb (fst p), snd p)) l in
  map (fun p => (p, List.length (filter (et_perm_eqb p) sorted))) (keep_first et_perm_eqb [] sorted).

(** ** Explicit connections *)

(** lines 244-251 *)
Record etl := mkel {
  el_rank : nat; el_m : nat; el_n : nat; el_m_t : list nat; el_n_t : list nat;
  el_m_h : nat; el_n_h : nat; el_m_r : nat; el_n_r : nat
}.
Record eth := mkeh {
  eh_rank : nat; eh_m : nat; eh_n : nat; eh_m_lhs : nat; eh_n_lhs : nat;
  eh_m_t : list nat; eh_n_t : list nat; eh_m_r : nat; eh_n_r : nat
}.
Record etterm := mketterm { tt_lhs : etl; tt_ts : list ett; tt_h : eth; tt_z : etz; tt_count : nat }.

(** lines 992-1066 for one permutation: [None] for a [continue] *)
Definition explicit_eT_connection (lhs : gop) (h : hop) (p : list ett * etz * nat) : res (option etterm) :=
  let '(t_list, z, count) := p in
  let l_m_t := map et_n_lhs t_list in
  let l_n_t := map et_m_lhs t_list in
  let h_m_t := map et_n_h t_list in
  let h_n_t := map et_m_h t_list in
  if Nat.leb (list_sum l_m_t + ez_n_lhs z) (g_m lhs) && Nat.leb (list_sum l_n_t + ez_m_lhs z) (g_n lhs)
     && Nat.leb (list_sum h_m_t + ez_n_h z) (h_m h) && Nat.leb (list_sum h_n_t + ez_m_h z) (h_n h)
  then
    let m_h := g_m lhs - (list_sum l_m_t + ez_n_lhs z) in
    let n_h := g_n lhs - (list_sum l_n_t + ez_m_lhs z) in
    let m_lhs := h_m h - (list_sum h_m_t + ez_n_h z) in
    let n_lhs := h_n h - (list_sum h_n_t + ez_m_h z) in
    if negb (Nat.eqb m_lhs n_h) then Ok None
    else if negb (Nat.eqb n_lhs m_h) then Ok None
    else if negb (Nat.eqb (g_m lhs + h_m h + list_sum (map et_m t_list) + ez_m z)
                          (g_n lhs + h_n h + list_sum (map et_n t_list) + ez_n z)) then Ok None
    else Ok (Some (mketterm
           (mkel (g_m lhs + g_n lhs) (g_m lhs) (g_n lhs) l_m_t l_n_t m_h n_h (ez_n_lhs z) (ez_m_lhs z))
           t_list
           (mkeh (h_m h + h_n h) (h_m h) (h_n h) m_lhs n_lhs h_m_t h_n_t (ez_n_h z) (ez_m_h z))
           z count))
  else Err AssertionErr.               (* lines 1036-1037 *)

(** lines 981-1076 [_generate_explicit_eT_z_connections] *)
Definition generate_explicit_eT_z_connections lhs h (ps : list (list ett * etz * nat)) : res (list etterm) :=
  concatM (fun p => do o <- explicit_eT_connection lhs h p; Ok (option_list o)) ps.

(** lines 1838-1873 [_prepare_eTz_T_terms] *)
Definition prepare_eTz_T_terms (s : series_term) : res (list (list gop)) :=
  match s with
  | SOne t => Ok [[t]]
  | SLin [] => Err IndexErr
  | SLin l => Ok (map (fun t => [t]) l)
  | SProd [] => Err IndexErr
  | SProd ([] :: _) => Err GenericException
  | SProd l => Ok l
  end.

(** lines 1876-2005 [_filter_out_valid_eTz_terms] with [Z_left] None: the
    terms appended (1792-1800 raises for an empty list of Z) *)
Definition filter_out_valid_eTz_terms (lhs : gop) (eT : series_term) (H : list hop) (Z : list gop) (s : side) :
    res (list etterm) :=
  match Z with
  | [] => Err IndexErr
  | _ =>
      do ts <- prepare_eTz_T_terms eT;
      concatM (fun h =>
        match s, h_n h with
        | LHS, S _ => Ok []
        | _, _ =>
            match generate_valid_eT_z_n_operator_permutations lhs ts h Z with
            | [] => Ok []
            | valid =>
                do ps <- generate_all_o_eT_h_z_connection_permutations lhs h valid s;
                generate_explicit_eT_z_connections lhs h (remove_duplicate_t_tuple_permutations ps)
            end
        end) H
  end.
