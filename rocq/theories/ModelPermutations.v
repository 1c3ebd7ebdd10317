(** Model of /repo/termfactory/code_w_equations.py lines 87-131: lines of a w function
    with permutations of indices.  (No other code of the repository calls these
    functions.) *)
From Verif Require Import PyBase.
Open Scope string_scope.

(** lines 100-106: the innermost loop on [ss_result[0]] (here [current]).  Simplified:
    [len(t_item) - 2] is cut off at 0; names of amplitudes begin with "t_". *)
Fixpoint add_characters (char_group t_group : list string) (i p_sum : nat) (current : list string) : res (list string) :=
  match t_group with
  | [] => Ok current
  | t_item :: rest =>
      let length := String.length t_item - 2 in
      do x <- py_nth current i;
      add_characters char_group rest (S i) (p_sum + length)
        (firstn i current ++ [(x ++ concat_str (slice p_sum (length + p_sum) char_group))%string] ++ skipn (S i) current)%list
  end.

(** lines 96-111: one round of the outermost loop.  After the loop over [l_t] the name
    [ss_result] is bound to what the last round made; without rounds it is not bound. *)
Definition permute_group (l_t : list (list string)) (l_fix : list string) (n : nat) (char_group : list string) :
    res (list (list string)) :=
  do made <- mapM (fun t_group => add_characters char_group t_group 0 0 l_fix) l_t;
  if Nat.eqb (List.length l_fix) n
  then match rev made with [] => Err UnboundLocalErr | ss_result :: _ => Ok [ss_result] end
  else Ok made.

(** lines 87-113 [_permutation_function] *)
Definition permutation_function (l_t : list (list string)) (l_fix : list string) (l_perm : list (list string)) (n : nat) :
    res (list (list (list string))) :=
  mapM (permute_group l_t l_fix n) l_perm.

(** lines 120-130: one round of the loop *)
Definition permutation_line (perm_t : list (list string)) (W_array prefactor : string) (p_group : list (list string)) : res string :=
  let cmd_list := map (join ", ") p_group in
  let arg_list := map (join ", ") perm_t in
  do einsum_list <- mapM (fun i => do c <- py_nth cmd_list i; do a <- py_nth arg_list i; Ok ("np.einsum('" ++ c ++ "', " ++ a ++ ")"))
                         (range 0 (List.length p_group));
  Ok (tab ++ W_array ++ " += " ++ prefactor ++ " * (" ++ join " + " einsum_list ++ ")" ++ nl).

(** lines 116-131 [_write_permutations] *)
Definition write_permutations (perm_t : list (list string)) (perm_char_list : list (list (list string)))
    (W_array prefactor : string) : res string :=
  do lines <- mapM (permutation_line perm_t W_array prefactor) perm_char_list; Ok (concat_str lines).
