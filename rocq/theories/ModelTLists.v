(** Model of /repo/termfactory/code_w_equations.py lines 20-86: lists of ranks of
    amplitudes.  (No other code of the repository calls these functions.) *)
From Verif Require Import PyBase.
Open Scope string_scope.

(** lines 20-37 [_next_list].  [lst[1:-1]] and [lst[1:-2]] are what remains of the
    tail without the last element or the last two.  The last element is only taken
    of lists that have a 1, the one before it of lists that have two. *)
Definition next_list (lst : list nat) (n : nat) : list (list nat) :=
  let ones := List.length (filter (Nat.eqb 1) lst) in
  if Nat.eqb ones 0 then [lst]
  else if Nat.eqb ones n || Nat.eqb ones 1 then [(removelast (tl lst) ++ [last lst 0 + 1])%list]
  else [(removelast (removelast (tl lst)) ++ [last (removelast lst) 0 + 1] ++ [last lst 0])%list;
        (removelast (tl lst) ++ [last lst 0 + 1])%list].

(** lines 43-50: the while loop; None when [fuel] rounds were not enough *)
Fixpoint t_lists_loop (fuel n : nat) (lst : list (list nat)) : option (list (list nat)) :=
  let current := next_list (last lst []) n in
  if list_eqb nats_eqb current [last lst []] then Some lst
  else match fuel with O => None | S f => t_lists_loop f n (lst ++ current)%list end.

(** lines 53-66: one round of the for loop, on [result] and [previous_max] *)
Definition sort_round (st : list (list nat) * nat) (sub_lst : list nat) : list (list nat) * nat :=
  let '(result, previous_max) := st in
  let current_max := list_max sub_lst in
  if Nat.leb previous_max current_max then ((result ++ [sub_lst])%list, current_max) else (sub_lst :: result, previous_max).

(** lines 39-68 [_generate_t_lists]; [max([])] is a ValueError. *)
Definition generate_t_lists (n : nat) : option (res (list (list nat))) :=
  match t_lists_loop n n [repeat 1 n] with
  | None => None
  | Some lst =>
      Some (match hd [] lst with
            | [] => Err ValueErr
            | _ => Ok (rev (fst (fold_left sort_round lst ([], list_max (hd [] lst)))))
            end)
  end.

(** lines 71-86 [_generate_t_terms_dictionary]: the items in the order of insertion
    (the keys are different, C130) *)
Definition t_tag_list : list string := ["i"; "j"; "k"; "l"; "m"; "n"].
Definition t_str (n : nat) : string := "t_" ++ concat_str (firstn n t_tag_list).
Definition generate_t_terms_dictionary (n : nat) : option (res (list (list nat * list string))) :=
  match generate_t_lists n with
  | None => None
  | Some r => Some (do l <- r; Ok (map (fun num_term => (num_term, map t_str num_term)) l))
  end.
