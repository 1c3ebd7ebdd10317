(** Model of the cancellation of common factors in prefactors.  The same
    function body occurs in code_full_cc.py 185-238, latex_full_cc.py 956-1009
    and (with a final sort) code_eT_zhz.py 436-493. *)
From Verif Require Import PyBase.

Section Simplify.
  Context {A : Type}.
  Variable eqb : A -> A -> bool.   (* python's == of the factors *)
  Variable so : list A -> list A.  (* iteration order of a set of factors *)

  Definition count_in (k : A) (l : list A) : nat := List.length (filter (eqb k) l).

  (** [dict([(key, 0) for key in set]); for string in list: dict[string] += 1]
      (code_full_cc.py 202-210): the keys in set order with their counts. *)
  Definition count_dict (l : list A) : list (A * nat) :=
    map (fun k => (k, count_in k l)) (so (dedup eqb l)).

  (** code_full_cc.py 214-224, for one key of the intersection: the new counts
      of the numerator and of the denominator. *)
  Definition cancel (a b : nat) : nat * nat :=
    if Nat.ltb b a then (a - b, 0)
    else if Nat.ltb a b then (0, b - a)
    else (0, 0).

  (** code_full_cc.py 227-232 *)
  Definition extend_counts (d : list (A * nat)) : list A :=
    flat_map (fun kv => repeat (fst kv) (snd kv)) d.

  (** code_full_cc.py 185-238 *)
  Definition simplify_prefactor (num den : list A) : list A * list A :=
    match num, den with
    | [], _ => (num, den)
    | _, [] => (num, den)
    | _, _ =>
        if negb (existsb (fun k => existsb (eqb k) den) num) then (num, den)
        else
          let update (which : nat * nat -> nat) (kv : A * nat) :=
            let k := fst kv in
            if existsb (eqb k) num && existsb (eqb k) den
            then (k, which (cancel (count_in k num) (count_in k den))) else kv in
          (extend_counts (map (update fst) (count_dict num)),
           extend_counts (map (update snd) (count_dict den)))
    end.

  (** code_eT_zhz.py 436-493: the same, but the lists are sorted when common
      factors were found. *)
  Variable leb : A -> A -> bool.   (* python's <= of the factors *)
  Definition simplify_prefactor_sorted (num den : list A) : list A * list A :=
    match num, den with
    | [], _ => (num, den)
    | _, [] => (num, den)
    | _, _ =>
        if negb (existsb (fun k => existsb (eqb k) den) num) then (num, den)
        else let '(n, d) := simplify_prefactor num den in (isort leb n, isort leb d)
    end.
End Simplify.
