(** Model of /repo/termfactory/helper_funcs.py (partitions, permutations,
    header lines). *)
From Verif Require Import PyBase.

(** helper_funcs.py 13-15 [unique_permutations]:
    [sorted(list(set(it.permutations(iterable))))].
    Generic in the element type because the code calls it on tuples of
    integers and on lists of one-character strings; [eqb]/[leb] are python's
    [==] and [<=] of that type, [so] is the set-iteration oracle. *)
Definition unique_permutations_gen {A} (eqb leb : A -> A -> bool)
    (so : list (list A) -> list (list A)) (l : list A) : list (list A) :=
  isort (lex_leb eqb leb) (so (dedup (list_eqb eqb) (perms l))).

Section WithSetOrder.
  (** The iteration order of a python [set] of integer tuples. *)
  Variable so : list (list nat) -> list (list nat).

  Definition unique_permutations (l : list nat) : list (list nat) :=
    unique_permutations_gen Nat.eqb Nat.leb so l.

  (** helper_funcs.py 62-70 [_partitions].  Python recursion has no fuel; here
      [fuel] bounds the recursion depth (each call has a strictly smaller
      argument, so [S number] is enough; [partitions_fuel_enough] in
      ProofsHelper shows that more fuel changes nothing). *)
  Fixpoint partitions_fuel (fuel number : nat) : list (list nat) :=
    match fuel with
    | O => []
    | S f =>
        isort nats_geb
          (so (dedup nats_eqb
             ([number] ::
              flat_map (fun x =>
                map (fun y => isort geb (x :: y)) (partitions_fuel f (number - x)))
                (range 1 number))))
    end.

  Definition partitions (number : nat) : list (list nat) := partitions_fuel (S number) number.

  (** helper_funcs.py 73-75 [generate_partitions_of_n] *)
  Definition generate_partitions_of_n (n : nat) : list (list nat) := partitions n.

  (** helper_funcs.py 78-82 [generate_mixed_partitions_of_n].
      [n - max(p) + 1 == len(p)]; [max(p) <= n] for every partition, so the
      truncated subtraction of [nat] agrees with python's integers. *)
  Definition is_mixed (n : nat) (p : list nat) : bool :=
    Nat.eqb (n - list_max p + 1) (List.length p).

  Definition generate_mixed_partitions_of_n (n : nat) : list (list nat) :=
    filter (is_mixed n) (partitions n).

  (** helper_funcs.py 85-89 [genereate_connected_partitions_of_n]
      (the misspelling is in the code); returns one tuple. *)
  Definition genereate_connected_partitions_of_n (n : nat) : list nat := repeat 1 n.

  (** helper_funcs.py 92-96 [generate_linked_disconnected_partitions_of_n] *)
  Definition generate_linked_disconnected_partitions_of_n (n : nat) : list (list nat) :=
    filter (fun p => is_mixed n p && Nat.ltb (list_max p) n) (partitions n).

  (** helper_funcs.py 99-104 [generate_un_linked_disconnected_partitions_of_n]:
      set difference, then sorted in reverse. *)
  Definition generate_un_linked_disconnected_partitions_of_n (n : nat) : list (list nat) :=
    isort nats_geb
      (so (filter (fun p => negb (existsb (nats_eqb p) (generate_mixed_partitions_of_n n)))
                  (dedup nats_eqb (partitions n)))).
End WithSetOrder.

(** helper_funcs.py 18-43 [build_symmetrizing_function]: the list of
    axis permutations [(0,1) + p] printed for one order [n >= 2]. *)
Definition symmetrizing_axes (n : nat) : list (list nat) :=
  map (fun p => [0; 1] ++ p) (perms (range 2 (n + 2))).

(** helper_funcs.py 110-115 [named_line] *)
Definition named_line (name : string) (width : nat) : string :=
  ("# " ++ str_repeat "-" width ++ " " ++ name ++ " " ++ str_repeat "-" width ++ " #")%string.

(** helper_funcs.py 118-125 [spaced_named_line] *)
Definition spaced_named_line_gen (name : string) (width : nat) (spacing_line : string) : string :=
  (spacing_line ++ named_line name width ++ nl ++ spacing_line)%string.

Definition spacing_line_75 : string := ("# " ++ str_repeat "-" 75 ++ " #" ++ nl)%string.
Definition spacing_line_109 : string := ("# " ++ str_repeat "-" 109 ++ " #" ++ nl)%string.

Definition spaced_named_line (name : string) (width : nat) : string :=
  spaced_named_line_gen name width spacing_line_75.

(** helper_funcs.py 128-130 [long_spaced_named_line] (default width 45) *)
Definition long_spaced_named_line (name : string) (width : nat) : string :=
  spaced_named_line_gen name width spacing_line_109.
