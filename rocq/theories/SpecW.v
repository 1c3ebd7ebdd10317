(** Specification vocabulary for the W and dt generators: names, ranks,
    truncation levels, and what an einsum call over amplitudes must look like.
    Independent of the model. *)
From Coq Require Import List Arith String Ascii Permutation.
From Verif Require Import SpecPartitions.
Import ListNotations.
Open Scope list_scope.

(** Letters naming normal modes, in the order used for amplitude names. *)
Definition mode_letters : list ascii :=
  ["i"; "j"; "k"; "l"; "m"; "n"; "o"; "p"]%char.

Fixpoint string_of (l : list ascii) : string :=
  match l with [] => EmptyString | c :: r => String c (string_of r) end.

(** The amplitude of rank [n] is called t_ij.. with [n] mode letters. *)
Definition amp_name (n : nat) : string :=
  String "t" (String "_" (string_of (firstn n mode_letters))).
Definition dt_amp_name (n : nat) : string := String "d" (amp_name n).

(** The text of its shape: (A, A, N, .., N) with [n] letters N. *)
Fixpoint ns_text (n : nat) : string :=
  match n with O => ")"%string | S k => (", N" ++ ns_text k)%string end.
Definition amp_shape (n : nat) : string := ("(A, A" ++ ns_text n)%string.

(** Truncation attribute that switches rank [r] on. *)
Definition rank_name (r : nat) : string :=
  match r with
  | 1 => "singles" | 2 => "doubles" | 3 => "triples" | 4 => "quadruples"
  | 5 => "quintuples" | 6 => "sextuples" | _ => ""
  end%string.

Definition has_rank (trunc : string -> bool) (r : nat) : Prop := trunc (rank_name r) = true.

(** Every amplitude of the product is inside the truncation. *)
Definition allowed (trunc : string -> bool) (c : list nat) : Prop := Forall (has_rank trunc) c.

(** A truncation level: singles always on, and each rank needs the one below. *)
Definition level_truncation (trunc : string -> bool) : Prop :=
  has_rank trunc 1 /\
  forall r, 1 <= r -> r < 6 -> has_rank trunc (S r) -> has_rank trunc r.

(** The weight of the ordered product t_{n1} ... t_{nk} in exp(T):
    1 / (k! n1! ... nk!); here its denominator. *)
Fixpoint fact_spec (n : nat) : nat := match n with O => 1 | S k => S k * fact_spec k end.
Definition exp_denominator (c : list nat) : nat :=
  fact_spec (List.length c) * fold_right (fun n acc => fact_spec n * acc) 1 c.

(** A list of subscripts [ins] and output [out] describe the ordered matrix
    product of operands of ranks [c]: the state letters form a chain a..b of
    pairwise different letters, the modes are dealt out left to right, no
    letter plays two roles, and the output is "ab" followed by all modes. *)
Fixpoint chain_subscripts (states : list ascii) (groups : list (list ascii)) : option (list string) :=
  match states, groups with
  | [_], [] => Some []
  | s :: ((s' :: _) as rest), g :: gs =>
      match chain_subscripts rest gs with
      | Some l => Some (string_of (s :: s' :: g) :: l)
      | None => None
      end
  | _, _ => None
  end.

Definition matrix_chain (c : list nat) (ins : list string) (out : string) : Prop :=
  exists (inner : list ascii) (groups : list (list ascii)),
    let states := ("a" :: inner ++ ["b"])%char in
    let modes := List.concat groups in
    NoDup (states ++ modes) /\
    List.map (@List.length ascii) groups = c /\
    chain_subscripts states groups = Some ins /\
    out = string_of ("a" :: "b" :: modes)%char.

(** The highest W operator a truncation needs: two above its highest
    amplitude (at least three, at most six). *)
Definition needed_order (trunc : string -> bool) : nat :=
  if negb (trunc "doubles"%string) then 3
  else if negb (trunc "triples"%string) then 4
  else if negb (trunc "quadruples"%string) then 5 else 6.
