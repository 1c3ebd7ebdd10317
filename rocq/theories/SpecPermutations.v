(** Specification vocabulary: characters spread over the operands of an einsum call. *)
From Coq Require Import List Arith String Ascii.
From Verif Require Import PyBase.
Import ListNotations.
Open Scope string_scope.

(** The rank of an amplitude: one mode for each character of its name after "t_". *)
Definition rank_is (name : string) (r : nat) : Prop := String.length name = 2 + r.

(** [spread fixed names chars subscripts]: the characters are cut into consecutive
    pieces, one for each amplitude and as long as its rank; each subscript is the fixed
    part of its operand followed by its piece. *)
Inductive spread : list string -> list string -> list string -> list string -> Prop :=
| spread_nil : spread [] [] [] []
| spread_cons : forall f fs t ts piece rest os,
    rank_is t (List.length piece) -> spread fs ts rest os ->
    spread (f :: fs) (t :: ts) (piece ++ rest)%list ((f ++ concat_str piece) :: os).

(** Ranks of the amplitudes of a product. *)
Definition ranks_are (names : list string) (rs : list nat) : Prop := Forall2 rank_is names rs.

Definition einsum_call (subscripts names : list string) : string :=
  "np.einsum('" ++ join ", " subscripts ++ "', " ++ join ", " names ++ ")".

Definition sum_line (W prefactor : string) (calls : list string) : string :=
  "    " ++ W ++ " += " ++ prefactor ++ " * (" ++ join " + " calls ++ ")" ++ String "010" "".

(** The calls of one line, for one order [cs] of the characters.  If all amplitudes
    have one mode (as many fixed parts as characters) there is one call, and its
    subscripts fit every product; otherwise there is one call for each product. *)
Definition calls_of (products : list (list string)) (fixed cs calls : list string) : Prop :=
  (List.length fixed = List.length cs ->
   exists os, calls = [einsum_call os (hd [] products)] /\ forall g, In g products -> spread fixed g cs os) /\
  (List.length fixed <> List.length cs ->
   Forall2 (fun g call => exists os, spread fixed g cs os /\ call = einsum_call os g) products calls).

(** A product of as many amplitudes as there are fixed parts, with [n] modes. *)
Definition product_of_rank (fixed : list string) (n : nat) (g : list string) : Prop :=
  List.length g = List.length fixed /\ exists rs, ranks_are g rs /\ Forall (fun r => 1 <= r) rs /\ list_sum rs = n.
