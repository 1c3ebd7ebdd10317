(** Specification vocabulary: partitions of a number. *)
From Coq Require Import List Arith Sorted String.
Import ListNotations.

(** Parts from small to large. *)
Definition partition_of (n : nat) (l : list nat) : Prop :=
  Forall (fun x => 1 <= x) l /\ StronglySorted le l /\ list_sum l = n.

(** All parts but one are 1, or all but two, of which the smaller one is 2. *)
Definition few_large_parts (n : nat) (l : list nat) : Prop :=
  (exists k, 1 <= k <= n /\ l = (repeat 1 (n - k) ++ [k])%list) \/
  (exists k, 2 <= k /\ k + 2 <= n /\ l = (repeat 1 (n - k - 2) ++ [2; k])%list).

(** The name of an amplitude with [k] modes. *)
Definition amplitude_name (k : nat) : string := ("t_" ++ substring 0 k "ijklmn")%string.
