(** C01-C03: partitions and permutations.  Statements only. *)
From Verif Require Import PyBase ModelHelper SpecPartitions ProofsHelper ProofsPartitions.

(** C01: [_partitions(n)] / [generate_partitions_of_n(n)] lists every partition
    of [n] exactly once, from largest to smallest, for every n >= 1 and every
    set iteration order. *)
Theorem C01_partitions_exact :
  forall so n, set_order so -> 1 <= n ->
    (forall p, In p (generate_partitions_of_n so n) <-> partition_of n p) /\
    NoDup (generate_partitions_of_n so n) /\
    strictly_decreasing (generate_partitions_of_n so n).
Proof.
  exact (fun so n Hso Hn => conj (fun p => in_partitions so Hso n p Hn)
           (conj (nodup_partitions so Hso n) (sorted_partitions so Hso n))).
Qed.
Print Assumptions C01_partitions_exact.

Example C01_example :
  set_order (fun l : list (list nat) => l) /\
  generate_partitions_of_n (fun l => l) 4 = [[4]; [3; 1]; [2; 2]; [2; 1; 1]; [1; 1; 1; 1]].
Proof. split; [intros l; reflexivity|vm_compute; reflexivity]. Qed.

(** C01: the answer does not depend on the iteration order of sets. *)
Theorem C01_set_order_irrelevant :
  forall so so' n, 1 <= n -> set_order so -> set_order so' ->
    generate_partitions_of_n so n = generate_partitions_of_n so' n.
Proof. exact partitions_so. Qed.
Print Assumptions C01_set_order_irrelevant.

Example C01_set_order_example :
  set_order (@rev (list nat)) /\
  generate_partitions_of_n (@rev (list nat)) 5 = generate_partitions_of_n (fun l => l) 5.
Proof. split; [intros l; apply Permutation_rev|vm_compute; reflexivity]. Qed.

(** C02: the linked list is exactly the partitions with two or more entries of
    which at most one exceeds 1, the unlinked list exactly those with two or
    more entries exceeding 1; each listed once, largest first. *)
Theorem C02_linked_exact :
  forall so n, set_order so -> 1 <= n ->
    (forall p, In p (generate_linked_disconnected_partitions_of_n so n)
               <-> partition_of n p /\ linked_shape p) /\
    NoDup (generate_linked_disconnected_partitions_of_n so n) /\
    strictly_decreasing (generate_linked_disconnected_partitions_of_n so n).
Proof.
  exact (fun so n Hso Hn => conj (fun p => in_linked so Hso n p Hn)
           (conj (nodup_linked so Hso n) (sorted_linked so Hso n))).
Qed.
Print Assumptions C02_linked_exact.

Theorem C02_unlinked_exact :
  forall so n, set_order so -> 1 <= n ->
    (forall p, In p (generate_un_linked_disconnected_partitions_of_n so n)
               <-> partition_of n p /\ unlinked_shape p) /\
    NoDup (generate_un_linked_disconnected_partitions_of_n so n) /\
    strictly_decreasing (generate_un_linked_disconnected_partitions_of_n so n).
Proof.
  exact (fun so n Hso Hn => conj (fun p => in_unlinked so Hso n p Hn)
           (conj (nodup_unlinked so Hso n) (sorted_unlinked so Hso n))).
Qed.
Print Assumptions C02_unlinked_exact.

(** C02: [genereate_connected_partitions_of_n] is the only partition of [n]
    whose entries are at most 1 (its docstring). *)
Theorem C02_ones :
  forall n p, p = genereate_connected_partitions_of_n n <-> partition_of n p /\ Forall (fun x => x <= 1) p.
Proof. exact ones_exact. Qed.
Print Assumptions C02_ones.

Example C02_ones_example : genereate_connected_partitions_of_n 3 = [1; 1; 1].
Proof. reflexivity. Qed.

(** C02: the connected partition [(n,)], the linked list and the unlinked list
    split all partitions of [n]: every partition is in exactly one of them. *)
Theorem C02_split :
  forall so n p, set_order so -> 1 <= n ->
    (In p (generate_partitions_of_n so n) <->
       p = [n] \/ In p (generate_linked_disconnected_partitions_of_n so n)
               \/ In p (generate_un_linked_disconnected_partitions_of_n so n)) /\
    ~ (p = [n] /\ In p (generate_linked_disconnected_partitions_of_n so n)) /\
    ~ (p = [n] /\ In p (generate_un_linked_disconnected_partitions_of_n so n)) /\
    ~ (In p (generate_linked_disconnected_partitions_of_n so n) /\
       In p (generate_un_linked_disconnected_partitions_of_n so n)).
Proof. exact partition_split. Qed.
Print Assumptions C02_split.

(** C02: the mixed list is the connected one plus the linked ones. *)
Theorem C02_mixed_exact :
  forall so n p, set_order so -> 1 <= n ->
    (In p (generate_mixed_partitions_of_n so n) <-> partition_of n p /\ big_parts p <= 1).
Proof. exact (fun so n p Hso Hn => in_mixed so Hso n p Hn). Qed.
Print Assumptions C02_mixed_exact.

Example C02_example :
  generate_linked_disconnected_partitions_of_n (fun l => l) 5
    = [[4; 1]; [3; 1; 1]; [2; 1; 1; 1]; [1; 1; 1; 1; 1]] /\
  generate_un_linked_disconnected_partitions_of_n (fun l => l) 5 = [[3; 2]; [2; 2; 1]] /\
  generate_mixed_partitions_of_n (fun l => l) 3 = [[3]; [2; 1]; [1; 1; 1]].
Proof. vm_compute. repeat split; reflexivity. Qed.

(** C03: [unique_permutations(l)] lists every distinct rearrangement of [l]
    exactly once, in increasing order, whatever the set order. *)
Theorem C03_unique_permutations :
  forall so l, set_order so ->
    (forall p, In p (unique_permutations so l) <-> Permutation p l) /\
    NoDup (unique_permutations so l) /\
    strictly_increasing (unique_permutations so l).
Proof.
  exact (fun so l Hso => conj (in_unique_permutations so Hso l)
           (conj (nodup_unique_permutations so Hso l) (sorted_unique_permutations so Hso l))).
Qed.
Print Assumptions C03_unique_permutations.

Theorem C03_set_order_irrelevant :
  forall so so' l, set_order so -> set_order so' ->
    unique_permutations so l = unique_permutations so' l.
Proof. exact (fun so so' l Hso Hso' => unique_permutations_so so Hso so' l Hso'). Qed.
Print Assumptions C03_set_order_irrelevant.

Example C03_example :
  unique_permutations (fun l => l) [2; 1; 1] = [[1; 1; 2]; [1; 2; 1]; [2; 1; 1]].
Proof. vm_compute. reflexivity. Qed.

(** C49: the symmetriser of order [n] sums the transposes for every
    permutation of the mode axes 2..n+1, keeping the surface axes 0,1 fixed,
    each exactly once. *)
Theorem C49_symmetrizer_axes :
  forall n,
    (forall ax, In ax (symmetrizing_axes n) <-> exists p, ax = 0 :: 1 :: p /\ Permutation p (seq 2 n)) /\
    NoDup (symmetrizing_axes n) /\
    List.length (symmetrizing_axes n) = Factorial.fact n.
Proof. exact symmetrizing_axes_exact. Qed.
Print Assumptions C49_symmetrizer_axes.

Example C49_example : symmetrizing_axes 2 = [[0; 1; 2; 3]; [0; 1; 3; 2]].
Proof. vm_compute. reflexivity. Qed.
