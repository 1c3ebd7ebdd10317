(** Proofs for the partition of ones (C02). *)
From Coq Require Import List Arith Lia Sorted.
From Verif Require Import PyBase ModelHelper SpecPartitions.
Import ListNotations.

Lemma ones_exact n p : p = genereate_connected_partitions_of_n n <-> partition_of n p /\ Forall (fun x => x <= 1) p.
Proof.
  unfold genereate_connected_partitions_of_n. split.
  - intros ->. split.
    + split; [split|]; induction n as [|n IH]; cbn; try constructor; auto. destruct n; cbn in *; constructor; lia.
    + induction n; cbn; constructor; auto.
  - intros [[[A B] _] C]. revert n B. induction p as [|a p IH]; cbn; intros n B; [now subst|].
    inversion A; subst. inversion C; subst. assert (a = 1) by lia. subst. cbn. f_equal. now apply IH.
Qed.
