(** C130: the lists of ranks [_generate_t_lists] and their names. *)
From Coq Require Import List Arith Lia Sorted String.
From Verif Require Import PyBase ModelTLists SpecTLists ProofsTLists.
Import ListNotations.

(** C130: for two to five the lists are the partitions, each once. *)
Theorem C130_partitions :
  forall n, 2 <= n <= 5 -> exists ls, generate_t_lists n = Some (Ok ls) /\ NoDup ls /\ forall l, In l ls <-> partition_of n l.
Proof. exact lists_small. Qed.
Print Assumptions C130_partitions.

(** C130: for every larger number a partition is missing. *)
Theorem C130_partitions_refuted :
  forall n, 6 <= n -> exists ls l, generate_t_lists n = Some (Ok ls) /\ partition_of n l /\ ~ In l ls.
Proof. exact lists_large. Qed.
Print Assumptions C130_partitions_refuted.

(** C130: exactly which lists there are. *)
Theorem C130_lists :
  forall n, 2 <= n -> exists ls, generate_t_lists n = Some (Ok ls) /\ NoDup ls /\ forall l, In l ls <-> few_large_parts n l.
Proof. exact lists_exact. Qed.
Print Assumptions C130_lists.

(** C130: the dictionary has these lists as keys, each once, with the names of the
    amplitudes. *)
Theorem C130_dictionary :
  forall n, 2 <= n -> exists items, generate_t_terms_dictionary n = Some (Ok items) /\ NoDup (map fst items) /\
    forall l names, In (l, names) items <-> few_large_parts n l /\ names = map amplitude_name l.
Proof. exact dictionary. Qed.
Print Assumptions C130_dictionary.

(** The example of the documentation string, and the dictionary of three. *)
Example C130_example :
  generate_t_lists 4 = Some (Ok [[4]; [1; 3]; [2; 2]; [1; 1; 2]; [1; 1; 1; 1]]) /\
  generate_t_terms_dictionary 3 = Some (Ok [([3], ["t_ijk"]); ([1; 2], ["t_i"; "t_ij"]); ([1; 1; 1], ["t_i"; "t_i"; "t_i"])])%string /\
  partition_of 6 [2; 2; 2] /\ ~ few_large_parts 6 [2; 2; 2].
Proof.
  split; [vm_compute; reflexivity|]. split; [vm_compute; reflexivity|]. split.
  - split; [parts|]. split; [parts|reflexivity].
  - intros [(k & L & E)|(k & A & B & E)].
    + do 7 (destruct k as [|k]; [try lia; discriminate E|]). lia.
    + do 5 (destruct k as [|k]; [try lia; discriminate E|]). lia.
Qed.

(** C130: for one there is a list with another sum, for none an exception. *)
Theorem C130_one_refuted :
  generate_t_lists 1 = Some (Ok [[2]; [1]]) /\ ~ partition_of 1 [2] /\ generate_t_lists 0 = Some (Err ValueErr).
Proof. split; [vm_compute; reflexivity|]. split; [|vm_compute; reflexivity]. intros (_ & _ & E). discriminate E. Qed.
Print Assumptions C130_one_refuted.

(** C130: the names tell ranks apart up to six only. *)
Theorem C130_names_refuted :
  exists items, generate_t_terms_dictionary 7 = Some (Ok items) /\ In ([7], ["t_ijklmn"])%string items /\ In ([1; 6], ["t_i"; "t_ijklmn"])%string items.
Proof. eexists. split; [vm_compute; reflexivity|]. split; [now left|right; now left]. Qed.
Print Assumptions C130_names_refuted.
