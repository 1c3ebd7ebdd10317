(** Property theorem C91: which contractions the printed python of the full
    coupled cluster equations adds. *)
From Coq Require Import List Arith Lia String Permutation.
From Verif Require Import PyBase ModelFullCC ModelFullCCPy SpecFullCC SpecPrefactor SpecFullCCPy SpecPython SpecEtText SpecFullCCText SpecFullCCPlaces
  ProofsFullCCText ProofsFullCCPlaces.
Import ListNotations.

(** C91: for each projection operator the default functions of the three groups
    add, under any flags: the Hamiltonian operators that contract with the
    projection alone, each once; and of the requested contractions of the group
    with amplitudes exactly one of each place (flags and printed prefactor), with
    the prefactor of its contraction and with calls that compute it, a single
    amplitude (m + n)! times and several amplitudes once for each order. *)
Theorem C91_one_of_each_place :
  forall sot so son soc H cc S P text prog,
    set_order sot -> set_order so -> set_order son -> set_order soc -> 1 <= cc <= 6 -> S <= 6 -> H <= 5 ->
    generate_full_cc_python sot so son soc H cc S P = Ok text -> python text prog ->
    forall m n, m + n <= cc -> m + n <= P ->
      Forall2 (adds_one_of_each_place prog H cc S m n) groups (kinds m n).
Proof. exact cc_file_places. Qed.
Print Assumptions C91_one_of_each_place.

(** Two requested contractions of the first group with one place: only one of
    them is added. *)
Definition two_on_h : list tamp := [mkt 1 0 0 0; mkt 1 0 1 0].
Definition one_on_h : list tamp := [mkt 2 0 0 0].
Definition unchanged {A} (l : list A) : list A := l.
Example C91_example :
  (exists text prog, generate_full_cc_python unchanged unchanged unchanged unchanged 2 2 2 1 = Ok text /\ python text prog) /\
  requested 0 1 3 2 2 true true 0 2 two_on_h 0 0 /\ fully_connected two_on_h /\ right_prefactor 0 2 two_on_h "1/(factorial(2)) * "%string /\
  requested 0 1 3 2 2 true true 1 2 one_on_h 0 1 /\ fully_connected one_on_h /\ right_prefactor 1 2 one_on_h "1/(factorial(2)) * " /\
  (forall p, place 0 2 two_on_h p = place 1 2 one_on_h p).
Proof.
  split; [|split; [|split; [|split; [|split; [|split; [|split]]]]]].
  - assert (E : exists text, generate_full_cc_python unchanged unchanged unchanged unchanged 2 2 2 1 = Ok text) by (eexists; vm_compute; reflexivity).
    destruct E as [text E]. exists text.
    destruct (cc_file_program unchanged unchanged unchanged unchanged 2 2 2 1 text) as (prog & R & _); try (intros l; apply Permutation_refl); try lia; [exact E|].
    exists prog. auto.
  - unfold requested, contraction, amplitude, total, up, down, two_on_h. cbn. repeat split; try lia; repeat constructor; cbn; lia.
  - repeat constructor; intros [A B]; discriminate.
  - exists 2, [], [2]. split; [reflexivity|]. split; [intros k []|]. split; [|reflexivity].
    exists two_on_h. split; [repeat constructor; cbn; intuition discriminate|]. split; [|reflexivity].
    intros t. split; [|now intros []]. intros I. split; [exact I|]. destruct I as [<-|[<-|[]]]; intros [A B]; discriminate.
  - unfold requested, contraction, amplitude, total, up, down, one_on_h. cbn. repeat split; try lia; repeat constructor; cbn; lia.
  - repeat constructor; intros [A B]; discriminate.
  - exists 1, [], [2]. split; [reflexivity|]. split; [intros k []|]. split; [|reflexivity].
    exists one_on_h. split; [repeat constructor; cbn; intuition discriminate|]. split; [|reflexivity].
    intros t. split; [|now intros []]. intros I. split; [exact I|]. destruct I as [<-|[]]; intros [A B]; discriminate.
  - intros p. reflexivity.
Qed.
