(** Property theorems C110: for which truncations the printed python of the full
    coupled cluster equations adds every contraction. *)
From Coq Require Import List Arith Lia String Permutation.
From Verif Require Import PyBase ModelFullCC ModelFullCCPy SpecFullCC SpecPrefactor SpecFullCCPy SpecPython SpecEtText SpecFullCCText SpecFullCCPlaces SpecFullCCComplete
  ProofsFullCCPy ProofsFullCCFile ProofsFullCCText ProofsFullCCEvery.
Import ListNotations.

(** C110: at truncations that lose nothing, the default functions of the three
    groups add under any flags every requested contraction exactly once, with its
    prefactor and with calls that compute it. *)
Theorem C110_complete :
  forall sot so son soc H cc S P text prog,
    set_order sot -> set_order so -> set_order son -> set_order soc -> 1 <= cc <= 6 -> S <= 6 -> H <= 5 -> ~ loses H cc S P ->
    generate_full_cc_python sot so son soc H cc S P = Ok text -> python text prog ->
    forall m n, m + n <= cc -> m + n <= P ->
      Forall2 (adds_every prog H cc S m n) groups (kinds m n).
Proof. exact cc_file_every. Qed.
Print Assumptions C110_complete.

(** C110: at every other truncation there are a projection and a group of it
    with two different requested contractions, of one of which the function adds
    no call whatever the flags. *)
Theorem C110_lost :
  forall sot so son soc H cc S P text prog,
    set_order sot -> set_order so -> set_order son -> set_order soc -> 1 <= cc <= 6 -> S <= 6 -> H <= 5 -> loses H cc S P ->
    generate_full_cc_python sot so son soc H cc S P = Ok text -> python text prog ->
    exists n g kind, n <= cc /\ n <= P /\ In (g, kind) (combine groups (kinds 0 n)) /\ misses_one prog H cc S 0 n g kind.
Proof. exact cc_file_misses. Qed.
Print Assumptions C110_lost.

(** Both kinds of truncations generate: quadratic Hamiltonians with doubles lose
    nothing, cubic ones do. *)
Definition as_given {A} (l : list A) : list A := l.
Example C110_example :
  ~ loses 2 2 2 1 /\ loses 3 2 2 1 /\
  (exists text prog, generate_full_cc_python as_given as_given as_given as_given 2 2 2 1 = Ok text /\ python text prog) /\
  (exists text prog, generate_full_cc_python as_given as_given as_given as_given 3 2 2 1 = Ok text /\ python text prog) /\
  requested 0 1 2 2 2 true true 0 2 [mkt 1 0 0 0; mkt 1 0 1 0] 0 0 /\ fully_connected [mkt 1 0 0 0; mkt 1 0 1 0].
Proof.
  split; [unfold loses; lia|]. split; [unfold loses; lia|].
  assert (Id : forall A, @set_order A as_given) by (intros A l; apply Permutation_refl).
  assert (X : forall H, H <= 5 -> exists text prog, generate_full_cc_python as_given as_given as_given as_given H 2 2 1 = Ok text /\ python text prog).
  { intros H L. destruct (file_generated as_given as_given as_given as_given (Id _) (Id _) (Id _) H 2 2 1) as [body E]; [unfold accepted; lia|exact L|].
    assert (E' : generate_full_cc_python as_given as_given as_given as_given H 2 2 1 = Ok (full_cc_import_statements ++ body)%string)
      by (unfold generate_full_cc_python; now rewrite E).
    destruct (cc_file_program as_given as_given as_given as_given H 2 2 1 _ (Id _) (Id _) (Id _) ltac:(lia) ltac:(lia) L E') as (prog & R & _).
    eauto. }
  split; [apply X; lia|]. split; [apply X; lia|].
  split.
  - unfold requested, contraction, amplitude, total, up, down. cbn. repeat split; try lia; repeat constructor; cbn; lia.
  - repeat constructor; intros [A B]; discriminate.
Qed.
