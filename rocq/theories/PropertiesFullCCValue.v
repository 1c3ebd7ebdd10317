(** Property theorems C115: which numbers the generated python of the full coupled
    cluster equations computes. *)
From Coq Require Import List Arith Lia String QArith Qcanon.
From Verif Require Import PyBase ModelFullCC ModelFullCCPy SpecFullCC SpecPrefactor SpecFullCCPy SpecPython SpecEtText SpecFullCCText SpecFullCCPlaces SpecFullCCComplete
  SpecEinsum SpecFullCCValue ProofsFullCCPy ProofsFullCCText ProofsFullCCValue PropertiesFullCCComplete PropertiesWValue.
Import ListNotations.
Local Open Scope nat_scope.
Local Open Scope list_scope.

(** C115: whatever arrays of the expected shapes the caller passes and whatever the
    truncation flags, numpy accepts every call that the default functions make, and
    the numbers they add to R are the sums over the contractions of the group (one
    of each place) of the weight times the product of h and the amplitudes as
    matrices, summed over the modes of h that meet amplitudes. *)
Theorem C115_value :
  forall sot so son soc H cc S P text prog,
    set_order sot -> set_order so -> set_order son -> set_order soc -> 1 <= cc <= 6 -> S <= 6 -> H <= 5 ->
    generate_full_cc_python sot so son soc H cc S P = Ok text -> python text prog ->
    forall m n, m + n <= cc -> m + n <= P ->
      Forall2 (computes_contractions one_of_each_place prog H cc S m n) groups (kinds m n).
Proof. exact cc_file_value. Qed.
Print Assumptions C115_value.

(** C115: at truncations that lose nothing it is the sum over all of them. *)
Theorem C115_value_complete :
  forall sot so son soc H cc S P text prog,
    set_order sot -> set_order so -> set_order son -> set_order soc -> 1 <= cc <= 6 -> S <= 6 -> H <= 5 -> ~ loses H cc S P ->
    generate_full_cc_python sot so son soc H cc S P = Ok text -> python text prog ->
    forall m n, m + n <= cc -> m + n <= P ->
      Forall2 (computes_contractions all_once prog H cc S m n) groups (kinds m n).
Proof. exact cc_file_value_every. Qed.
Print Assumptions C115_value_complete.

(** What is added is one number: a printed prefactor has one value. *)
Theorem C115_one_number :
  forall F h t l idx v v', add_up F h t l idx v -> add_up F h t l idx v' -> v = v'.
Proof. exact add_up_unique. Qed.
Print Assumptions C115_one_number.

(** Two states, two modes, matrices that do not commute. *)
Definition number (z : nat) : Qc := Q2Qc (inject_Z (Z.of_nat z)).
Definition h_arrays (mn : nat * nat) : array rationals :=
  @mkarray rationals (2 :: 2 :: repeat 2 (fst mn + snd mn)) (fun idx => number (match idx with [0; 0; 0; 1] => 3 | _ => 0 end)).
Definition t_arrays (mn : nat * nat) : array rationals :=
  @mkarray rationals (2 :: 2 :: repeat 2 (fst mn + snd mn))
    (fun idx => number (match idx with [0; 1; 0] => 5 | [1; 0; 1; 1] => 7 | _ => 0 end)).

(** The hypotheses hold, and the contraction of h_2 with t^1 and t^2, which has
    one index on the projection, is (h_01 t^0 t^1k + h_01 t^1k t^0) / 2 = 105/2
    for k = 1, where only the first order of the amplitudes contributes. *)
Definition example_contraction : contr := mkcontr 0 2 [mkt 1 0 0 0; mkt 1 0 1 0] 0 0.
Example C115_example :
  ~ loses 2 2 2 1 /\ (exists text prog, generate_full_cc_python as_given as_given as_given as_given 2 2 2 1 = Ok text /\ python text prog) /\
  operand_axes rationals 2 2 h_arrays t_arrays /\
  wanted 2 2 2 0 1 fully_connected example_contraction /\
  weight rationals example_contraction = Q2Qc (1 # 2) /\
  in_this_order rationals 2 2 h_arrays t_arrays example_contraction [0; 1] [1] 0 0 = number 105 /\
  in_this_order rationals 2 2 h_arrays t_arrays example_contraction [1; 0] [1] 0 0 = number 0 /\
  contractions_value rationals 2 2 h_arrays t_arrays (fun _ => true) (fun _ => true) [example_contraction] [1] 0 0 = Q2Qc (105 # 2) /\
  contractions_value rationals 2 2 h_arrays t_arrays (fun _ => true) (fun _ => true) [example_contraction] [0] 0 0 = number 0 /\
  contractions_value rationals 2 2 h_arrays t_arrays (fun _ => true) (fun r => Nat.leb r 1) [example_contraction] [1] 0 0 = number 0.
Proof.
  destruct C110_example as (L & _ & G & _ & R & Cn).
  split; [exact L|]. split; [exact G|]. split; [intros m n; split; reflexivity|].
  split; [split; [discriminate|split; [exact R|exact Cn]]|].
  repeat split; apply Qc_is_canon; vm_compute; reflexivity.
Qed.
