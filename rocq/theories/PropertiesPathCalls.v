(** C127: the functions of the optimised paths of the full coupled cluster modules. *)
From Coq Require Import List Arith Lia Ascii String.
From Verif Require Import PyBase ModelFullCC ModelFullCCPy SpecFullCCPy SpecPython SpecEtText SpecFullCCText SpecPathCalls ProofsPathCalls PropertiesFullCCText PropertiesFullCCComplete.
Import ListNotations.
Local Open Scope string_scope.

(** C127: in every generated module the function of the paths of a group does
    nothing where the default function of the group makes no call, and otherwise
    makes calls of contract_expression, all of them without an equation. *)
Theorem C127_no_equation :
  forall sot so son soc H cc S P text prog,
    set_order sot -> set_order so -> set_order son -> set_order soc -> 1 <= cc <= 6 -> S <= 6 -> H <= 5 ->
    generate_full_cc_python sot so son soc H cc S P = Ok text -> python text prog ->
    forall m n, m + n <= cc -> m + n <= P -> Forall (paths_without_equation prog m n) groups.
Proof. exact file_without. Qed.
Print Assumptions C127_no_equation.

(** C127: so "the optimised paths can be computed" is false of every module: with
    all conditions true the first function makes such a call. *)
Theorem C127_paths_refuted :
  forall sot so son soc H cc S P text prog,
    set_order sot -> set_order so -> set_order son -> set_order soc -> 1 <= cc <= 6 -> 1 <= S <= 6 -> 1 <= H <= 5 ->
    generate_full_cc_python sot so son soc H cc S P = Ok text -> python text prog ->
    paths_fail prog 0 0 ("fully_connected", "connected").
Proof. exact file_fails. Qed.
Print Assumptions C127_paths_refuted.

(** Modules with all of this exist.  A call without an equation, and a call as the
    W modules have it, with one. *)
Example C127_example :
  (exists text prog, generate_full_cc_python as_given as_given as_given as_given 2 2 2 1 = Ok text /\ python text prog) /\
  call_without_equation "fully_connected_opt_path_list.append(oe.contract_expression((A, A, N), (A, A, N)))" /\
  ~ call_without_equation "oe.contract_expression('ac, cb->ab', (A, A), (A, A))" /\
  ~ call_without_equation "R += h_args[(0, 0)]".
Proof.
  split; [exact (proj1 (proj2 (proj2 C110_example)))|]. split; [|split].
  - split; [|now apply quote_check]. now exists "fully_connected_opt_path_list.append(", ", N), (A, A, N)))".
  - intros [_ Q]. destruct (Q "'"%char) as [X _]; [cbn; tauto|contradiction].
  - intros [(b & a & E) _]. do 20 (destruct b as [|? b]; [discriminate E|first [discriminate E|injection E as _ E]]).
Qed.
