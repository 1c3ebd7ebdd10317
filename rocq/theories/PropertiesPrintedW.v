(** C125: the LaTeX document and the python module of the W operators. *)
From Coq Require Import List Arith Bool Ascii String Lia Permutation QArith Qcanon.
From Verif Require Import PyBase SpecPartitions SpecW SpecLatexW SpecTexW SpecPython SpecSumText SpecWText SpecEinsum SpecWValue SpecFullCCValue SpecSymmetrizeValue SpecSymmetricW SpecPrintedW
  ModelHelper ModelW ModelLatexW ProofsTexGround ProofsPrintedW PropertiesTexW PropertiesWText PropertiesWValue PropertiesMotion.
Import ListNotations.
Local Open Scope nat_scope.
Local Open Scope list_scope.

(** C125: if the amplitudes commute and do not depend on the order of their modes,
    the W operator of order k that the generated function sums up (summed over the
    orders of the modes, as the symmetriser does) is the right hand side of the
    row of order k that TeX typesets, each product dealt out to the modes. *)
Theorem C125_printed_w :
  forall so max eqs so' M text prog flag k (F : scalars) A N (env : string -> array F), set_order so -> set_order so' ->
    w_equations (ground_state_w_equations_latex so max) eqs ->
    generate_w_operator_equations_file so' M = Ok text -> python text prog ->
    level_truncation (trunc_of flag) -> flag "ansatz.VE_MIXED"%string = false -> flag "ansatz.VECC"%string = true -> 1 <= k <= max -> k <= M ->
    amplitude_axes F A N env -> (forall r, 1 <= r <= k -> symmetric F r (env (amp_name r))) -> amplitudes_commute F A env k ->
    exists l products, w_adds prog flag k false (fun _ => []) l /\ Forall (fun dp => product_accepted F env (snd dp)) l /\
      nth_error eqs k = Some (k, if Nat.eqb k 1 then Sum products else Symmetrised products) /\
      forall a b is, a < A -> b < A -> List.length is = k ->
        ksum F (map (fun js => SpecWValue.added F env l (a :: b :: js)) (orders_of is)) = printed_sum F A env (trunc_of flag) products is a b.
Proof. exact printed_file. Qed.
Print Assumptions C125_printed_w.

(** The same for the functions that use prepared expressions. *)
Theorem C125_printed_w_optimized :
  forall so max eqs so' M text prog flag (F : scalars) A N (env : string -> array F), set_order so -> set_order so' ->
    w_equations (ground_state_w_equations_latex so max) eqs ->
    generate_w_operator_equations_file so' M = Ok text -> python text prog ->
    level_truncation (trunc_of flag) -> negations flag -> flag "ansatz.VE_MIXED"%string = false -> flag "ansatz.VECC"%string = true -> amplitude_axes F A N env ->
    exists vx vc, returns_paths prog flag "vemx" vx /\ returns_paths prog flag "vecc" vc /\
      forall k, 1 <= k <= max -> k <= M -> (forall r, 1 <= r <= k -> symmetric F r (env (amp_name r))) -> amplitudes_commute F A env k ->
        exists px pc l products, nth_error vx (k - 1) = Some px /\ nth_error vc (k - 1) = Some pc /\
          w_adds prog flag k true (choose px pc) l /\ Forall (fun dp => product_accepted F env (snd dp)) l /\
          nth_error eqs k = Some (k, if Nat.eqb k 1 then Sum products else Symmetrised products) /\
          forall a b is, a < A -> b < A -> List.length is = k ->
            ksum F (map (fun js => SpecWValue.added F env l (a :: b :: js)) (orders_of is)) = printed_sum F A env (trunc_of flag) products is a b.
Proof. exact printed_file_optimized. Qed.
Print Assumptions C125_printed_w_optimized.

(** Two states and two modes; the matrices are diagonal.  At the state 1 and the
    modes (0, 1): t_01 + t_0 t_1 = 3 + 2 * 3. *)
Definition diagonal_amplitudes (name : string) : array rationals :=
  mkarray (F := rationals) (2 :: 2 :: repeat 2 (String.length name - 2))
    (fun idx => match idx with a :: b :: is => if Nat.eqb a b then of_nat rationals (1 + a + list_sum is) else kzero rationals | _ => kzero rationals end).
Example C125_example :
  (exists eqs, w_equations (ground_state_w_equations_latex as_given 3) eqs /\
    nth 2 eqs (0, Unit) = (2, Symmetrised [([2], [((1, 0), 2)]); ([], [((2, 0), 1)])])) /\
  ccsd_flags "ansatz.VE_MIXED" = false /\ ccsd_flags "ansatz.VECC" = true /\ amplitude_axes rationals 2 2 diagonal_amplitudes /\
  (forall r, 1 <= r <= 3 -> symmetric rationals r (diagonal_amplitudes (amp_name r))) /\ amplitudes_commute rationals 2 diagonal_amplitudes 3 /\
  printed_sum rationals 2 diagonal_amplitudes (trunc_of ccsd_flags) [([2], [((1, 0), 2)]); ([], [((2, 0), 1)])] [0; 1] 1 1 = of_nat rationals 9.
Proof.
  split; [|split; [reflexivity|split; [reflexivity|split; [|split; [|split]]]]].
  - eexists. split.
    + rewrite ground_text by (intros l; reflexivity). apply table_small.
      * apply ground_rows_good. intros l; reflexivity.
      * apply ground_small; [intros l; reflexivity|repeat constructor].
    + vm_compute. reflexivity.
  - intros r H. do 7 (destruct r as [|r]; [try lia; reflexivity|]). lia.
  - intros r _ a b is js _ P. assert (E : list_sum js = list_sum is) by (clear -P; unfold list_sum; induction P; cbn [fold_right] in *; lia). cbn [entry diagonal_amplitudes]. now rewrite E.
  - intros r s is js a b _ _ _ _ La Lb. unfold mmul, sum_below, at_modes, diagonal_amplitudes. cbn [entry seq map].
    destruct a as [|[|a]]; [| |lia]; (destruct b as [|[|b]]; [| |lia]); cbn [Nat.eqb]; cbn [ksum fold_right kadd kmul kzero rationals K]; ring.
  - apply Qc_is_canon. vm_compute. reflexivity.
Qed.

(** Without commuting amplitudes the two are different: the module takes the
    products of three modes in both orders, the document prints
    t^2 t^1. *)
Theorem C125_commuting_needed :
  exists eqs products is,
    w_equations (ground_state_w_equations_latex as_given 3) eqs /\ nth_error eqs 3 = Some (3, Symmetrised products) /\
    amplitude_axes rationals 2 2 even_amplitudes /\ (forall r, 1 <= r <= 3 -> symmetric rationals r (even_amplitudes (amp_name r))) /\
    printed_sum rationals 2 even_amplitudes (trunc_of ccsd_flags) products is 0 1 <> w_symmetric rationals 2 even_amplitudes ccsd_flags 3 is 0 1.
Proof.
  eexists. exists [([3], [((1, 0), 3)]); ([], [((2, 0), 1); ((1, 0), 1)]); ([], [((3, 0), 1)])], [0; 0; 1]. split; [|split; [|split; [|split]]].
  - rewrite ground_text by (intros l; reflexivity). apply table_small.
    + apply ground_rows_good. intros l; reflexivity.
    + apply ground_small; [intros l; reflexivity|repeat constructor].
  - vm_compute. reflexivity.
  - intros r H. do 7 (destruct r as [|r]; [try lia; reflexivity|]). lia.
  - intros; apply even_symmetric.
  - intros E. apply (f_equal (fun q => this q)) in E. vm_compute in E. discriminate E.
Qed.
Print Assumptions C125_commuting_needed.
