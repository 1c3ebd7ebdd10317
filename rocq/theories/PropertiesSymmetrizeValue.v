(** Properties of the numbers that the generated symmetriser computes. *)
From Coq Require Import List Arith Ascii String Permutation QArith Qcanon.
From Verif Require Import PyBase ModelHelper ModelSymmetrize SpecPython SpecSumText SpecSymmetrize SpecEinsum SpecFullCCValue SpecSymmetrizeValue ProofsSymmetrize ProofsSymmetrizeValue PropertiesModules PropertiesWValue.
Import ListNotations.
Local Open Scope nat_scope.
Local Open Scope list_scope.

(** C116: for a tensor of an order k from two to the highest order of the
    symmetriser, with two surface axes of one length and k mode axes of one
    length, numpy accepts every transposition and none changes the shape.  The
    returned array has at each index the sum of the tensor over all k! orders
    of the mode indices; so it does not change when the mode indices change
    their order, and where the tensor already had this symmetry it is k! times
    the tensor. *)
Theorem C116_symmetrizer_value :
  forall M prog, python (build_symmetrizing_function M) prog ->
    exists body, prog = [Block symmetrize_head body] /\
      forall flag k, order_is flag k -> 2 <= k <= M ->
        exists doc axes, String.prefix "'''" doc = true /\
          exec flag body = [doc; "X = np.zeros_like(tensor, dtype=complex)"%string] ++ map add_transposed axes ++ ["return X"%string] /\
          forall (F : scalars) A N (x : array F), has_axes F A N k x ->
            Forall (fun ax => transpose_accepts F ax x /\ shape (transposed F ax x) = shape x) axes /\
            forall a b is, List.length is = k ->
              sum_transposed F axes x (a :: b :: is) = ksum F (map (fun js => entry x (a :: b :: js)) (orders_of is)) /\
              (forall is', Permutation is' is -> sum_transposed F axes x (a :: b :: is') = sum_transposed F axes x (a :: b :: is)) /\
              ((forall js, Permutation js is -> entry x (a :: b :: js) = entry x (a :: b :: is)) ->
                 sum_transposed F axes x (a :: b :: is) = kmul F (of_nat F (fact k)) (entry x (a :: b :: is))).
Proof. exact symmetrize_value. Qed.
Print Assumptions C116_symmetrizer_value.

(** A tensor of order three over the rationals whose entry is the first mode
    index: at the modes 5, 1, 0 the sum is 2 (5 + 1 + 0); and numpy reads the
    axes (0, 1, 3, 4, 2) as moving the last axis to the front of the modes. *)
Definition first_mode : array rationals :=
  mkarray [2; 2; 6; 6; 6] (fun idx => of_nat rationals (nth 2 idx 0)).
Example C116_example :
  (exists prog, python (build_symmetrizing_function 5) prog) /\ order_is order_two 2 /\ has_axes rationals 2 6 3 first_mode /\
  ksum rationals (map (fun js => entry first_mode (0 :: 1 :: js)) (orders_of [5; 1; 0])) = of_nat rationals 12 /\
  entry (transposed rationals [0; 1; 3; 4; 2] first_mode) [0; 1; 5; 1; 0] = of_nat rationals 0 /\
  shape (transposed rationals [0; 1; 3; 4; 2] (mkarray [2; 2; 6; 7; 8] (entry first_mode))) = [2; 2; 7; 8; 6].
Proof.
  split; [apply C88_example|]. split; [apply C88_example|]. split; [reflexivity|]. split; [vm_compute; reflexivity|]. split; vm_compute; reflexivity.
Qed.
