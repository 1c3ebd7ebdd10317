(** Property theorem C36, continued: when the enumeration of the contractions of the z
    ansatz fails. *)
From Verif Require Import PyBase ModelFullCC ModelZhz SpecZhz ProofsZhzEmpty.

(** C36: for every projection, Hamiltonian and kind of product, the enumeration fails exactly
    when a list of z operators that the kind uses is empty, and then with an IndexError. *)
Theorem C36_fails_exactly :
  forall lhs H k l r,
    let used_list_is_empty := (k <> right_only /\ l = []) \/ (k <> left_only /\ r = []) in
    (used_list_is_empty -> filter_out_valid_z_terms lhs H (sides k l r) = Err IndexErr) /\
    (~ used_list_is_empty -> exists ts, filter_out_valid_z_terms lhs H (sides k l r) = Ok ts).
Proof. exact fails_exactly_for_empty. Qed.
Print Assumptions C36_fails_exactly.

Example C36_fails_example :
  filter_out_valid_z_terms (mkgop "b" 1 0 1) (pruned_hamiltonian 2) (sides right_only (generate_z_operator 2 true) []) = Err IndexErr /\
  exists ts, filter_out_valid_z_terms (mkgop "b" 1 0 1) (pruned_hamiltonian 2) (sides left_only (generate_z_operator 2 true) []) = Ok ts.
Proof. split; [reflexivity|]. eexists. vm_compute. reflexivity. Qed.
