(** Property theorems C92, C93: what TeX reads in the LaTeX of the W operators. *)
From Verif Require Import PyBase ModelHelper ModelLatexW.
From Verif Require Import SpecPartitions SpecW SpecLatexW SpecTex SpecTexW.
From Verif Require Import ProofsTex ProofsTexGround ProofsTexThermal.

(** TeX reads a text in one way only. *)
Theorem C92_reading_unique :
  forall text,
    (forall l l', formula text l -> formula text l' -> l = l') /\
    (forall r r', w_equations text r -> w_equations text r' -> r = r') /\
    (forall r r', thermal_equations text r -> thermal_equations text r' -> r = r').
Proof.
  exact (fun text => conj (formula_functional text) (conj (w_equations_unique text) (thermal_unique text))).
Qed.
Print Assumptions C92_reading_unique.

(** C92: up to order 9 the typeset ground state text is one equation for each
    order, and its products are the partitions of the order, each once, with
    the multiplicities as powers and the right prefactor. *)
Theorem C92_ground_state_typeset :
  forall so max, set_order so -> max <= 9 ->
    exists rows,
      w_equations (ground_state_w_equations_latex so max) ((0, Unit) :: rows) /\
      Forall2 (fun n row => exists ps products,
                 row = (n, if Nat.eqb n 1 then Sum products else Symmetrised products) /\
                 NoDup ps /\ (forall p, In p ps <-> partition_of n p) /\
                 Forall2 (fun p pr => written_with_powers (map (fun k => (k, 0)) p) (snd pr) /\
                            orderings_over_factorial p (product_of_factorials (fst pr)))
                         ps products)
              (seq 1 max) rows.
Proof. exact ground_typeset. Qed.
Print Assumptions C92_ground_state_typeset.

(** From order 10 on it is not: the power 10 is printed as ^10, of which TeX
    raises the first digit only. *)
Theorem C92_ground_state_typeset_exactly :
  forall so max, set_order so ->
    ((exists eqs, w_equations (ground_state_w_equations_latex so max) eqs) <-> max <= 9).
Proof. exact ground_typeset_iff. Qed.
Print Assumptions C92_ground_state_typeset_exactly.

Example C92_example :
  set_order (fun l : list (list nat) => l) /\
  tokens "(\bt^{1})^10"
  = [Char "("; Command "bt"; Sup; Open; Char "1"; Close; Char ")"; Sup; Char "1"; Char "0"]%char%string /\
  exists eqs, w_equations (ground_state_w_equations_latex (fun l => l) 3) eqs /\
    nth 3 eqs (0, Unit)
    = (3, Symmetrised [([3], [((1, 0), 3)]); ([], [((2, 0), 1); ((1, 0), 1)]); ([], [((3, 0), 1)])]).
Proof.
  split; [intros l; reflexivity|]. split; [vm_compute; reflexivity|].
  eexists. split.
  - rewrite ground_text by (intros l; reflexivity). apply table_small.
    + apply ground_rows_good. intros l; reflexivity.
    + apply ground_small; [intros l; reflexivity|repeat constructor].
  - vm_compute. reflexivity.
Qed.

(** C93: the thermal text cannot be typeset at any order: there is an empty
    line inside its equation environment. *)
Theorem C93_thermal_not_typeset :
  forall so max, set_order so ->
    exists text, excited_state_w_equations_latex so max = Ok text /\
      forall l, ~ list_text (first_environment text) l.
Proof. exact thermal_not_formula. Qed.
Print Assumptions C93_thermal_not_typeset.

(** With the empty lines removed, up to order 9 there is one equation for
    each label, and its products are those of C17, with powers and prefactor. *)
Theorem C93_thermal_content :
  forall so max, set_order so -> max <= 9 ->
    exists text rows,
      excited_state_w_equations_latex so max = Ok text /\
      thermal_equations text (((0, 0), Unit) :: rows) /\
      Forall2 (fun w row =>
         (w = (1, 0) /\ row = (w, Sum [([], [((1, 0), 1)])])) \/
         (w <> (1, 0) /\ exists products gs,
            row = (w, Symmetrised products) /\ NoDup gs /\
            (forall g, In g gs <-> contributes (fst w) (snd w) g /\ canonical g /\ ~ (g = [w] /\ 1 <= snd w)) /\
            Forall2 (fun g pr => written_with_powers g (snd pr) /\
                       orderings_over_factorial g (product_of_factorials (fst pr))) gs products))
        (generate_labels_on_w max true) rows.
Proof. exact thermal_typeset. Qed.
Print Assumptions C93_thermal_content.

Theorem C93_thermal_content_exactly :
  forall so max, set_order so ->
    forall text, excited_state_w_equations_latex so max = Ok text ->
    ((exists eqs, thermal_equations text eqs) <-> max <= 9).
Proof. exact thermal_typeset_iff. Qed.
Print Assumptions C93_thermal_content_exactly.

Example C93_example :
  set_order (fun l : list (list (nat * nat)) => l) /\
  generate_labels_on_w 2 true = [(1, 0); (2, 0); (1, 1)] /\
  exists text, excited_state_w_equations_latex (fun l => l) 2 = Ok text /\
    thermal_equations text
      [((0, 0), Unit); ((1, 0), Sum [([], [((1, 0), 1)])]);
       ((2, 0), Symmetrised [([2], [((1, 0), 2)]); ([], [((2, 0), 1)])]);
       ((1, 1), Symmetrised [([], [((1, 0), 1); ((0, 1), 1)])])].
Proof.
  split; [intros l; reflexivity|]. split; [reflexivity|].
  set (lines := [EOne; ESum (2, 0) [[((1, 0), 2)]; [((2, 0), 1)]]; ESum (1, 1) [[((1, 0), 1); ((0, 1), 1)]]]).
  exists (thermal_text 2 lines). split; [vm_compute; reflexivity|].
  apply (thermal_match 2 lines _ _ eq_refl); [|vm_compute; reflexivity].
  repeat constructor; discriminate.
Qed.
