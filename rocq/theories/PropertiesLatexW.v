(** Property theorems C16, C17: the LaTeX of the W operators. *)
From Coq Require Import Sorted.
From Verif Require Import PyBase PyStr ModelHelper ModelLatexW.
From Verif Require Import SpecPartitions SpecW SpecLatexW ProofsLatexW.

(** C16: for each order every partition is printed once, with powers, and the
    prefactor is (number of distinct orderings) / (number of factors)!. *)
Theorem C16_ground_state_latex :
  forall so max, set_order so ->
    map fst (ground_state_terms so max) = seq 1 max /\
    forall n products, In (n, products) (ground_state_terms so max) ->
      exists ps, NoDup ps /\ (forall p, In p ps <-> partition_of n p) /\
        Forall2 (fun p d => written_with_powers p d /\
                   orderings_over_factorial p (product_of_factorials (generate_w_prefactor d)))
                ps products.
Proof. exact ground_state_exact. Qed.
Print Assumptions C16_ground_state_latex.

Example C16_example :
  set_order (fun l : list (list nat) => l) /\
  ground_state_terms (fun l => l) 4
  = [(1, [[(1, 1)]]); (2, [[(1, 2)]; [(2, 1)]]); (3, [[(1, 3)]; [(2, 1); (1, 1)]; [(3, 1)]]);
     (4, [[(1, 4)]; [(2, 1); (1, 2)]; [(2, 2)]; [(3, 1); (1, 1)]; [(4, 1)]])] /\
  map render_ground_product [[(2, 2)]; [(2, 1); (1, 2)]; [(2, 2); (1, 3)]]
  = ["\frac{1}{2!}(\bt^{2})^2"; "\frac{1}{2!}\bt^{2}(\bt^{1})^2";
     "\frac{1}{2!*3!}(\bt^{2})^2(\bt^{1})^3"]%string.
Proof. split; [intros l; reflexivity|]. split; vm_compute; reflexivity. Qed.

(** C17: the groups of W^m_n are exactly the products of amplitudes whose
    upper indices add up to m and lower ones to n, each once, by length. *)
Theorem C17_groups_exact :
  forall so m n, set_order so -> (m, n) <> (0, 0) ->
    exists g, generate_t_terms_group so (m, n) = inr g /\ NoDup g /\
      (forall t, In t g <-> contributes m n t /\ canonical t) /\
      StronglySorted (fun a b => List.length a <= List.length b) g.
Proof. exact t_terms_group_exact. Qed.
Print Assumptions C17_groups_exact.

(** The labels are all W^m_n with m >= 1 and m + n up to the maximum, each
    once, by rank; each gets its line. *)
Theorem C17_labels_exact :
  forall order,
    NoDup (generate_labels_on_w order true) /\
    (forall m n, In (m, n) (generate_labels_on_w order true) <-> 1 <= m /\ m + n <= order) /\
    StronglySorted (fun a b => fst a + snd a <= fst b + snd b) (generate_labels_on_w order true).
Proof. exact labels_exact. Qed.
Print Assumptions C17_labels_exact.

Theorem C17_every_label_printed :
  forall so max, set_order so ->
    exists lines, excited_state_terms so max = Ok lines /\
      Forall2 (fun w l => excited_line_of so w = Ok l) (generate_labels_on_w max true) lines.
Proof. exact excited_state_lines. Qed.
Print Assumptions C17_every_label_printed.

(** C17: the line of W^m_n holds every product once with its prefactor - but
    for the single amplitude t^m_n with n >= 1. *)
Theorem C17_excited_line_exact :
  forall so m n, set_order so -> 1 <= m -> (m, n) <> (1, 0) ->
    exists products gs,
      excited_line_of so (m, n) = Ok (ESum (m, n) products) /\ NoDup gs /\
      (forall g, In g gs <-> contributes m n g /\ canonical g /\ ~ (g = [(m, n)] /\ 1 <= n)) /\
      Forall2 (fun g d => written_with_powers g d /\
                 orderings_over_factorial g (product_of_factorials (generate_w_prefactor d)))
              gs products.
Proof. exact excited_line_exact. Qed.
Print Assumptions C17_excited_line_exact.

(** That amplitude contributes, but is never printed. *)
Theorem C17_connected_amplitude_refuted :
  forall so m n, set_order so -> 1 <= m -> 1 <= n ->
    contributes m n [(m, n)] /\
    exists products, excited_line_of so (m, n) = Ok (ESum (m, n) products) /\
      forall d, In d products -> ~ written_with_powers [(m, n)] d.
Proof. exact excited_connected_missing. Qed.
Print Assumptions C17_connected_amplitude_refuted.

Example C17_example :
  generate_t_terms_group (fun l => l) (2, 1)
  = inr [[(2, 1)]; [(1, 1); (1, 0)]; [(2, 0); (0, 1)]; [(1, 0); (1, 0); (0, 1)]] /\
  excited_line_of (fun l => l) (2, 1)
  = Ok (ESum (2, 1) [[((1, 0), 2); ((0, 1), 1)]; [((2, 0), 1); ((0, 1), 1)]; [((1, 1), 1); ((1, 0), 1)]]).
Proof. split; vm_compute; reflexivity. Qed.
