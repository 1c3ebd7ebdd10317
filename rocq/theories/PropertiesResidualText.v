(** Properties of the text of the generated module of the residuals. *)
From Coq Require Import List Arith Lia String Permutation.
From Verif Require Import PyBase SpecW SpecDt SpecResidual SpecPython SpecEtText SpecSumText SpecWText SpecResidualText
  ModelResidual ProofsResidualText.
Import ListNotations.
Local Open Scope nat_scope.
Local Open Scope list_scope.

(** C80: a file is made exactly for orders up to six and Hamiltonians of rank up
    to two, and it is a python program: it has its imports, one function for each
    order, in order, and nothing else. *)
Theorem C80_residual_program :
  forall M r,
    ((exists text, generate_residual_equations_file M r = Ok text) <-> M <= 6 /\ r <= 2) /\
    (forall text, generate_residual_equations_file M r = Ok text ->
       exists prog, python (joined text) prog /\ (forall flag, exec flag prog = residual_imports) /\
         heads prog = map residual_head (seq 0 (M + 1)) /\ NoDup (heads prog)).
Proof. exact residual_file_program. Qed.
Print Assumptions C80_residual_program.

Example C80_example :
  (exists text, generate_residual_equations_file 2 2 = Ok text /\ 2000 < String.length text /\ joined text <> text) /\
  nth 2 (map residual_head (seq 0 3)) ""%string = "def calculate_order_2_residual(A, N, truncation, h_args, w_args):"%string.
Proof.
  split; [|reflexivity]. eexists. split; [vm_compute; reflexivity|]. split; [apply Nat.ltb_lt; vm_compute; reflexivity|].
  intros E. apply (f_equal String.length) in E. vm_compute in E. discriminate E.
Qed.

(** C81: up to order four the function of order p adds the term of each h^m_n of
    the Hamiltonian with m <= p whose W operator was given, quadratic ones when
    the truncation has them, once, with the coefficient 1/((p-m)! n! m!) and with
    the labels of the contraction, and nothing else; except for the quadratic
    Hamiltonian at orders two and three (C82). *)
Theorem C81_residual_functions :
  forall M r text prog flag p,
    generate_residual_equations_file M r = Ok text -> python (joined text) prog ->
    p <= M -> p <= 4 -> r <= 1 \/ (p <> 2 /\ p <> 3) ->
    exists ms ts, residual_runs prog flag p ts /\ Forall2 (adds_term p) ms ts /\
      Permutation ms (filter (fun mn => term_active (flag "truncation.quadratic"%string) (given flag) p (fst mn) (snd mn)) (residual_pairs r p)).
Proof. exact residual_file_good. Qed.
Print Assumptions C81_residual_functions.

(** Without W of order four and five, three terms are added at order four; the
    statement of the first. *)
Definition some_given (s : string) : bool :=
  existsb (String.eqb s) ["truncation.quadratic"; "w_i is not None"; "w_ij is not None"; "w_ijk is not None"; "w_ijklmn is not None"]%string.
Example C81_example :
  (exists text prog, generate_residual_equations_file 4 2 = Ok text /\ python (joined text) prog) /\
  filter (fun mn => term_active (some_given "truncation.quadratic"%string) (given some_given) 4 (fst mn) (snd mn)) (residual_pairs 2 4) = [(0, 2); (1, 0); (2, 0)] /\
  adds_term 4 (0, 2) "R += (15/720) * np.einsum('acmn,cbmnijkl->abijkl', h_abIJ, w_ijklmn)".
Proof.
  split; [|split; [vm_compute; reflexivity|]].
  - destruct (proj2 (proj1 (C80_residual_program 4 2))) as (text & E); [lia|].
    destruct (proj2 (C80_residual_program 4 2) text E) as (prog & P & _). exists text, prog. auto.
  - exists 15, 720, "(15/720)"%string. split; [exact (fraction_of 15 720)|]. split; [split; [discriminate|reflexivity]|]. right. split; [discriminate|].
    exists "acmn"%string, "cbmnijkl"%string, "abijkl"%string. split; [|reflexivity].
    exists "a"%char, "b"%char, "c"%char, ["m"; "n"]%char, [], ["i"; "j"; "k"; "l"]%char. repeat split; repeat constructor; cbn; intuition discriminate.
Qed.

(** C82: with the quadratic Hamiltonian the functions of the orders two and three
    add the h^2 term only when the W operator of order p + 2 was not given; the
    other terms are as in C81. *)
Theorem C82_residual_h2_refuted :
  forall M text prog flag p,
    generate_residual_equations_file M 2 = Ok text -> python (joined text) prog -> p <= M -> p = 2 \/ p = 3 ->
    exists ms ts, residual_runs prog flag p ts /\ Forall2 (adds_term p) ms ts /\ NoDup ms /\
      forall mn, In mn ms <-> In mn (residual_pairs 2 p) /\
        (if Nat.eqb (fst mn) 2 then flag "truncation.quadratic"%string = true /\ given flag (p + 2) = false
         else term_active (flag "truncation.quadratic"%string) (given flag) p (fst mn) (snd mn) = true).
Proof. exact residual_file_h2. Qed.
Print Assumptions C82_residual_h2_refuted.

(** C82: at orders five and six every statement the function executes has fewer
    labels than its W operator and than the result has axes. *)
Theorem C82_residual_labels_refuted :
  forall M r text prog flag p,
    generate_residual_equations_file M r = Ok text -> python (joined text) prog -> p <= M -> 5 <= p ->
    exists ts, residual_runs prog flag p ts /\ (given flag p = true -> ts <> []) /\
      forall t, In t ts -> exists k w hd wd od h, t = add_contraction w hd wd od h (w_name k) /\
        String.length wd < 2 + k /\ String.length od < 2 + p.
Proof. exact residual_file_short. Qed.
Print Assumptions C82_residual_labels_refuted.

(** The hypotheses hold; the h^2 term should be added and is not. *)
Example C82_example :
  (exists text prog, generate_residual_equations_file 6 2 = Ok text /\ python (joined text) prog) /\
  term_active true (given (fun _ => true)) 2 2 0 = true /\ given (fun _ => true) 4 = true.
Proof.
  split; [|split; reflexivity].
  destruct (proj2 (proj1 (C80_residual_program 6 2))) as (text & E); [lia|].
  destruct (proj2 (C80_residual_program 6 2) text E) as (prog & P & _). exists text, prog. auto.
Qed.
