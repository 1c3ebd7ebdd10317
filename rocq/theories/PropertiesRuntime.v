(** Running a generated e^T file with smaller truncations. *)
From Coq Require Import List Arith Lia String.
From Verif Require Import PyBase ModelFullCC ModelEt ModelEtPy SpecEt SpecEtPy SpecPython SpecEtText SpecRuntime.
From Verif Require ProofsRuntime.
Import ListNotations.
Local Open Scope string_scope.

(** C104: whatever a file was generated for, a caller who asks for H0 and CC0
    gets exactly the contractions of the truncations H0 and CC0, and if H0 = 1
    and the file has h^1_1 also those with h^1_1. *)
Theorem C104_runtime_truncations :
  forall s ground H CC e P text, 1 <= CC -> H <= 5 -> CC <= 5 -> generate_eT_zhz_python s ground H CC 1 e P = Ok text ->
    exists prog, python text prog /\
      forall H0 CC0 flag p opt, H0 <= H -> CC0 <= CC -> asks_for flag H0 CC0 -> p <= CC -> p <= P ->
        let wanted q m n k c := of_ansatz s H0 CC0 p q m n k c \/ (H0 = 1 /\ 2 <= H /\ with_h11 s CC0 p q m n k c) in
        adds_under s prog (terms_head s p "HZ" opt) flag (fun q m n k c => q = 0 /\ wanted q m n k c /\ ~ bare_term p q m n k) /\
        adds_under s prog (terms_head s p "eT_HZ" opt) flag (fun q m n k c => 1 <= q <= e /\ wanted q m n k c).
Proof. exact ProofsRuntime.runtime. Qed.
Print Assumptions C104_runtime_truncations.

(** So, except for H0 = 1 on the right hand side, the larger file run with the
    smaller truncations and the smaller file run with everything it has add the
    same contractions. *)
Theorem C104_larger_file :
  forall s ground ground' H CC H0 CC0 e P P0 text text0,
    1 <= CC0 -> CC0 <= CC -> H0 <= H -> H <= 5 -> CC <= 5 -> (s = RHS -> H0 = 1 -> H = 1) ->
    generate_eT_zhz_python s ground H CC 1 e P = Ok text ->
    generate_eT_zhz_python s ground' H0 CC0 1 e P0 = Ok text0 ->
    exists prog prog0, python text prog /\ python text0 prog0 /\
      forall flag all p opt, asks_for flag H0 CC0 -> asks_for all 5 5 -> p <= CC0 -> p <= P -> p <= P0 ->
        let without q m n k c := q = 0 /\ of_ansatz s H0 CC0 p q m n k c /\ ~ bare_term p q m n k in
        let with_t q m n k c := 1 <= q <= e /\ of_ansatz s H0 CC0 p q m n k c in
        adds_under s prog (terms_head s p "HZ" opt) flag without /\
        adds_under s prog0 (terms_head s p "HZ" opt) all without /\
        adds_under s prog (terms_head s p "eT_HZ" opt) flag with_t /\
        adds_under s prog0 (terms_head s p "eT_HZ" opt) all with_t.
Proof. exact ProofsRuntime.same_as_smaller. Qed.
Print Assumptions C104_larger_file.

(** For H0 = 1 it is false: a caller who allows nothing beyond linear still
    gets h^1_1. *)
Theorem C104_linear_refuted :
  exists text prog doc ours others l p call c,
    generate_eT_zhz_python RHS true 2 1 1 1 1 = Ok text /\ python text prog /\ asks_for ProofsRuntime.linear_only 1 1 /\
    In (Block (terms_head RHS 1 "HZ" false) [Simple doc; If "ansatz.ground_state" ours others; Simple "return"]) prog /\
    statements_add RHS (exec ProofsRuntime.linear_only ours) l /\ In (p, call) l /\
    realises_eT RHS 1 1 1 c call /\ complete 1 0 1 1 1 c.
Proof. exact ProofsRuntime.linear_refuted. Qed.
Print Assumptions C104_linear_refuted.

(** A file for H = 2, CC = 2 and one for H = 0, CC = 1 exist, as do the
    conditions of the caller. *)
Example C104_example :
  (exists text, generate_eT_zhz_python RHS true 2 2 1 1 1 = Ok text) /\
  (exists text0, generate_eT_zhz_python RHS false 0 1 1 1 1 = Ok text0) /\
  asks_for ProofsRuntime.linear_only 1 1 /\ asks_for (fun _ => true) 5 5 /\
  asks_for (String.eqb "truncation.t_singles") 0 0 /\
  of_ansatz RHS 0 1 0 1 0 0 1 (mkcontraction 0 0 [1] 0 [0]).
Proof.
  split; [eexists; vm_compute; reflexivity|]. split; [eexists; vm_compute; reflexivity|].
  split; [exact ProofsRuntime.linear_only_asks|]. split; [|split].
  - split; [|split]; intros; try reflexivity; symmetry; apply Nat.leb_le; lia.
  - split; [|split].
    + intros [|[|[|[|[|[|i]]]]]] L; try lia; reflexivity.
    + reflexivity.
    + intros [|[|[|[|[|[|i]]]]]] L; try lia; reflexivity.
  - repeat split; cbn; try lia; try discriminate. intros [|i] L; [reflexivity|lia].
Qed.
