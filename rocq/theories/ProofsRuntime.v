(** Running a file with smaller truncations. *)
From Coq Require Import List Arith Lia String.
From Verif Require Import PyBase ModelFullCC ModelEt ModelEtPy SpecEt SpecEtPy SpecPython SpecEtText SpecRuntime ProofsEtProgram.
Import ListNotations.

Lemma enabled_asks flag H0 CC0 q m n k : asks_for flag H0 CC0 -> Nat.max m n <= 5 -> k <= 5 ->
  (enabled flag q m n k <-> Nat.max m n <= H0 /\ k <= CC0).
Proof.
  intros (A & B & C) L L'. unfold enabled. rewrite B.
  assert (X : (Nat.max m n = 0 \/ flag (h_condition (Nat.max m n)) = true) <-> Nat.max m n <= H0).
  { destruct (Nat.eq_dec (Nat.max m n) 0) as [->|N]; [split; [lia|auto]|].
    rewrite A by lia. rewrite Nat.leb_le. lia. }
  assert (Y : (k = 0 \/ flag (z_condition k) = true) <-> k <= CC0).
  { destruct (Nat.eq_dec k 0) as [->|N]; [split; [lia|auto]|].
    rewrite C by lia. rewrite Nat.leb_le. lia. }
  rewrite X, Y. tauto.
Qed.

Lemma ansatz_asks s flag H CC H0 CC0 P q m n k c : asks_for flag H0 CC0 -> H <= 5 -> CC <= 5 -> H0 <= H -> CC0 <= CC ->
  (of_ansatz s H CC P q m n k c /\ enabled flag q m n k <->
   of_ansatz s H0 CC0 P q m n k c \/ (H0 = 1 /\ 2 <= H /\ with_h11 s CC0 P q m n k c)).
Proof.
  intros A LH LC L L'. unfold of_ansatz, h_of_ansatz, with_h11, allowed_on. split.
  - intros (((M & S & N) & K & C) & E). apply (enabled_asks flag H0 CC0) in E; [|assumption|lia|lia]. destruct E as [E E'].
    destruct (le_lt_dec (m + n) H0) as [X|X]; [left; repeat split; try assumption; try lia; apply C|].
    right. assert (n <> 0) by lia. assert (m = 1 /\ n = 1 /\ H0 = 1) as (-> & -> & ->) by lia.
    repeat split; try assumption; try lia; try apply C. destruct s; [discriminate N|]; auto. 
  - intros [((M & S & N) & K & C)|(E & L2 & -> & -> & -> & K & C)].
    + split; [repeat split; try assumption; try lia; apply C|]. apply (enabled_asks flag H0 CC0); [assumption|lia|lia|lia].
    + split; [repeat split; try assumption; try lia; try apply C; discriminate|]. apply (enabled_asks flag H0 CC0); [assumption|lia|lia|cbn; lia].
Qed.

Lemma adds_under_of s ground prog head good good0 flag :
  defines_terms s ground prog head good ->
  (forall q m n k c, good q m n k c /\ enabled flag q m n k <-> good0 q m n k c) ->
  adds_under s prog head flag good0.
Proof.
  intros (doc & ours & others & I & _ & A & _) E. destruct (A flag) as (l & X & Y).
  exists doc, ours, others, l. split; [exact I|]. split; [exact X|]. exact (exactly_adds_iff _ _ _ _ E Y).
Qed.

Lemma runtime s ground H CC e P text :
  1 <= CC -> H <= 5 -> CC <= 5 -> generate_eT_zhz_python s ground H CC 1 e P = Ok text ->
  exists prog, python text prog /\
    forall H0 CC0 flag p opt, H0 <= H -> CC0 <= CC -> asks_for flag H0 CC0 -> p <= CC -> p <= P ->
      let wanted q m n k c := of_ansatz s H0 CC0 p q m n k c \/ (H0 = 1 /\ 2 <= H /\ with_h11 s CC0 p q m n k c) in
      adds_under s prog (terms_head s p "HZ" opt) flag (fun q m n k c => q = 0 /\ wanted q m n k c /\ ~ bare_term p q m n k) /\
      adds_under s prog (terms_head s p "eT_HZ" opt) flag (fun q m n k c => 1 <= q <= e /\ wanted q m n k c).
Proof.
  intros C LH LC E. destruct (file_program s ground H CC e P text) as (prog & Py & _ & _ & _ & D); [lia|exact E|].
  exists prog. split; [exact Py|]. intros H0 CC0 flag p opt L0 L1 A Lp Lp' wanted.
  destruct (D p opt Lp Lp') as (D1 & D2 & _).
  split; [eapply adds_under_of; [exact D1|]|eapply adds_under_of; [exact D2|]]; intros q m n k c; unfold wanted;
    rewrite <- (ansatz_asks s flag H CC H0 CC0 p q m n k c A LH LC L0 L1); tauto.
Qed.

Definition linear_only : string -> bool := fun x =>
  negb (existsb (String.eqb x)
    (map h_condition [2; 3; 4; 5] ++ map z_condition [2; 3; 4; 5])).
Lemma linear_only_asks : asks_for linear_only 1 1.
Proof.
  split; [|split].
  - intros [|[|[|[|[|[|i]]]]]] L; try lia; reflexivity.
  - reflexivity.
  - intros [|[|[|[|[|[|i]]]]]] L; try lia; reflexivity.
Qed.

Lemma linear_refuted :
  exists text prog doc ours others l p call c,
    generate_eT_zhz_python RHS true 2 1 1 1 1 = Ok text /\ python text prog /\ asks_for linear_only 1 1 /\
    In (Block (terms_head RHS 1 "HZ" false) [Simple doc; If "ansatz.ground_state" ours others; Simple "return"]) prog /\
    statements_add RHS (exec linear_only ours) l /\ In (p, call) l /\
    realises_eT RHS 1 1 1 c call /\ complete 1 0 1 1 1 c.
Proof.
  destruct (generate_eT_zhz_python RHS true 2 1 1 1 1) as [text|] eqn:E; [|vm_compute in E; discriminate E].
  destruct (runtime RHS true 2 1 1 1 text) as (prog & Py & R); [lia|lia|lia|exact E|].
  destruct (R 1 1 linear_only 1 false) as (A & _); [lia|lia|exact linear_only_asks|lia|lia|].
  destruct A as (doc & ours & others & l & I & X & _ & Y).
  set (c := mkcontraction 0 1 [] 1 []).
  assert (C : complete 1 0 1 1 1 c) by (repeat split; cbn; lia).
  destruct (Y 0 1 1 1 c) as (l1 & p & call & l2 & L & Re & _).
  { split; [reflexivity|]. split; [right; repeat split; try lia; apply C|]. intros (_ & X1 & _). discriminate. }
  exists text, prog, doc, ours, others, l, p, call, c.
  split; [reflexivity|]. split; [exact Py|]. split; [exact linear_only_asks|]. split; [exact I|].
  split; [|split; [rewrite L; apply in_elt|split; [exact Re|exact C]]].
  destruct X as [[_ ->]|X]; [|exact X]. destruct l1; discriminate L.
Qed.

Lemma same_as_smaller s ground ground' H CC H0 CC0 e P P0 text text0 :
  1 <= CC0 -> CC0 <= CC -> H0 <= H -> H <= 5 -> CC <= 5 -> (s = RHS -> H0 = 1 -> H = 1) ->
  generate_eT_zhz_python s ground H CC 1 e P = Ok text ->
  generate_eT_zhz_python s ground' H0 CC0 1 e P0 = Ok text0 ->
  exists prog prog0, python text prog /\ python text0 prog0 /\
    forall flag all p opt, asks_for flag H0 CC0 -> asks_for all 5 5 -> p <= CC0 -> p <= P -> p <= P0 ->
      let without q m n k c := q = 0 /\ of_ansatz s H0 CC0 p q m n k c /\ ~ bare_term p q m n k in
      let with_t q m n k c := 1 <= q <= e /\ of_ansatz s H0 CC0 p q m n k c in
      adds_under s prog (terms_head s p "HZ" opt) flag without /\
      adds_under s prog0 (terms_head s p "HZ" opt) all without /\
      adds_under s prog (terms_head s p "eT_HZ" opt) flag with_t /\
      adds_under s prog0 (terms_head s p "eT_HZ" opt) all with_t.
Proof.
  intros C1 C2 C3 C4 C5 X E E0.
  destruct (runtime s ground H CC e P text) as (prog & Py & R); [lia|lia|lia|exact E|].
  destruct (file_program s ground' H0 CC0 e P0 text0) as (prog0 & Py0 & _ & _ & _ & D); [lia|exact E0|].
  exists prog, prog0. split; [exact Py|]. split; [exact Py0|]. intros flag all p opt A A0 L1 L2 L3 without with_t.
  destruct (R H0 CC0 flag p opt) as (A1 & A2); try lia; [exact A|].
  destruct (D p opt L1 L3) as (D1 & D2 & _).
  assert (W : forall q m n k c, (of_ansatz s H0 CC0 p q m n k c \/ (H0 = 1 /\ 2 <= H /\ with_h11 s CC0 p q m n k c)) <->
     of_ansatz s H0 CC0 p q m n k c).
  { intros q m n k c. split; [|now left].
    intros [O|(-> & L & -> & _)]; [exact O|specialize (X eq_refl eq_refl); lia]. }
  assert (W' : forall q m n k c, of_ansatz s H0 CC0 p q m n k c -> enabled all q m n k).
  { intros q m n k c ((O & _) & O' & _). apply (enabled_asks all 5 5); [exact A0|lia|lia|lia]. }
  split; [|split; [|split]].
  - destruct A1 as (doc & ours & others & l & I & B & Z). exists doc, ours, others, l. split; [exact I|]. split; [exact B|].
    refine (exactly_adds_iff _ _ _ _ _ Z). intros q m n k c. unfold without. cbv beta. rewrite W. tauto.
  - eapply adds_under_of; [exact D1|]. intros q m n k c. unfold without. specialize (W' q m n k c). tauto.
  - destruct A2 as (doc & ours & others & l & I & B & Z). exists doc, ours, others, l. split; [exact I|]. split; [exact B|].
    refine (exactly_adds_iff _ _ _ _ _ Z). intros q m n k c. unfold with_t. cbv beta. rewrite W. tauto.
  - eapply adds_under_of; [exact D2|]. intros q m n k c. unfold with_t. specialize (W' q m n k c). tauto.
Qed.
