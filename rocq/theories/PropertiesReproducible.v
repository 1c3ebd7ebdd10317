(** C108: running the generator twice on the same request. *)
From Coq Require Import List Arith ZArith Lia Permutation String.
From Verif Require Import PyBase ModelFullCC ModelFullCCPy ModelFullCCLatex ModelTrunc ModelRun.
From Verif Require Import SpecFullCC SpecFullCCPy SpecTrunc SpecRun SpecReproducible ProofsReproducible.
Import ListNotations.
Local Open Scope string_scope.

(** C108: unless the request is one of [can_vary], the text that is generated
    does not depend on the order in which sets of strings (and the sets of
    permutations, which are sorted) are iterated. *)
Theorem C108_reproducible :
  forall lt ln ln' lp pt pn pn' pl pl' pc pc' c,
    set_order lt -> set_order pt -> set_order ln -> set_order ln' -> set_order pn -> set_order pn' ->
    set_order pl -> set_order pl' -> set_order pc -> set_order pc' -> is_dict (gc_trunc c) -> ~ can_vary c ->
    generate lt ln lp pt pn pl pc c = generate lt ln' lp pt pn' pl' pc' c.
Proof. exact generate_orders. Qed.
Print Assumptions C108_reproducible.

Definition id {A : Type} (l : list A) : list A := l.
Definition cc_dict (H cc S P : Z) : dict := [(DEnum KH, H); (DEnum KCC, cc); (DEnum KS, S); (DEnum KP, P)].
Definition cc_call (k : kind) (ground : bool) (H cc S P : Z) : generator_call :=
  mkCall k FullCC "f" (cc_dict H cc S P) ground true LHS.
Definition with_order (o : list nat -> list nat) : generator_call -> res string := generate id o id id o id id.

Lemma id_order {A} : set_order (@id A).
Proof. intros l. apply Permutation_refl. Qed.
Lemma rev_order {A} : set_order (@rev A).
Proof. intros l. apply Permutation_rev. Qed.
Definition differ (a b : res string) : bool := match a, b with Ok x, Ok y => negb (String.eqb x y) | _, _ => false end.
Lemma differ_neq a b : differ a b = true -> a <> b.
Proof. intros E <-. destruct a; cbn in E; [rewrite String.eqb_refl in E|]; discriminate. Qed.

(** The bound is sharp: at its smallest truncations the texts differ. *)
Theorem C108_sharp_latex :
  forall c, In c [cc_call KLatex true 5 2 2 2; cc_call KLatex false 4 1 3 1; cc_call KLatex false 5 2 2 1] ->
    exists ln ln', set_order ln /\ set_order ln' /\ with_order ln c <> with_order ln' c.
Proof.
  intros c Hc. exists id, (@rev nat). split; [apply id_order|]. split; [apply rev_order|]. apply differ_neq.
  destruct Hc as [<-|[<-|[<-|[]]]]; vm_compute; reflexivity.
Qed.
Print Assumptions C108_sharp_latex.

Theorem C108_sharp_python :
  exists pn pn', set_order pn /\ set_order pn' /\
    with_order pn (cc_call KPython true 5 2 2 2) <> with_order pn' (cc_call KPython true 5 2 2 2).
Proof.
  exists id, (@rev nat). split; [apply id_order|]. split; [apply rev_order|]. apply differ_neq. vm_compute. reflexivity.
Qed.
Print Assumptions C108_sharp_python.

Definition everything {C} (b : list (list (block C))) : list (string * C) := flat_map (run (fun _ => true) (fun _ => true)) b.
Definition bodies_with (o : list nat -> list nat) (H cc S : nat) (omega : gop) : list (string * einsum) :=
  match generate_full_cc_einsums id o id id H cc S omega true with Ok b => everything b | Err _ => [] end.

(** At 4, 4, 3, 4 the prefactors of the calls of the projection b^4 differ. *)
Theorem C108_sharp_rank_four :
  exists pn pn', set_order pn /\ set_order pn' /\
    map fst (bodies_with pn 4 4 3 (mkgop "bbbb" 4 0 4)) <> map fst (bodies_with pn' 4 4 3 (mkgop "bbbb" 4 0 4)).
Proof.
  exists id, (@rev nat). split; [apply id_order|]. split; [apply rev_order|].
  assert (D : forall a b : list string, list_eqb String.eqb a b = false -> a <> b).
  { intros a b E <-. induction a as [|x r IH]; cbn in E; [discriminate|]. rewrite String.eqb_refl in E. auto. }
  apply D. vm_compute. reflexivity.
Qed.
Print Assumptions C108_sharp_rank_four.

(** Not only the order of the factors changes.  The python code keeps the calls
    under the text of the prefactor, so which contractions are added can change
    from run to run: at 5, 3, 2, 3 the contraction of h^3_2 with t^2 is in the
    code for one order of the set, and missing for another. *)
Theorem C108_same_contractions_refuted :
  exists pn pn' H cc S omega hm hn us f fbar, set_order pn /\ set_order pn' /\
    projection cc 3 omega /\ requested (g_m omega) (g_n omega) H cc S true true hm hn us f fbar /\
    (exists p c, In (p, c) (bodies_with pn H cc S omega) /\ e_h c = (hm, hn) /\ e_ts c = map (fun t => (up t, down t)) us) /\
    (exists b, generate_full_cc_einsums id pn' id id H cc S omega true = Ok b) /\
    forall p c, In (p, c) (bodies_with pn' H cc S omega) -> (e_h c, e_ts c) <> ((hm, hn), map (fun t => (up t, down t)) us).
Proof.
  exists (@rev nat), id, 5, 3, 2, (mkgop "bbb" 3 0 3), 3, 2, [mkt 2 0 0 0], 0, 3.
  split; [apply rev_order|]. split; [apply id_order|].
  split; [repeat split; cbn; auto|].
  split; [repeat split; cbn; auto; repeat constructor; cbn; auto|].
  assert (F : forall o, existsb (fun pc => match e_h (snd pc), e_ts (snd pc) with (3, 2), [(2, 0)] => true | _, _ => false end)
      (bodies_with o 5 3 2 (mkgop "bbb" 3 0 3)) = true ->
    exists p c, In (p, c) (bodies_with o 5 3 2 (mkgop "bbb" 3 0 3)) /\ e_h c = (3, 2) /\ e_ts c = [(2, 0)]).
  { intros o E. apply existsb_exists in E as ([p c] & I & E). exists p, c. split; [exact I|]. cbn [snd] in E.
    destruct (e_h c) as [[|[|[|[|?]]]] [|[|[|?]]]]; try discriminate E.
    destruct (e_ts c) as [|[[|[|[|?]]] [|?]] [|? ?]]; try discriminate E. split; reflexivity. }
  split; [apply F; vm_compute; reflexivity|]. split; [eexists; vm_compute; reflexivity|].
  intros p c I E. injection E as E1 E2.
  assert (G : forallb (fun pc => negb (match e_h (snd pc), e_ts (snd pc) with (3, 2), [(2, 0)] => true | _, _ => false end))
      (bodies_with id 5 3 2 (mkgop "bbb" 3 0 3)) = true) by (vm_compute; reflexivity).
  rewrite forallb_forall in G. specialize (G (p, c) I). cbn [snd] in G. rewrite E1, E2 in G. cbn in G. discriminate.
Qed.
Print Assumptions C108_same_contractions_refuted.

(** A request that does not vary, with a prefactor that is simplified. *)
Example C108_example :
  ~ can_vary (cc_call KPython true 4 2 2 2) /\ is_dict (gc_trunc (cc_call KPython true 4 2 2 2)) /\
  exists text, with_order id (cc_call KPython true 4 2 2 2) = Ok text /\ with_order (@rev nat) (cc_call KPython true 4 2 2 2) = Ok text.
Proof.
  assert (D : is_dict (gc_trunc (cc_call KPython true 4 2 2 2))) by (repeat constructor; cbn; intuition discriminate).
  assert (N : ~ can_vary (cc_call KPython true 4 2 2 2)).
  { intros (_ & _ & H & cc & S & P & (V1 & V2 & V3 & V4) & W). unfold has_value in *. cbn in *.
    assert (Z.of_nat H = 4%Z) by (destruct V1 as [V1|[V1|[V1|[V1|[]]]]]; congruence). unfold ground_can_vary in W.
    assert (Z.of_nat P = 2%Z) by (destruct V4 as [V4|[V4|[V4|[V4|[]]]]]; congruence). lia. }
  split; [exact N|]. split; [exact D|].
  destruct (with_order id (cc_call KPython true 4 2 2 2)) as [text|] eqn:E.
  2:{ exfalso. assert (K : (match with_order id (cc_call KPython true 4 2 2 2) with Ok _ => true | Err _ => false end) = true) by (vm_compute; reflexivity).
      rewrite E in K. discriminate. }
  exists text. split; [reflexivity|]. rewrite <- E. unfold with_order. symmetry.
  apply C108_reproducible; auto using id_order, rev_order.
Qed.
