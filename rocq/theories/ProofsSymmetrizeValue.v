(** Proofs about the numbers that the generated symmetriser computes. *)
From Coq Require Import List Arith Ascii String Lia Permutation Ring_theory Ring.
From Verif Require Import PyBase ModelHelper ModelSymmetrize SpecPython SpecSumText SpecSymmetrize SpecEinsum SpecFullCCValue SpecSymmetrizeValue ProofsSymmetrize ProofsEinsum ProofsWValue ProofsFullCCValue.
Import ListNotations.
Local Open Scope nat_scope.
Local Open Scope list_scope.

(** ** Orders of a list *)
Lemma insertions_map {X Y} (f : X -> Y) x l : insertions (f x) (map f l) = map (map f) (insertions x l).
Proof. induction l as [|y l IH]; [reflexivity|]. cbn [insertions map]. f_equal. rewrite IH, !map_map. reflexivity. Qed.
Lemma orders_map {X Y} (f : X -> Y) l : orders_of (map f l) = map (map f) (orders_of l).
Proof.
  induction l as [|x l IH]; [reflexivity|]. cbn [orders_of map]. rewrite IH. generalize (orders_of l) as L. induction L as [|p L IHL]; [reflexivity|].
  cbn [map flat_map]. rewrite map_app, insertions_map. f_equal. exact IHL.
Qed.
Lemma insertions_length {X} (x : X) l : List.length (insertions x l) = S (List.length l).
Proof. induction l as [|y l IH]; [reflexivity|]. cbn. now rewrite map_length, IH. Qed.
Lemma orders_length {X} (l : list X) : List.length (orders_of l) = fact (List.length l).
Proof.
  induction l as [|x l IH]; [reflexivity|]. cbn [orders_of]. assert (E : forall L, (forall p, In p L -> List.length p = List.length l) -> List.length (flat_map (insertions x) L) = List.length L * S (List.length l)).
  { induction L as [|p L IHL]; intros H; [reflexivity|]. cbn [flat_map]. rewrite app_length, insertions_length, IHL by (intros q I; apply H; now right).
    rewrite (H p) by now left. cbn. lia. }
  rewrite E, IH; [cbn [List.length fact]; lia|]. intros p I. apply in_orders in I. now apply Permutation_length.
Qed.
Lemma flat_map_insertions_cons {X} (x z : X) L :
  Permutation (flat_map (insertions x) (map (cons z) L)) (map (fun w => x :: z :: w) L ++ map (cons z) (flat_map (insertions x) L)).
Proof.
  induction L as [|w L IH]; [reflexivity|]. cbn [map flat_map insertions]. rewrite IH, map_app. cbn [app]. constructor.
  rewrite !app_assoc. apply Permutation_app_tail. apply Permutation_app_comm.
Qed.
Lemma insertions_swap {X} (x y : X) l : Permutation (flat_map (insertions x) (insertions y l)) (flat_map (insertions y) (insertions x l)).
Proof.
  induction l as [|z l IH]; [cbn; apply perm_swap|].
  assert (E : forall x y : X, Permutation (flat_map (insertions x) (insertions y (z :: l)))
    ([x :: y :: z :: l; y :: x :: z :: l] ++ (map (fun w => y :: z :: w) (insertions x l) ++ map (fun w => x :: z :: w) (insertions y l)) ++ map (cons z) (flat_map (insertions x) (insertions y l)))).
  { intros u v. cbn [insertions flat_map app map]. rewrite flat_map_insertions_cons, map_map. now rewrite app_assoc. }
  rewrite !E. rewrite IH. apply Permutation_app; [cbn; apply perm_swap|]. apply Permutation_app_tail. apply Permutation_app_comm.
Qed.
Lemma orders_perm {X} (l l' : list X) : Permutation l l' -> Permutation (orders_of l) (orders_of l').
Proof.
  induction 1 as [|x l l' P IH|x y l|l1 l2 l3 P1 IH1 P2 IH2]; [reflexivity| | |now rewrite IH1].
  - cbn [orders_of]. now apply Permutation_flat_map.
  - cbn [orders_of]. generalize (orders_of l) as L. induction L as [|p L IHL]; [reflexivity|]. cbn [flat_map]. rewrite !flat_map_app. apply Permutation_app; [apply insertions_swap|exact IHL].
Qed.

(** ** Positions *)
Lemma position_lt j l : In j l -> position j l < List.length l.
Proof. induction l as [|i l IH]; [intros []|]. cbn. destruct (Nat.eqb_spec i j); [lia|]. intros [->|I]; [congruence|]. specialize (IH I). lia. Qed.
Lemma nth_position j l d : In j l -> nth (position j l) l d = j.
Proof. induction l as [|i l IH]; [intros []|]. cbn. destruct (Nat.eqb_spec i j); [auto|]. intros [->|I]; [congruence|]. now apply IH. Qed.
Lemma position_inj j j' l : In j l -> In j' l -> position j l = position j' l -> j = j'.
Proof. intros I I' E. rewrite <- (nth_position j l 0 I), <- (nth_position j' l 0 I'). now rewrite E. Qed.
Lemma position_nth i l d : NoDup l -> i < List.length l -> position (nth i l d) l = i.
Proof.
  revert i. induction l as [|x l IH]; intros i N L; [cbn in L; lia|]. apply NoDup_cons_iff in N as [Nx N]. destruct i as [|i]; cbn; [now rewrite Nat.eqb_refl|].
  cbn in L. destruct (Nat.eqb_spec x (nth i l d)) as [E|E]; [destruct Nx; rewrite E; apply nth_In; lia|]. f_equal. apply IH; auto; lia.
Qed.

Lemma nth_map_seq (g : nat -> nat) k j : j < k -> nth j (map g (seq 0 k)) 0 = g j.
Proof. intros L. rewrite (nth_indep _ 0 (g 0)) by (rewrite map_length, seq_length; exact L). rewrite map_nth. now rewrite seq_nth. Qed.

Section Sym.
  Variable F : scalars.
  Variables A N k : nat.

  (** the modes that are read for an order of the axes *)
  Definition read_order (ax : list nat) : list nat := map (fun j => position (2 + j) ax - 2) (seq 0 k).

  Lemma read_perm p : Permutation p (seq 2 k) -> Permutation (read_order (0 :: 1 :: p)) (seq 0 k) /\
    forall j, j < k -> position (2 + j) (0 :: 1 :: p) = 2 + position (2 + j) p.
  Proof.
    intros P. assert (Ps : forall j, j < k -> position (2 + j) (0 :: 1 :: p) = 2 + position (2 + j) p) by reflexivity. split; [|exact Ps].
    assert (Lp : List.length p = k) by (rewrite (Permutation_length P); apply seq_length).
    assert (Ip : forall j, j < k -> In (2 + j) p) by (intros j L; apply (Permutation_in _ (Permutation_sym P)), in_seq; lia).
    apply NoDup_Permutation_bis.
    - unfold read_order. assert (Q : forall l, NoDup l -> (forall j, In j l -> j < k) -> NoDup (map (fun j => position (2 + j) (0 :: 1 :: p) - 2) l)).
      { induction l as [|j l IH]; intros Nl B; cbn [map]; [constructor|]. apply NoDup_cons_iff in Nl as [N1 N2]. constructor; [|apply IH; [exact N2|intros i I; apply B; now right]].
        intros I. apply in_map_iff in I as (i & E & I). rewrite !Ps in E by (apply B; first [now left|now right]).
        assert (2 + i = 2 + j); [|assert (i = j) by lia; subst; contradiction].
        apply (position_inj _ _ p); [apply Ip, B; now right|apply Ip, B; now left|lia]. }
      apply Q; [apply seq_NoDup|]. intros j I. apply in_seq in I. lia.
    - unfold read_order. now rewrite map_length.
    - intros i I. unfold read_order in I. apply in_map_iff in I as (j & <- & I). apply in_seq in I. rewrite Ps by lia. apply in_seq.
      pose proof (position_lt _ _ (Ip j ltac:(lia))). lia.
  Qed.
  Lemma read_inj p p' : Permutation p (seq 2 k) -> Permutation p' (seq 2 k) -> read_order (0 :: 1 :: p) = read_order (0 :: 1 :: p') -> p = p'.
  Proof.
    intros P P' E. assert (Lp : List.length p = k) by (rewrite (Permutation_length P); apply seq_length). assert (Lp' : List.length p' = k) by (rewrite (Permutation_length P'); apply seq_length).
    assert (Np : NoDup p) by (eapply Permutation_NoDup; [symmetry; exact P|apply seq_NoDup]).
    assert (Np' : NoDup p') by (eapply Permutation_NoDup; [symmetry; exact P'|apply seq_NoDup]).
    assert (Q : forall j, j < k -> position (2 + j) p = position (2 + j) p').
    { intros j L. unfold read_order in E. apply (f_equal (fun l => nth j l 0)) in E.
      rewrite !nth_map_seq in E by exact L. destruct (read_perm p P) as [_ R1]. destruct (read_perm p' P') as [_ R2]. rewrite R1, R2 in E by exact L. lia. }
    apply (nth_ext _ _ 0 0); [congruence|]. intros i L. assert (I : In (nth i p 0) p) by now apply nth_In.
    apply (Permutation_in _ P), in_seq in I. destruct (Nat.eq_dec (nth i p 0) (2 + (nth i p 0 - 2))) as [E2|E2]; [|lia].
    assert (E3 : position (nth i p 0) p' = i) by (rewrite E2, <- Q by lia; rewrite <- E2; now apply position_nth).
    symmetry. rewrite <- E3 at 1. apply nth_position. apply (Permutation_in _ (Permutation_sym P')), in_seq. lia.
  Qed.

  Lemma orders_read axes : mode_orders k axes -> Permutation (map read_order axes) (orders_of (seq 0 k)).
  Proof.
    intros (Nd & Ia). symmetry. apply NoDup_Permutation_bis.
    - apply nodup_orders, seq_NoDup.
    - rewrite map_length, orders_length, seq_length.
      assert (Pm : Permutation axes (map (fun p => 0 :: 1 :: p) (orders_of (seq 2 k)))).
      { apply NoDup_Permutation; [exact Nd|apply FinFun.Injective_map_NoDup; [intros x y E; now injection E|apply nodup_orders, seq_NoDup]|].
        intros ax. rewrite Ia, in_map_iff. split; intros (p & X & Y).
        - exists p. split; [now symmetry|now apply in_orders].
        - exists p. split; [now symmetry|now apply in_orders in Y]. }
      rewrite (Permutation_length Pm), map_length, orders_length, seq_length. reflexivity.
    - intros q I. apply in_orders in I.
      (* the inverse order *)
      assert (Nq : NoDup q) by (eapply Permutation_NoDup; [symmetry; exact I|apply seq_NoDup]).
      assert (Lq : List.length q = k) by (rewrite (Permutation_length I); apply seq_length).
      apply in_map_iff. exists (0 :: 1 :: map (fun i => 2 + position i q) (seq 0 k)).
      assert (Iq : forall i, i < k -> In i q) by (intros i L; apply (Permutation_in _ (Permutation_sym I)), in_seq; lia).
      assert (Pp : Permutation (map (fun i => 2 + position i q) (seq 0 k)) (seq 2 k)).
      { apply NoDup_Permutation_bis.
        - assert (Q : forall l, NoDup l -> (forall j, In j l -> j < k) -> NoDup (map (fun i => 2 + position i q) l)).
          { induction l as [|j l IH]; intros Nl B; cbn [map]; [constructor|]. apply NoDup_cons_iff in Nl as [N1 N2]. constructor; [|apply IH; [exact N2|intros i J; apply B; now right]].
            intros J. apply in_map_iff in J as (i & E & J). assert (i = j); [|subst; contradiction].
            apply (position_inj _ _ q); [apply Iq, B; now right|apply Iq, B; now left|lia]. }
          apply Q; [apply seq_NoDup|]. intros j J. apply in_seq in J. lia.
        - now rewrite map_length, !seq_length.
        - intros j J. apply in_map_iff in J as (i & <- & J). apply in_seq in J. pose proof (position_lt i q (Iq i ltac:(lia))). apply in_seq. lia. }
      split; [|apply Ia; exists (map (fun i => 2 + position i q) (seq 0 k)); now split].
      apply (nth_ext _ _ 0 0); [unfold read_order; now rewrite map_length, seq_length|]. unfold read_order. rewrite map_length, seq_length. intros j L.
      rewrite nth_map_seq by exact L.
      set (l := map (fun i => 2 + position i q) (seq 0 k)) in *. change (position (2 + j) (0 :: 1 :: l)) with (2 + position (2 + j) l).
      assert (Ej : 2 + j = nth (nth j q 0) l 0).
      { unfold l. assert (B : nth j q 0 < k) by (assert (X : In (nth j q 0) q) by (apply nth_In; lia); apply (Permutation_in _ I), in_seq in X; lia).
        rewrite nth_map_seq by exact B.
        cbn [plus]. now rewrite (position_nth j q 0 Nq ltac:(lia)). }
      rewrite Ej. rewrite position_nth; [lia| |].
      + eapply Permutation_NoDup; [symmetry; exact Pp|apply seq_NoDup].
      + unfold l. rewrite map_length, seq_length. assert (X : In (nth j q 0) q) by (apply nth_In; lia). apply (Permutation_in _ I), in_seq in X. lia.
  Qed.

  Lemma transposed_entry p x a b is : Permutation p (seq 2 k) -> List.length is = k ->
    entry (transposed F (0 :: 1 :: p) x) (a :: b :: is) = entry x (a :: b :: map (fun i => nth i is 0) (read_order (0 :: 1 :: p))).
  Proof.
    intros P L. unfold transposed. cbn [entry]. assert (Lp : List.length p = k) by (rewrite (Permutation_length P); apply seq_length). cbn [List.length]. rewrite Lp.
    cbn [seq map]. change (position 0 (0 :: 1 :: p)) with 0. change (position 1 (0 :: 1 :: p)) with 1. cbn [nth]. unfold read_order. rewrite map_map, <- (seq_shift k 1), <- (seq_shift k 0), !map_map. do 3 f_equal. apply map_ext_in. intros j I. apply in_seq in I.
    destruct (read_perm p P) as [_ Q]. change (S (S j)) with (2 + j). rewrite Q by lia. cbn [plus nth Nat.sub]. now rewrite Nat.sub_0_r.
  Qed.

  Lemma sum_transposed_orders axes x a b is : mode_orders k axes -> List.length is = k ->
    sum_transposed F axes x (a :: b :: is) = ksum F (map (fun js => entry x (a :: b :: js)) (orders_of is)).
  Proof.
    intros Mo L. unfold sum_transposed. rewrite (ksum_ext F _ (fun ax => (fun q => entry x (a :: b :: map (fun i => nth i is 0) q)) (read_order ax))).
    - rewrite <- (map_map read_order (fun q => entry x (a :: b :: map (fun i => nth i is 0) q))). rewrite (ksum_perm F _ _ (Permutation_map _ (orders_read axes Mo))).
      assert (E : is = map (fun i => nth i is 0) (seq 0 k)).
      { rewrite <- L. clear. induction is as [|i is IH]; [reflexivity|]. cbn [List.length seq map nth]. f_equal. rewrite <- seq_shift, map_map. exact IH. }
      assert (Eo : orders_of is = map (map (fun i => nth i is 0)) (orders_of (seq 0 k))) by (rewrite <- orders_map; f_equal; exact E). rewrite Eo, map_map. reflexivity.
    - intros ax I. apply Mo in I as (p & -> & P). now apply transposed_entry.
  Qed.

  Lemma transposed_fits axes x ax : mode_orders k axes -> has_axes F A N k x -> In ax axes ->
    transpose_accepts F ax x /\ shape (transposed F ax x) = shape x.
  Proof.
    intros Mo Hx I. apply Mo in I as (p & -> & P). unfold transpose_accepts. rewrite Hx. cbn [List.length]. rewrite repeat_length. split.
    - cbn [seq]. now do 2 constructor.
    - unfold transposed. cbn [shape map]. rewrite Hx. change (nth 0 (A :: A :: repeat N k) 0) with A. change (nth 1 (A :: A :: repeat N k) 0) with A. do 2 f_equal.
      assert (Q : forall l, (forall j, In j l -> 2 <= j < 2 + k) -> map (fun ax => nth ax (A :: A :: repeat N k) 0) l = repeat N (List.length l)).
      { induction l as [|j l IH]; intros B; [reflexivity|]. cbn [map List.length repeat]. rewrite IH by (intros i I; apply B; now right). f_equal.
        pose proof (B j (or_introl eq_refl)) as Bj. do 2 (destruct j as [|j]; [lia|]). cbn [nth]. 
        assert (R : forall n j, j < n -> nth j (repeat N n) 0 = N) by (induction n as [|n IHn]; intros [|i] Li; cbn; solve [lia|reflexivity|apply IHn; lia]). apply R. lia. }
      unfold has_axes in Hx. try rewrite Hx. rewrite Q; [|intros j I; apply (Permutation_in _ P), in_seq in I; lia]. f_equal. rewrite (Permutation_length P). apply seq_length.
  Qed.
End Sym.

Section Result.
  Variable F : scalars.
  Add Ring kring : (k_ring F).
  Lemma sum_same (f : list nat -> K F) v l : (forall p, In p l -> f p = v) -> ksum F (map f l) = kmul F (of_nat F (List.length l)) v.
  Proof.
    induction l as [|p l IH]; intros E; cbn [map List.length]; [rewrite ksum_nil; change (of_nat F 0) with (kzero F); ring|].
    rewrite ksum_cons, IH by (intros q I; apply E; now right). rewrite (E p) by now left. rewrite of_nat_S. ring.
  Qed.
End Result.

Lemma symmetrize_value M prog : python (build_symmetrizing_function M) prog ->
  exists body, prog = [Block symmetrize_head body] /\
    forall flag k, order_is flag k -> 2 <= k <= M ->
      exists doc axes, String.prefix "'''" doc = true /\
        exec flag body = [doc; "X = np.zeros_like(tensor, dtype=complex)"%string] ++ map add_transposed axes ++ ["return X"%string] /\
        forall (F : scalars) A N (x : array F), has_axes F A N k x ->
          Forall (fun ax => transpose_accepts F ax x /\ shape (transposed F ax x) = shape x) axes /\
          forall a b is, List.length is = k ->
            sum_transposed F axes x (a :: b :: is) = ksum F (map (fun js => entry x (a :: b :: js)) (orders_of is)) /\
            (forall is', Permutation is' is -> sum_transposed F axes x (a :: b :: is') = sum_transposed F axes x (a :: b :: is)) /\
            ((forall js, Permutation js is -> entry x (a :: b :: js) = entry x (a :: b :: is)) ->
               sum_transposed F axes x (a :: b :: is) = kmul F (of_nat F (fact k)) (entry x (a :: b :: is))).
Proof.
  intros R. destruct (symmetrize_file M prog R) as (body & E & X). exists body. split; [exact E|]. intros flag k O L.
  destruct (X flag k O) as (doc & D & _ & Y & _). destruct (Y L) as (axes & Mo & Ex). exists doc, axes. split; [exact D|]. split; [exact Ex|].
  intros F A N x Hx. split; [apply Forall_forall; intros ax I; now apply (transposed_fits F A N k axes)|].
  intros a b is Li. pose proof (sum_transposed_orders F k axes x a b) as Q. split; [now apply Q|]. split.
  - intros is' P. rewrite !Q by (auto; rewrite (Permutation_length P); auto). apply ksum_perm, Permutation_map. now apply orders_perm.
  - intros Sy. rewrite Q by auto. rewrite (sum_same F _ (entry x (a :: b :: is))).
    + now rewrite orders_length, Li.
    + intros p I. apply in_orders in I. now apply Sy.
Qed.
