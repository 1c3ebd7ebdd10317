(** Proofs about the values of the W operators. *)
From Coq Require Import List Arith Bool Ascii String Ring_theory Ring Lia Permutation.
From Verif Require Import PyBase SpecPartitions SpecW SpecPython SpecEtText SpecSumText SpecWText SpecEinsum ModelHelper ModelW ProofsW ProofsWText ProofsEinsum SpecWValue.
Import ListNotations.

Lemma string_of_eq l : string_of l = string_of_list_ascii l.
Proof. induction l as [|c l IH]; cbn; [reflexivity|now rewrite IH]. Qed.
Lemma fact_eq n : fact_spec n = fact n.
Proof. induction n as [|n IH]; [reflexivity|]. cbn [fact_spec fact]. rewrite IH. lia. Qed.
Lemma subscripts_chain states groups ins : chain_subscripts states groups = Some ins ->
  ins = map string_of_list_ascii (chain_of states groups) /\ List.length states = S (List.length groups).
Proof.
  revert groups ins. induction states as [|s r IH]; intros groups ins E; [destruct groups; discriminate E|].
  destruct r as [|s' r'].
  - cbn in E. destruct groups; [injection E as <-; split; reflexivity|discriminate E].
  - destruct groups as [|g gs]; [discriminate E|]. change (match chain_subscripts (s' :: r') gs with Some l0 => Some (string_of (s :: s' :: g) :: l0) | None => None end = Some ins) in E.
    destruct (chain_subscripts (s' :: r') gs) as [l|] eqn:E'; [|discriminate E]. injection E as <-. destruct (IH gs l E') as [-> L]. split; [change (chain_of (s :: s' :: r') (g :: gs)) with ((s :: s' :: g) :: chain_of (s' :: r') gs); cbn [map]; f_equal; apply string_of_eq|cbn in *; lia].
Qed.

(** Lists of [j] numbers with sum [n]. *)
Fixpoint comps (j n : nat) : list (list nat) :=
  match j with
  | O => if Nat.eqb n 0 then [[]] else []
  | S j' => flat_map (fun p => map (cons p) (comps j' (n - p))) (seq 0 (S n))
  end.
Lemma comps_iff j n c : In c (comps j n) <-> List.length c = j /\ fold_right Nat.add 0 c = n.
Proof.
  revert n c. induction j as [|j IH]; intros n c; cbn [comps].
  - destruct n as [|n]; cbn.
    + split; [intros [<-|[]]; auto|]. intros [L _]. destruct c; [now left|discriminate L].
    + split; [tauto|]. intros [L E]. destruct c; [discriminate E|discriminate L].
  - rewrite in_flat_map. split.
    + intros (p & I & J). apply in_seq in I. apply in_map_iff in J as (d & <- & J). apply IH in J as [L E]. cbn. lia.
    + intros [L E]. destruct c as [|p c]; [discriminate L|]. cbn in L, E. exists p. split; [apply in_seq; lia|]. apply in_map, IH. lia.
Qed.
Lemma nodup_flat_map {X Y} (g : X -> list Y) l : NoDup l -> (forall x, In x l -> NoDup (g x)) ->
  (forall x x' y, In x l -> In x' l -> In y (g x) -> In y (g x') -> x = x') -> NoDup (flat_map g l).
Proof.
  induction l as [|x l IH]; intros Nd H D; cbn; [constructor|]. inversion Nd as [|? ? Nx Nl]; subst.
  assert (R : NoDup (flat_map g l)) by (apply IH; [exact Nl|intros; apply H; now right|intros; eapply D; eauto; now right]).
  assert (Q : forall y, In y (g x) -> ~ In y (flat_map g l)).
  { intros y I J. apply in_flat_map in J as (x' & I' & J). assert (x = x') as -> by (apply (D x x' y); [now left|now right|exact I|exact J]). contradiction. }
  specialize (H x (or_introl eq_refl)). revert Q H. clear - R. induction (g x) as [|y ys IH]; intros Q H; cbn; [exact R|].
  inversion H as [|? ? Ny Nys]; subst. constructor; [|apply IH; [intros z I; apply Q; now right|exact Nys]].
  intros I. apply in_app_or in I as [I|I]; [contradiction|]. apply (Q y); [now left|exact I].
Qed.
Lemma nodup_map_cons {X} (p : X) l : NoDup l -> NoDup (map (cons p) l).
Proof. induction 1 as [|x l N H IH]; cbn; constructor; [|exact IH]. intros I. apply in_map_iff in I as (y & [= ->] & I). contradiction. Qed.
Lemma comps_nodup j n : NoDup (comps j n).
Proof.
  revert n. induction j as [|j IH]; intros n; cbn [comps]; [destruct n; cbn; repeat constructor; intros []|].
  apply nodup_flat_map; [apply seq_NoDup|intros; apply nodup_map_cons, IH|].
  intros x x' y _ _ I J. apply in_map_iff in I as (u & <- & _). now apply in_map_iff in J as (v & [= -> _] & _).
Qed.

Fixpoint pieces (c : list nat) (is : list nat) : list (list nat) :=
  match c with [] => [] | p :: c' => firstn p is :: pieces c' (skipn p is) end.
Lemma pieces_lengths c is : fold_right Nat.add 0 c = List.length is -> map (@List.length nat) (pieces c is) = c.
Proof.
  revert is. induction c as [|p c IH]; intros is E; cbn; [reflexivity|]. cbn in E. rewrite firstn_length, IH by (rewrite skipn_length; lia). f_equal. lia.
Qed.
Lemma pieces_concat {X} (f : X -> nat) groups : pieces (map (@List.length X) groups) (map f (List.concat groups)) = map (map f) groups.
Proof.
  induction groups as [|g gs IH]; [reflexivity|]. cbn [map List.concat pieces]. rewrite map_app.
  assert (L : List.length (map f g) = List.length g) by apply map_length.
  f_equal.
  - rewrite firstn_app, <- L, Nat.sub_diag, firstn_all. cbn. apply app_nil_r.
  - rewrite skipn_app, <- L, Nat.sub_diag, skipn_all. cbn. exact IH.
Qed.

Section Values.
  Variable F : scalars.
  Add Ring kring : (k_ring F).
  Notation K := (K F).
  Notation "0" := (kzero F). Notation "1" := (kone F).
  Infix "+" := (kadd F). Infix "*" := (kmul F).
  Notation ksum := (ksum F). Notation sum_below := (sum_below F). Notation kprod := (kprod F).
  Variables A N : nat.
  Notation mmul := (mmul F A). Notation mprod := (mprod F A).

  (** ** Division *)
  Lemma of_nat_seq s n : fold_right (fun _ r => 1 + r) 0 (seq s n) = of_nat F n.
  Proof. unfold of_nat. generalize O as z. revert s. induction n as [|n IH]; intros s z; [reflexivity|]. cbn [seq fold_right]. f_equal. apply IH. Qed.
  Lemma of_nat_S n : of_nat F (S n) = 1 + of_nat F n.
  Proof. unfold of_nat at 1. cbn [seq fold_right]. f_equal. apply of_nat_seq. Qed.
  Lemma of_nat_add m n : of_nat F (m + n)%nat = of_nat F m + of_nat F n.
  Proof. induction m as [|m IH]; cbn [Nat.add]; [change (of_nat F O) with 0; ring|]. rewrite !of_nat_S, IH. ring. Qed.
  Lemma of_nat_mul m n : of_nat F (m * n)%nat = of_nat F m * of_nat F n.
  Proof. induction m as [|m IH]; cbn [Nat.mul]; [change (of_nat F O) with 0; ring|]. rewrite of_nat_add, of_nat_S, IH. ring. Qed.
  Lemma over_spec n : n <> O -> of_nat F n * one_over F n = 1.
  Proof. destruct n as [|n]; [contradiction|]. intros _. apply (k_over F n). Qed.
  Lemma over_unique n x : n <> O -> of_nat F n * x = 1 -> x = one_over F n.
  Proof.
    intros P E. transitivity (x * (of_nat F n * one_over F n)); [rewrite over_spec by exact P; ring|].
    transitivity ((of_nat F n * x) * one_over F n); [ring|]. rewrite E. ring.
  Qed.
  Lemma over_mul m n : m <> O -> n <> O -> one_over F (m * n)%nat = one_over F m * one_over F n.
  Proof.
    intros P Q. symmetry. apply over_unique; [nia|]. rewrite of_nat_mul.
    transitivity ((of_nat F m * one_over F m) * (of_nat F n * one_over F n)); [ring|]. rewrite !over_spec by assumption. ring.
  Qed.
  Lemma over_one : one_over F 1%nat = 1.
  Proof. symmetry. apply over_unique; [discriminate|]. rewrite of_nat_S. change (of_nat F O) with 0. ring. Qed.
  Lemma over_exp c : one_over F (exp_denominator c) = one_over F (fact (List.length c)) * kprod (map (fun n => one_over F (fact n)) c).
  Proof.
    unfold exp_denominator. rewrite fact_eq, over_mul.
    - f_equal. induction c as [|n c IH]; cbn [fold_right map SpecEinsum.kprod]; [apply over_one|]. rewrite fact_eq, over_mul; [f_equal; exact IH|apply fact_neq_0|].
      clear. induction c as [|n c IH]; cbn; [discriminate|]. rewrite fact_eq. pose proof (fact_neq_0 n). nia.
    - apply fact_neq_0.
    - clear. induction c as [|n c IH]; cbn; [discriminate|]. rewrite fact_eq. pose proof (fact_neq_0 n). nia.
  Qed.

  (** ** Products of matrices *)
  Lemma mmul_ext (x x' y y' : matrix F) a b : (forall c, x a c = x' a c) -> (forall c, y c b = y' c b) -> mmul x y a b = mmul x' y' a b.
  Proof. intros H H'. apply sum_below_ext. intros c _. now rewrite H, H'. Qed.
  Lemma mmul_zero_l (x y : matrix F) a b : (forall c, x a c = 0) -> mmul x y a b = 0.
  Proof. intros H. apply ksum_zero. intros c _. rewrite H. ring. Qed.
  Lemma mmul_zero_r (x y : matrix F) a b : (forall c, y c b = 0) -> mmul x y a b = 0.
  Proof. intros H. apply ksum_zero. intros c _. rewrite H. ring. Qed.
  Lemma mprod_zero l x b : In x l -> (forall a b, x a b = 0) -> forall a, mprod l a b = 0.
  Proof.
    intros I Z. induction l as [|y l IH]; [contradiction|]. intros a. cbn. destruct I as [->|I]; [apply mmul_zero_l; intros; apply Z|]. apply mmul_zero_r. now apply IH.
  Qed.
  Lemma mprod_scale l b : forall a, mprod (map (fun kx => mscale F (fst kx) (snd kx)) l) a b = kprod (map fst l) * mprod (map snd l) a b.
  Proof.
    induction l as [|[k x] l IH]; intros a; cbn [map SpecEinsum.kprod SpecEinsum.mprod fold_right fst snd].
    - unfold identity. ring.
    - change (ksum (map (fun c => mscale F k x a c * mprod (map (fun kx => mscale F (fst kx) (snd kx)) l) c b) (seq O A)) =
              (k * kprod (map fst l)) * ksum (map (fun c => x a c * mprod (map snd l) c b) (seq O A))).
      rewrite <- ksum_scale. apply ksum_ext. intros c _. rewrite IH. unfold mscale. ring.
  Qed.

  (** ** Powers as sums over lists of numbers *)
  Definition term (T : tensor_series F) (c is : list nat) : matrix F := mprod (map T (pieces c is)).
  Definition wsum (keep : list nat -> bool) (T : tensor_series F) (j : nat) (is : list nat) : matrix F :=
    fun a b => ksum (map (fun c => term T c is a b) (filter keep (comps j (List.length is)))).

  Lemma filter_flat_map {X Y} (p : Y -> bool) (g : X -> list Y) l : filter p (flat_map g l) = flat_map (fun x => filter p (g x)) l.
  Proof. induction l as [|x l IH]; cbn; [reflexivity|]. now rewrite filter_app, IH. Qed.
  Lemma filter_map {X Y} (p : Y -> bool) (g : X -> Y) l : filter p (map g l) = map g (filter (fun x => p (g x)) l).
  Proof. induction l as [|x l IH]; cbn; [reflexivity|]. destruct (p (g x)); cbn; now rewrite IH. Qed.

  Lemma wsum_S keep T j is a b :
    wsum keep T (S j) is a b =
    ksum (map (fun p => mmul (T (firstn p is)) (wsum (fun c => keep (p :: c)) T j (skipn p is)) a b) (seq O (S (List.length is)))).
  Proof.
    unfold wsum at 1. cbn [comps]. rewrite filter_flat_map, ksum_flat_map. apply ksum_ext. intros p _.
    rewrite filter_map, map_map. unfold SpecEinsum.mmul, SpecEinsum.sum_below.
    etransitivity; [|apply ksum_ext; intros c _; symmetry; unfold wsum; symmetry; apply ksum_scale].
    rewrite ksum_swap. rewrite skipn_length. apply ksum_ext. intros c _. reflexivity.
  Qed.
  Lemma wsum_ext keep keep' T j is a b : (forall c, keep c = keep' c) -> wsum keep T j is a b = wsum keep' T j is a b.
  Proof. intros H. unfold wsum. f_equal. f_equal. now apply filter_ext. Qed.
  Lemma wsum_none keep T j is a b : (forall c, keep c = false) -> wsum keep T j is a b = 0.
  Proof. intros H. unfold wsum. rewrite (filter_ext _ (fun _ => false) H). assert (E : forall l : list (list nat), filter (fun _ => false) l = []) by (induction l; auto). now rewrite E. Qed.
  Lemma wsum_O keep T is a b : keep [] = true -> wsum keep T O is a b = unit_series F is a b.
  Proof.
    intros H. destruct is as [|i is]; unfold wsum; cbn; [|reflexivity]. rewrite H. cbn. unfold term. cbn. ring.
  Qed.

  Lemma power_wsum T j is a b : series_power F A T j is a b = wsum (fun _ => true) T j is a b.
  Proof.
    revert is a b. induction j as [|j IH]; intros is a b; cbn [series_power]; [symmetry; now apply wsum_O|].
    rewrite wsum_S. unfold series_mul, msum. rewrite map_map. apply ksum_ext. intros p _. apply mmul_ext; [reflexivity|]. intros c. apply IH.
  Qed.

  Variable env : string -> array F.
  Variable tr : string -> bool.
  Notation cl := (cluster F env tr).

  Lemma cluster_zero_rank from to is a b : (List.length is = O \/ List.length is < from \/ to < List.length is) -> cl from to is a b = 0.
  Proof.
    intros H. unfold cluster. destruct (_ && _)%bool eqn:E; [|reflexivity]. exfalso. rewrite !andb_true_iff, !Nat.leb_le in E. lia.
  Qed.
  Lemma cluster_same from to from' to' is : from <= List.length is <= to -> from' <= List.length is <= to' -> cl from to is = cl from' to' is.
  Proof.
    intros H H'. unfold cluster. replace (Nat.leb from _) with true by (symmetry; apply Nat.leb_le; lia). replace (Nat.leb from' _) with true by (symmetry; apply Nat.leb_le; lia).
    replace (Nat.leb (List.length is) to) with true by (symmetry; apply Nat.leb_le; lia). replace (Nat.leb (List.length is) to') with true by (symmetry; apply Nat.leb_le; lia). reflexivity.
  Qed.

  Lemma power_ones k j is a b : List.length is <= k ->
    series_power F A (cl 1%nat 1%nat) j is a b = wsum (fun c => Nat.eqb (big_parts c) O) (cl 1%nat k) j is a b.
  Proof.
    revert is a b. induction j as [|j IH]; intros is a b L; cbn [series_power]; [symmetry; now apply wsum_O|].
    rewrite wsum_S. unfold series_mul, msum. rewrite map_map. apply ksum_ext. intros p I. apply in_seq in I.
    assert (Lp : List.length (firstn p is) = p) by (rewrite firstn_length; lia).
    destruct p as [|[|p]].
    - rewrite !mmul_zero_l; [reflexivity|intros; apply cluster_zero_rank; rewrite Lp; now left|intros; apply cluster_zero_rank; rewrite Lp; now left].
    - apply mmul_ext; [intros c; rewrite (cluster_same 1%nat 1%nat 1%nat k) by (rewrite Lp; lia); reflexivity|]. intros c. rewrite IH by (rewrite skipn_length; lia). now apply wsum_ext.
    - rewrite mmul_zero_l by (intros; apply cluster_zero_rank; rewrite Lp; lia). symmetry. apply mmul_zero_r. intros c. apply wsum_none. intros d. reflexivity.
  Qed.
  Lemma linear_wsum k j is a b : List.length is <= k ->
    power_linear F A (cl 1%nat 1%nat) (cl 2%nat k) j is a b = wsum (fun c => Nat.leb (big_parts c) 1%nat) (cl 1%nat k) j is a b.
  Proof.
    revert is a b. induction j as [|j IH]; intros is a b L; cbn [power_linear]; [symmetry; now apply wsum_O|].
    rewrite wsum_S. unfold msum at 1. cbn [map]. rewrite !ksum_cons, ksum_nil. unfold series_mul, msum. rewrite !map_map.
    transitivity (ksum (map (fun p => mmul (cl 1%nat 1%nat (firstn p is)) (power_linear F A (cl 1%nat 1%nat) (cl 2%nat k) j (skipn p is)) a b) (seq O (S (List.length is)))) +
      ksum (map (fun p => mmul (cl 2%nat k (firstn p is)) (series_power F A (cl 1%nat 1%nat) j (skipn p is)) a b) (seq O (S (List.length is))))); [ring|].
    rewrite <- ksum_add. apply ksum_ext. intros p I. apply in_seq in I.
    assert (Lp : List.length (firstn p is) = p) by (rewrite firstn_length; lia).
    destruct p as [|[|p]].
    - rewrite !mmul_zero_l; [ring|intros; apply cluster_zero_rank; rewrite Lp; now left|intros; apply cluster_zero_rank; rewrite Lp; now left|intros; apply cluster_zero_rank; rewrite Lp; now left].
    - rewrite (mmul_zero_l (cl 2%nat k _)) by (intros; apply cluster_zero_rank; rewrite Lp; lia).
      transitivity (mmul (cl 1%nat 1%nat (firstn 1 is)) (power_linear F A (cl 1%nat 1%nat) (cl 2%nat k) j (skipn 1 is)) a b); [ring|].
      apply mmul_ext; [intros c; rewrite (cluster_same 1%nat 1%nat 1%nat k) by (rewrite Lp; lia); reflexivity|]. intros c. rewrite IH by (rewrite skipn_length; lia). now apply wsum_ext.
    - rewrite (mmul_zero_l (cl 1%nat 1%nat _)) by (intros; apply cluster_zero_rank; rewrite Lp; lia).
      transitivity (mmul (cl 2%nat k (firstn (S (S p)) is)) (series_power F A (cl 1%nat 1%nat) j (skipn (S (S p)) is)) a b); [ring|].
      apply mmul_ext; [intros c; rewrite (cluster_same 2%nat k 1%nat k) by (rewrite Lp; lia); reflexivity|]. intros c. rewrite (power_ones k) by (rewrite skipn_length; lia).
      apply wsum_ext. intros d. unfold big_parts. cbn. destruct (List.length (filter _ d)); reflexivity.
  Qed.

  (** ** The value of a product *)
  Definition tval (T : tensor_series F) (is : list nat) (a b : nat) (c : list nat) : K :=
    one_over F (fact (List.length c)) * term T c is a b.

  Lemma chain_product k c p is a b : amplitude_axes F A N env -> composition_of k c -> k <= 6 -> c <> [] -> p_ops p = map amp_name c ->
    matrix_chain c (p_ins p) (p_out p) ->
    product_accepted F env p /\
    (List.length is = k -> b < A -> Forall (has_rank tr) c ->
     one_over F (exp_denominator c) * product_value F env p (a :: b :: is) = tval (cl 1%nat k) is a b c).
  Proof.
    intros Ax [Cp Cs] K6 Cn Ops (inner & groups & Nd & Lg & Sb & Out).
    apply subscripts_chain in Sb as [Sb Ls]. rewrite string_of_eq in Out. unfold product_accepted, product_value. rewrite Ops, map_map, Sb, Out.
    assert (Lv : List.length groups = S (List.length inner)) by (cbn in Ls; rewrite app_length in Ls; cbn in Ls; lia).
    assert (Fx : Forall2 (fun v x => has_axes F A N (List.length v) x) groups (map (fun n => env (amp_name n)) c)).
    { rewrite <- Cs in K6. clear Cs. rewrite <- Lg in Cp, K6 |- *. clear - Cp Ax K6. induction groups as [|g gs IH]; cbn in *; [constructor|]. inversion Cp; subst.
      constructor; [apply Ax; lia|apply IH; [assumption|lia]]. }
    assert (Mv : forall x, In x (List.concat groups) <-> In x ([] ++ List.concat groups)) by (intros; reflexivity).
    split.
    - exact (chain_accepts F A N "a"%char "b"%char inner [] (List.concat groups) groups _ Nd Lv Fx Mv).
    - intros Li Lb Al. assert (Lm : List.length is = List.length (List.concat groups)).
      { rewrite Li, <- Cs, <- Lg. clear. induction groups as [|g gs IH]; cbn; [reflexivity|]. now rewrite app_length, IH. }
      etransitivity; [apply f_equal; exact (chain_einsum F A N "a"%char "b"%char inner [] (List.concat groups) groups _ Nd Lv Fx Mv a b is Lb Lm)|].
      cbn [sum_letters]. set (rho := with_values _ _ _). unfold tval. rewrite over_exp.
      assert (Rc : pieces c is = map (map rho) groups).
      { rewrite <- Lg, <- (pieces_concat rho). f_equal. symmetry. apply with_values_map; [|now symmetry].
        cbn in Nd. inversion Nd as [|? ? _ Nd']; subst. apply nodup_split in Nd'. apply Nd'. }
      transitivity (one_over F (fact (List.length c)) * (kprod (map (fun n => one_over F (fact n)) c) * mprod (modes_of F groups (map (fun n => env (amp_name n)) c) rho) a b)); [ring|].
      f_equal. unfold term. rewrite Rc, map_map.
      set (l := map (fun g => (one_over F (fact (List.length g)), at_modes F (env (amp_name (List.length g))) (map rho g))) groups).
      assert (E1 : map (fun n => one_over F (fact n)) c = map fst l) by (unfold l; rewrite <- Lg, !map_map; reflexivity).
      assert (E2 : modes_of F groups (map (fun n => env (amp_name n)) c) rho = map snd l).
      { unfold l, modes_of. rewrite <- Lg, !map_map. cbn [snd]. clearbody rho. clear. induction groups as [|g gs IH]; cbn; [reflexivity|]. now rewrite IH. }
      assert (E3 : map (fun g => cl 1%nat k (map rho g)) groups = map (fun kx => mscale F (fst kx) (snd kx)) l).
      { unfold l. rewrite map_map. cbn [fst snd]. apply map_ext_in. intros g I. unfold cluster. rewrite map_length.
        assert (Ig : In (List.length g) c) by (rewrite <- Lg; now apply in_map). rewrite Forall_forall in Cp, Al. specialize (Cp _ Ig). specialize (Al _ Ig). unfold has_rank in Al.
        assert (List.length g <= k) by (rewrite <- Cs; clear - Ig; induction c as [|x c IH]; [contradiction|]; destruct Ig as [->|I]; cbn; [lia|]; specialize (IH I); lia).
        replace (Nat.leb 1 _) with true by (symmetry; apply Nat.leb_le; lia). replace (Nat.leb _ k) with true by (symmetry; apply Nat.leb_le; lia). rewrite Al. reflexivity. }
      rewrite E1, E2, E3. symmetry. apply mprod_scale.
  Qed.

  (** ** The sum *)
  Definition okb (k : nat) (c : list nat) : bool := forallb (fun r => Nat.leb 1 r && Nat.leb r k && tr (rank_name r))%bool c.
  Lemma okb_iff k c : okb k c = true <-> Forall (fun r => 1 <= r <= k /\ has_rank tr r) c.
  Proof.
    unfold okb. rewrite forallb_forall, Forall_forall. split; intros H r I; specialize (H r I).
    - rewrite !andb_true_iff, !Nat.leb_le in H. destruct H as [[? ?] ?]. unfold has_rank. auto.
    - rewrite !andb_true_iff, !Nat.leb_le. unfold has_rank in H. tauto.
  Qed.
  Lemma term_zero k c is a b : fold_right Nat.add O c = List.length is -> okb k c = false -> term (cl 1%nat k) c is a b = 0.
  Proof.
    intros E H. assert (X : exists r, In r c /\ (Nat.leb 1 r && Nat.leb r k && tr (rank_name r))%bool = false).
    { clear - H. unfold okb in H. induction c as [|r c IH]; [discriminate H|]. cbn in H. apply andb_false_iff in H as [H|H]; [exists r; split; [now left|exact H]|].
      destruct (IH H) as (x & I & Q). exists x. split; [now right|exact Q]. }
    destruct X as (r & I & Q). rewrite <- (pieces_lengths c is E) in I. apply in_map_iff in I as (v & Lv & I).
    unfold term. apply (mprod_zero _ (cl 1%nat k v)); [now apply in_map|]. intros a' b'. unfold cluster. rewrite Lv.
    replace (Nat.leb 1 r && Nat.leb 1 r && Nat.leb r k && tr (rank_name r))%bool with false; [reflexivity|]. now destruct (Nat.leb 1 r).
  Qed.

  Lemma exp_compositions (keep : list nat -> bool) k is a b : List.length is = k ->
    exists L, NoDup L /\ (forall c, In c L <-> composition_of k c /\ keep c = true /\ allowed tr c) /\
      ksum (map (fun j => one_over F (fact j) * wsum keep (cl 1%nat k) j is a b) (seq O (S k))) = ksum (map (tval (cl 1%nat k) is a b) L).
  Proof.
    intros Li. set (L0 := flat_map (fun j => filter keep (comps j k)) (seq O (S k))). exists (filter (okb k) L0). split; [|split].
    - apply NoDup_filter. apply nodup_flat_map; [apply seq_NoDup|intros; apply NoDup_filter, comps_nodup|].
      intros x x' y _ _ I J. apply filter_In in I as [I _]. apply filter_In in J as [J _]. apply comps_iff in I. apply comps_iff in J. lia.
    - intros c. unfold L0. rewrite filter_In, in_flat_map, okb_iff. split.
      + intros [(j & Ij & I) O]. apply filter_In in I as [I Kc]. apply comps_iff in I as [_ Cs]. repeat split; auto.
        * eapply Forall_impl; [|exact O]. cbn. lia.
        * eapply Forall_impl; [|exact O]. cbn. tauto.
      + intros ([Cp Cs] & Kc & Al). split.
        * exists (List.length c). split; [apply in_seq|apply filter_In; split; [apply comps_iff; auto|exact Kc]].
          split; [lia|]. cbn. rewrite <- Cs. clear - Cp. induction Cp; cbn; lia.
        * unfold allowed in Al. rewrite Forall_forall in *. intros r I. split; [|now apply Al]. split; [now apply Cp|]. rewrite <- Cs. clear - I.
          induction c as [|x c IH]; [contradiction|]; destruct I as [->|I]; cbn; [lia|]; specialize (IH I); lia.
    - rewrite <- ksum_filter.
      + unfold L0. rewrite ksum_flat_map. apply ksum_ext. intros j _. unfold wsum. rewrite <- ksum_scale, Li. apply ksum_ext. intros c I.
        apply filter_In in I as [I _]. apply comps_iff in I as [I _]. unfold tval. now rewrite I.
      + intros c I O. apply in_flat_map in I as (j & _ & I). apply filter_In in I as [I _]. apply comps_iff in I as [_ I]. unfold tval.
        rewrite (term_zero k) by (congruence || exact O). ring.
  Qed.
End Values.

(** ** Names *)
Definition rank_of_name (s : string) : nat := String.length s - 2.
Lemma rank_of_amp n : n <= 8 -> rank_of_name (amp_name n) = n.
Proof. intros H. do 9 (destruct n as [|n]; [reflexivity|]). lia. Qed.
Lemma ranks_of_amps c : Forall (fun n => n <= 8) c -> map rank_of_name (map amp_name c) = c.
Proof. induction 1 as [|n c H _ IH]; cbn [map]; [reflexivity|]. now rewrite rank_of_amp, IH. Qed.

Section Added.
  Variable F : scalars.
  Add Ring kring : (k_ring F).
  Variables A N : nat.
  Variable env : string -> array F.

  Lemma part_le c r : In r c -> r <= fold_right Nat.add 0 c.
  Proof. induction c as [|x c IH]; [contradiction|]. intros [->|I]; cbn; [lia|]. specialize (IH I). lia. Qed.

  Lemma added_compositions flag k l L is a b : amplitude_axes F A N env -> 1 <= k <= 6 -> is_w_sum flag k l -> List.length is = k -> b < A ->
    NoDup L -> (forall c, In c L <-> composition_of k c /\ kept flag c /\ allowed (trunc_of flag) c) ->
    added F env l (a :: b :: is) = ksum F (map (tval F A (cluster F env (trunc_of flag) 1 k) is a b) L).
  Proof.
    intros Ax Hk (Nd & Iff & Fl) Li Lb NdL HL.
    assert (P : Permutation (map (fun dp => p_ops (snd dp)) l) (map (map amp_name) L)).
    { apply NoDup_Permutation; [exact Nd| |].
      - clear Iff Fl Nd. assert (Hs : forall c, In c L -> Forall (fun n => n <= 8) c).
        { intros c I. apply HL in I as ([_ Cs] & _). apply Forall_forall. intros r I. apply part_le in I. lia. }
        clear HL. induction NdL as [|c L Nc NdL IH]; cbn; constructor; [|apply IH; intros; apply Hs; now right].
        intros I. apply in_map_iff in I as (d & E & I). apply Nc. assert (d = c) as ->; [|exact I].
        rewrite <- (ranks_of_amps c), <- (ranks_of_amps d), E; [reflexivity|apply Hs; now right|apply Hs; now left].
      - intros ops. rewrite Iff, in_map_iff. split.
        + intros (c & C1 & C2 & C3 & ->). exists c. split; [reflexivity|]. now apply HL.
        + intros (c & <- & I). apply HL in I as (C1 & C2 & C3). exists c. auto. }
    assert (E : forall dp, In dp l -> kmul F (one_over F (fst dp)) (product_value F env (snd dp) (a :: b :: is)) =
      tval F A (cluster F env (trunc_of flag) 1 k) is a b (map rank_of_name (p_ops (snd dp)))).
    { intros dp I. rewrite Forall_forall in Fl. destruct (Fl dp I) as (c & C1 & C2 & C3 & C4).
      assert (Hs : Forall (fun n => n <= 8) c) by (destruct C1 as [_ Cs]; apply Forall_forall; intros r J; apply part_le in J; lia).
      assert (Al : allowed (trunc_of flag) c).
      { destruct (proj1 (Iff (p_ops (snd dp)))) as (c' & D1 & _ & D3 & D4); [apply in_map_iff; eauto|].
        assert (Hs' : Forall (fun n => n <= 8) c') by (destruct D1 as [_ Cs]; apply Forall_forall; intros r J; apply part_le in J; lia).
        rewrite <- (ranks_of_amps c Hs), <- C2, D4, (ranks_of_amps c' Hs'). exact D3. }
      rewrite C3, C2, (ranks_of_amps c Hs).
      apply (chain_product F A N env (trunc_of flag) k c (snd dp) is a b Ax C1); auto; try lia.
      intros ->. destruct C1 as [_ Cs]. cbn in Cs. lia. }
    unfold added. rewrite (ksum_ext F _ _ l E), <- (map_map (fun dp => p_ops (snd dp))  (fun ops => tval F A (cluster F env (trunc_of flag) 1 k) is a b (map rank_of_name ops))).
    etransitivity; [apply ksum_perm, Permutation_map, P|]. rewrite map_map. apply ksum_ext. intros c I. rewrite ranks_of_amps; [reflexivity|].
    apply HL in I as ([_ Cs] & _). apply Forall_forall. intros r J. apply part_le in J. lia.
  Qed.

  Theorem w_sum_value flag k l : amplitude_axes F A N env -> 1 <= k <= 6 -> is_w_sum flag k l ->
    Forall (fun dp => product_accepted F env (snd dp)) l /\
    (forall a b is, b < A -> List.length is = k -> added F env l (a :: b :: is) = w_value F A env flag k is a b).
  Proof.
    intros Ax Hk W. split.
    - destruct W as (_ & _ & Fl). eapply Forall_impl; [|exact Fl]. intros dp (c & C1 & C2 & _ & C4).
      apply (chain_product F A N env (trunc_of flag) k c (snd dp) [] O O Ax C1); auto; try lia. intros ->. destruct C1 as [_ Cs]. cbn in Cs. lia.
    - intros a b is Lb Li. unfold w_value.
      assert (G : forall keep, (forall c, keep c = true <-> kept flag c) ->
        added F env l (a :: b :: is) = ksum F (map (fun j => kmul F (one_over F (fact j)) (wsum F A keep (cluster F env (trunc_of flag) 1 k) j is a b)) (seq 0 (S k)))).
      { intros keep Hkeep. destruct (exp_compositions F A env (trunc_of flag) keep k is a b Li) as (L & N1 & N2 & ->).
        apply (added_compositions flag k l L is a b Ax Hk W Li Lb N1). intros c. now rewrite N2, Hkeep. }
      unfold kept in *. destruct (flag "ansatz.VE_MIXED"%string) eqn:Vm; [|destruct (flag "ansatz.VECC"%string) eqn:Vc].
      + rewrite (G (fun c => Nat.leb (big_parts c) 1)) by (intros; apply Nat.leb_le). unfold exp_linear, msum. rewrite map_map. apply ksum_ext. intros j _. unfold mscale. f_equal.
        symmetry. apply linear_wsum. lia.
      + rewrite (G (fun _ => true)) by tauto. unfold series_exp, msum. rewrite map_map. apply ksum_ext. intros j _. unfold mscale. f_equal. symmetry. apply power_wsum.
      + rewrite (added_compositions flag k l (if trunc_of flag (rank_name k) then [[k]] else []) is a b Ax Hk W Li Lb).
        * destruct (trunc_of flag (rank_name k)) eqn:Tk; cbn [map].
          -- rewrite ksum_cons, ksum_nil. unfold tval, term. cbn [List.length pieces map SpecEinsum.mprod fold_right]. rewrite (mprod_one F A _ a b Lb).
             rewrite <- Li at 2. rewrite firstn_all. change (fact 1) with 1. rewrite over_one. ring.
          -- unfold cluster. rewrite Li, Tk, andb_false_r. reflexivity.
        * destruct (trunc_of flag (rank_name k)); repeat constructor. intros [].
        * intros c. unfold kept. rewrite Vm, Vc. split.
          -- destruct (trunc_of flag (rank_name k)) eqn:Tk; [|intros []]. intros [<-|[]]. repeat split; cbn; try lia; [repeat constructor; lia|]. repeat constructor. exact Tk.
          -- intros ([Cp Cs] & Lc & Al). destruct c as [|r [|? ?]]; try discriminate Lc. cbn in Cs. assert (r = k) as -> by lia.
             inversion Al as [|? ? H _]; subst. unfold has_rank in H. rewrite H. now left.
  Qed.
End Added.

(** ** The generated file *)

Theorem w_file_value :
  forall so M text prog flag k (F : scalars) A N (env : string -> array F), set_order so ->
    generate_w_operator_equations_file so M = Ok text -> python text prog ->
    level_truncation (trunc_of flag) -> 1 <= k <= M -> amplitude_axes F A N env ->
    exists l, w_adds prog flag k false (fun _ => []) l /\
      Forall (fun dp => product_accepted F env (snd dp)) l /\
      forall a b modes, b < A -> List.length modes = k ->
        added F env l (a :: b :: modes) = w_value F A env flag k modes a b.
Proof.
  intros so M text prog flag k F A N env S E P L Hk Ax.
  destruct (w_file_default so M text prog flag k S E P L Hk) as (l & W & Is). exists l. split; [exact W|].
  assert (H6 : M <= 6) by (apply (proj1 (w_file_program so M S)); exists text; exact E).
  apply (w_sum_value F A N env flag k l Ax); [lia|exact Is].
Qed.

Theorem w_file_value_optimized :
  forall so M text prog flag (F : scalars) A N (env : string -> array F), set_order so ->
    generate_w_operator_equations_file so M = Ok text -> python text prog ->
    level_truncation (trunc_of flag) -> negations flag -> amplitude_axes F A N env ->
    exists vx vc, returns_paths prog flag "vemx" vx /\ returns_paths prog flag "vecc" vc /\
      forall k, 1 <= k <= M -> exists px pc l, nth_error vx (k - 1) = Some px /\ nth_error vc (k - 1) = Some pc /\
        w_adds prog flag k true (choose px pc) l /\
        Forall (fun dp => product_accepted F env (snd dp)) l /\
        forall a b modes, b < A -> List.length modes = k ->
          added F env l (a :: b :: modes) = w_value F A env flag k modes a b.
Proof.
  intros so M text prog flag F A N env S E P L Ng Ax.
  assert (H6 : M <= 6) by (apply (proj1 (w_file_program so M S)); exists text; exact E).
  destruct (w_file_optimized so M text prog flag S E P L Ng) as (vx & vc & V1 & V2 & H). exists vx, vc. split; [exact V1|]. split; [exact V2|].
  intros k Hk. destruct (H k Hk) as (px & pc & l & P1 & P2 & W & _ & Is). exists px, pc, l. split; [exact P1|]. split; [exact P2|]. split; [exact W|].
  apply (w_sum_value F A N env flag k l Ax); [lia|exact Is].
Qed.
