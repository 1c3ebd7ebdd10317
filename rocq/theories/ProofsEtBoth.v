(** Proofs: the document and the module of the e^T ansatz as numbers. *)
From Coq Require Import List Arith Bool Factorial String Lia Permutation Ring QArith Qcanon.
From Verif Require Import PyBase ModelFullCC ModelZhz ModelEt ModelEtPy ModelEtLatex SpecFullCCLatex SpecZhz SpecEt SpecEtPy SpecEtLatex SpecPython SpecEtText SpecEinsum SpecFullCCValue SpecEtValue SpecEtBoth
  ProofsEinsum ProofsWValue ProofsFullCCValue ProofsEtLatexFile ProofsEtValue ProofsEtShift PropertiesWValue.
Import ListNotations.
Local Open Scope nat_scope.
Local Open Scope list_scope.

Lemma str_app_nil (a : string) : (a ++ "" = a)%string.
Proof. induction a as [|c a IH]; cbn; [reflexivity|now rewrite IH]. Qed.
Lemma str_app_assoc (a b c : string) : ((a ++ b) ++ c = a ++ (b ++ c))%string.
Proof. induction a as [|x a IH]; cbn; [reflexivity|now rewrite IH]. Qed.

Lemma ways_step x y : ways (S x) (S y) = ways x (S y) + ways (S x) y.
Proof. reflexivity. Qed.
Lemma ways_fact x : forall y, ways x y * (fact x * fact y) = fact (x + y).
Proof.
  induction x as [|x IH]; intros y; [cbn [ways fact Nat.add]; lia|].
  induction y as [|y IHy]; [cbn [ways]; rewrite Nat.add_0_r; cbn [fact]; lia|].
  rewrite ways_step. specialize (IH (S y)). replace (S x + S y) with (S (x + S y)) by lia.
  change (fact (S (x + S y))) with (S (x + S y) * fact (x + S y)).
  replace (S x + y) with (x + S y) in IHy by lia.
  change (fact (S x)) with (S x * fact x) in *. change (fact (S y)) with (S y * fact y) in *. nia.
Qed.

(** The kinds of an equation. *)
Lemma kinds_of_equation s p H CC e k :
  eT_pairs s p H CC e k <-> In k (filter (has_operators s H CC) (all_paired H p 0 e)).
Proof.
  rewrite filter_In, in_all_paired, has_operators_iff. unfold eT_pairs, h_of_ansatz, h_allowed. split; [|tauto].
  intros (E & (L1 & L2) & Lz & Lt & Al). repeat split; try assumption; lia.
Qed.

Lemma concat_split (l : list (nat * string)) f p eqn : In (p, eqn) l ->
  exists before after, String.concat "" (map f l) = (before ++ f (p, eqn) ++ after)%string.
Proof.
  induction l as [|x l IH]; intros []; cbn [map].
  - subst x. destruct (map f l) as [|y r] eqn:El.
    + exists ""%string, ""%string. cbn. now rewrite str_app_nil.
    + exists ""%string, (String.concat "" (y :: r)). reflexivity.
  - destruct (IH H) as (b & a & E). exists (f x ++ b)%string, a. destruct l as [|y l]; [destruct H|].
    cbn [map] in *. change (String.concat "" (f x :: f y :: map f l)) with (f x ++ "" ++ String.concat "" (f y :: map f l))%string.
    rewrite E. cbn [String.append]. now rewrite str_app_assoc.
Qed.

Lemma document_prints s H CC e P rf text p : 1 <= e -> Nat.min CC P <= 8 ->
  generate_eT_z_t_symmetric_latex s true rf H CC 1 e P = Ok text -> p <= CC -> p <= P ->
  exists ks, prints_sum s p text ks /\ NoDup ks /\ forall k, In k ks <-> eT_pairs s p H CC e k.
Proof.
  intros Le Lm G L1 L2. destruct (eT_latex_file_ok s H CC P e rf Le Lm) as (text' & G' & eqns & Fe & Et).
  rewrite G in G'. injection G' as <-.
  assert (X : exists eqn, In (p, eqn) (combine (seq 0 (S (Nat.min CC P))) eqns) /\ eT_equation_text s p H CC e eqn).
  { assert (I : In p (seq 0 (S (Nat.min CC P)))) by (apply in_seq; lia). clear -Fe I. induction Fe as [|q eqn qs es Q _ IH]; [destruct I|].
    destruct I as [->|I]; [exists eqn; split; [now left|exact Q]|]. destruct (IH I) as (x & Ix & Qx). exists x. split; [now right|exact Qx]. }
  destruct X as (eqn & I & ks & ss & sum & Nk & Ik & Ft & Ns & Ts & Ee).
  exists ks. split; [|split; [exact Nk|exact Ik]].
  destruct (concat_split _ (fun pe => eT_section_text s (fst pe) (snd pe)) _ _ I) as (b & a & Ec). rewrite Ec in Et. cbn [fst snd] in Et.
  clear G. set (note := if rf then _ else _) in Et. clearbody note.
  exists (note ++ b)%string, eqn, (a ++ "\end{document}")%string. eexists. eexists. exists ss, sum.
  split; [rewrite Et, !str_app_assoc; reflexivity|]. split; [exact Ee|]. split; [exact Ft|]. split; [exact Ns|exact Ts].
Qed.

Section Numbers.
  Variable F : scalars.
  Add Ring Kr : (k_ring F).
  Variables A N : nat.
  Variable args : string -> nat * nat -> array F.

  Lemma choices_weighted s k is a :
    kmul F (of_nat F (ways (k_zt k) (k_ht k))) (printed_value F A N args s is a k) = weighted_value F A N args s k is a.
  Proof.
    unfold printed_value, weighted_value, latex_divisor, k_t. set (v := paired_value _ _ _ _ _ _ _ _).
    pose proof (ways_fact (k_zt k) (k_ht k)) as W.
    assert (Nz : forall n, fact n <> 0) by apply fact_neq_0.
    assert (Wn : ways (k_zt k) (k_ht k) <> 0). { intros E. rewrite E in W. symmetry in W. now apply Nz in W. }
    assert (Nm : forall a b, a <> 0 -> b <> 0 -> a * b <> 0) by (intros; now apply Nat.neq_mul_0).
    rewrite <- W. rewrite !over_mul by auto 10.
    transitivity (kmul F (kmul F (of_nat F (ways (k_zt k) (k_ht k))) (one_over F (ways (k_zt k) (k_ht k))))
      (kmul F (kmul F (kmul F (kmul F (kmul F (one_over F (fact (k_zp k))) (one_over F (fact (k_hp k)))) (one_over F (fact (k_zh k)))) (one_over F (fact (k_zt k)))) (one_over F (fact (k_ht k)))) v)); [ring|].
    rewrite over_spec by exact Wn. ring.
  Qed.

  Lemma choices_total s H CC p e flag ks is a : NoDup ks -> (forall k, In k ks <-> eT_pairs s p H CC e k) -> (forall c, flag c = true) ->
    selected_value F A N args s (fun k => has_operators s H CC k && allowed flag k) (all_paired H p 0 e) is a = printed_sum_of_choices F A N args s ks is a.
  Proof.
    intros Nk Ik T. transitivity (selected_value F A N args s (has_operators s H CC) (all_paired H p 0 e) is a).
    { unfold selected_value. apply ksum_ext. intros k _. now rewrite (all_allowed flag k T), andb_true_r. }
    rewrite selected_filter. unfold printed_sum_of_choices. rewrite (map_ext _ _ (fun k => choices_weighted s k is a)).
    apply ksum_perm, Permutation_map, NoDup_Permutation; [apply NoDup_filter, nodup_all_paired|exact Nk|].
    intros k. now rewrite Ik, kinds_of_equation.
  Qed.

  Lemma one_choice s ks is a : (forall k, In k ks -> k_zt k = 0 \/ k_ht k = 0) ->
    printed_sum_of_choices F A N args s ks is a = printed_sum F A N args s ks is a.
  Proof.
    intros O. unfold printed_sum_of_choices, printed_sum. apply ksum_ext. intros k I.
    assert (E : ways (k_zt k) (k_ht k) = 1). { destruct (O k I) as [-> | ->]; [reflexivity|now destruct (k_zt k)]. }
    rewrite E. cbn. ring.
  Qed.
End Numbers.

Lemma both_choices s ground H CC e P rf text prog doc : 1 <= CC <= 8 -> 1 <= e ->
  generate_eT_zhz_python s ground H CC 1 e P = Ok text -> python text prog -> generate_eT_z_t_symmetric_latex s true rf H CC 1 e P = Ok doc ->
  forall p, p <= CC -> p <= P ->
    exists ks, prints_sum s p doc ks /\ NoDup ks /\ (forall k, In k ks <-> eT_pairs s p H CC e k) /\
      forall opt, exists b1 b2, ground_branch prog (terms_head s p "HZ" opt) b1 /\ ground_branch prog (terms_head s p "eT_HZ" opt) b2 /\
        forall flag, (forall c, flag c = true) ->
          exists l1 l2, body_runs s flag b1 l1 /\ body_runs s flag b2 l2 /\
            forall F A N args, eT_axes F A N args -> forall a is, List.length is = p ->
              kadd F (kadd F (eT_added F args l1 (a :: is)) (eT_added F args l2 (a :: is))) (bare_value F A args s p is a) =
              printed_sum_of_choices F A N args s ks is a.
Proof.
  intros HC Le G Py D p L1 L2. destruct (document_prints s H CC e P rf doc p Le ltac:(lia) D L1 L2) as (ks & Pk & Nk & Ik).
  exists ks. split; [exact Pk|]. split; [exact Nk|]. split; [exact Ik|]. intros opt.
  destruct (file_total s ground H CC e P text prog HC G Py p opt L1 L2) as (b1 & b2 & B1 & B2 & V).
  exists b1, b2. split; [exact B1|]. split; [exact B2|]. intros flag T. destruct (V flag (all_allowed _ _ T)) as (l1 & l2 & R1 & R2 & W). exists l1, l2.
  split; [exact R1|]. split; [exact R2|]. intros F A N args Ax a is Li. rewrite (W F A N args Ax a is Li). now apply choices_total.
Qed.

Lemma few_choices s p H CC e k : e <= 1 \/ H = 0 -> eT_pairs s p H CC e k -> k_zt k = 0 \/ k_ht k = 0.
Proof. unfold eT_pairs, h_allowed, k_t, k_up. lia. Qed.

(** Where H and z of rank one only are not zero, there is one kind of two choices. *)
Definition sparse (name : string) (key : nat * nat) : array rationals :=
  let axes := if String.eqb name "h_args" then [1; 1] else if String.eqb name "z_args" || String.eqb name "dz_args" then [1] else [] in
  mkarray (F := rationals) (axes ++ repeat 1 (fst key + snd key))
    (fun _ => if String.prefix "t" name || (negb (String.eqb name "dz_args") && Nat.eqb (fst key) 1 && Nat.eqb (snd key) 0) then kone rationals else kzero rationals).
Definition mixed : pairs := mkpairs 0 0 1 0 1.

Lemma sparse_axes : eT_axes rationals 1 1 sparse.
Proof. repeat split; intros; cbn; rewrite ?Nat.add_0_r; reflexivity. Qed.

Lemma sum_modes_zero F N g (Z : forall l, g l = kzero F) k : sum_modes F N k g = kzero F.
Proof.
  rewrite sum_tuples. induction (tuples N k) as [|x l IH]; [reflexivity|]. cbn [map ksum fold_right]. change (fold_right (kadd F) (kzero F) (map g l)) with (ksum F (map g l)).
  rewrite Z, IH. apply (Radd_0_l (k_ring F)).
Qed.

Lemma sparse_zero s H CC e k : eT_pairs s 0 H CC e k -> k <> mixed -> forall hs zs, h_on_z rationals 1 sparse s k hs zs 0 = kzero rationals.
Proof.
  intros (E & _ & _ & _ & Al) Nm hs zs.
  assert (X : k_up k <> 1 \/ k_down k <> 0 \/ k_z k <> 1).
  { destruct k as [zp zh zt hp ht]. unfold k_up, k_down, k_z in *. cbn in *.
    destruct (Nat.eq_dec (hp + ht) 1); [|now left]. destruct (Nat.eq_dec zh 0); [|right; now left]. right. right. intros Ez. apply Nm. unfold mixed. f_equal; lia. }
  assert (M0 : forall x, kmul rationals (kzero rationals) x = kzero rationals) by (intros; cbn; ring).
  assert (M1 : forall x, kmul rationals x (kzero rationals) = kzero rationals) by (intros; cbn; ring).
  destruct s; unfold h_on_z.
  - unfold allowed_on in Al. destruct (Nat.eqb_spec (k_up k) 0) as [Eu|Nu]; [reflexivity|].
    destruct (Nat.eqb_spec (k_up k) 1) as [E1|N1].
    + assert (Nz : k_z k <> 1) by (rewrite Al in X by reflexivity; lia). apply Nat.eqb_neq in Nz. cbn [sparse entry String.prefix String.eqb]. cbn. rewrite Nz. cbn. ring.
    + apply Nat.eqb_neq in N1. cbn. rewrite N1. cbn. ring.
  - unfold sum_below. cbn [seq map ksum fold_right].
    destruct (Nat.eqb_spec (k_z k) 1) as [E1|N1].
    + destruct (Nat.eqb_spec (k_up k) 1) as [E2|N2].
      * assert (Nd : k_down k <> 0) by lia. apply Nat.eqb_neq in Nd. cbn. rewrite Nd, andb_false_r. cbn. ring.
      * apply Nat.eqb_neq in N2. cbn. rewrite N2. cbn. ring.
    + apply Nat.eqb_neq in N1. cbn. rewrite N1. cbn. ring.
Qed.

Lemma sparse_value s H CC e k : eT_pairs s 0 H CC e k -> k <> mixed -> paired_value rationals 1 1 sparse s k [] 0 = kzero rationals.
Proof.
  intros Q Nm. unfold paired_value. apply sum_modes_zero. intros tz. apply sum_modes_zero. intros th. apply sum_modes_zero. intros hz.
  rewrite (sparse_zero s H CC e k Q Nm). cbn. ring.
Qed.

Lemma only_one (f : pairs -> Qc) ks : NoDup ks -> In mixed ks -> (forall k, In k ks -> k <> mixed -> f k = 0%Qc) -> ksum rationals (map f ks) = f mixed.
Proof.
  intros Nd I Z. destruct (in_split _ _ I) as (l1 & l2 & ->). 
  assert (S0 : forall l, (forall k, In k l -> f k = 0%Qc) -> ksum rationals (map f l) = 0%Qc).
  { induction l as [|x l IH]; intros Zl; [reflexivity|]. cbn [map]. change (ksum rationals (f x :: map f l)) with (f x + ksum rationals (map f l))%Qc.
    rewrite IH by (intros k Ik; apply Zl; now right). rewrite (Zl x (or_introl eq_refl)). apply Qcplus_0_l. }
  assert (Nm : forall k, In k (l1 ++ l2) -> k <> mixed) by (intros k Ik ->; apply (NoDup_remove_2 _ _ _ Nd Ik)).
  rewrite (ksum_perm rationals _ (map f (mixed :: l1 ++ l2))); [|apply Permutation_map; symmetry; apply Permutation_middle].
  cbn [map]. change (ksum rationals (f mixed :: map f (l1 ++ l2))) with (f mixed + ksum rationals (map f (l1 ++ l2)))%Qc.
  rewrite S0; [apply Qcplus_0_r|]. intros k Ik. apply Z; [|now apply Nm]. apply in_app_iff in Ik. apply in_app_iff. cbn. tauto.
Qed.

Lemma sums_differ s H CC e ks : 1 <= H -> 1 <= CC -> 2 <= e -> NoDup ks -> (forall k, In k ks <-> eT_pairs s 0 H CC e k) ->
  printed_sum_of_choices rationals 1 1 sparse s ks [] 0 = of_nat rationals 1 /\ printed_sum rationals 1 1 sparse s ks [] 0 = one_over rationals 2.
Proof.
  intros LH LC Le Nd Ik.
  assert (I : In mixed ks). { apply Ik. unfold eT_pairs, h_allowed, allowed_on, k_up, k_down, k_z, k_t. cbn. repeat split; lia. }
  assert (M1 : forall x, kmul rationals x (kzero rationals) = kzero rationals) by (intros; apply Qcmult_0_r).
  unfold printed_sum_of_choices, printed_sum. split.
  - rewrite (only_one _ ks Nd I).
    + destruct s; apply Qc_is_canon; vm_compute; reflexivity.
    + intros k Jk Nm. unfold printed_value. rewrite (sparse_value s H CC e k); [now rewrite ?M1|now apply Ik|exact Nm].
  - rewrite (only_one _ ks Nd I).
    + destruct s; apply Qc_is_canon; vm_compute; reflexivity.
    + intros k Jk Nm. unfold printed_value. rewrite (sparse_value s H CC e k); [now rewrite ?M1|now apply Ik|exact Nm].
Qed.

Lemma both_as_printed s ground H CC e P rf text prog doc : 1 <= CC <= 8 -> 1 <= e -> e = 1 \/ H = 0 ->
  generate_eT_zhz_python s ground H CC 1 e P = Ok text -> python text prog -> generate_eT_z_t_symmetric_latex s true rf H CC 1 e P = Ok doc ->
  forall p, p <= CC -> p <= P ->
    exists ks, prints_sum s p doc ks /\ NoDup ks /\
      forall opt, exists b1 b2, ground_branch prog (terms_head s p "HZ" opt) b1 /\ ground_branch prog (terms_head s p "eT_HZ" opt) b2 /\
        forall flag, (forall c, flag c = true) ->
          exists l1 l2, body_runs s flag b1 l1 /\ body_runs s flag b2 l2 /\
            forall F A N args, eT_axes F A N args -> forall a is, List.length is = p ->
              kadd F (kadd F (eT_added F args l1 (a :: is)) (eT_added F args l2 (a :: is))) (bare_value F A args s p is a) =
              printed_sum F A N args s ks is a.
Proof.
  intros HC Le Few G Py D p L1 L2. destruct (both_choices s ground H CC e P rf text prog doc HC Le G Py D p L1 L2) as (ks & Pk & Nk & Ik & V).
  exists ks. split; [exact Pk|]. split; [exact Nk|]. intros opt. destruct (V opt) as (b1 & b2 & B1 & B2 & W). exists b1, b2. split; [exact B1|]. split; [exact B2|].
  intros flag T. destruct (W flag T) as (l1 & l2 & R1 & R2 & E). exists l1, l2. split; [exact R1|]. split; [exact R2|].
  intros F A N args Ax a is Li. rewrite (E F A N args Ax a is Li). apply one_choice. intros k I. apply (few_choices s p H CC e); [lia|]. now apply Ik.
Qed.

Lemma both_differ s ground H CC e P rf text prog doc : 1 <= CC <= 8 -> 2 <= e -> 1 <= H ->
  generate_eT_zhz_python s ground H CC 1 e P = Ok text -> python text prog -> generate_eT_z_t_symmetric_latex s true rf H CC 1 e P = Ok doc ->
    exists ks, prints_sum s 0 doc ks /\ NoDup ks /\
      forall opt, exists b1 b2, ground_branch prog (terms_head s 0 "HZ" opt) b1 /\ ground_branch prog (terms_head s 0 "eT_HZ" opt) b2 /\
        forall flag, (forall c, flag c = true) ->
          exists l1 l2, body_runs s flag b1 l1 /\ body_runs s flag b2 l2 /\
            exists args, eT_axes rationals 1 1 args /\
              kadd rationals (kadd rationals (eT_added rationals args l1 [0]) (eT_added rationals args l2 [0])) (bare_value rationals 1 args s 0 [] 0) <>
              printed_sum rationals 1 1 args s ks [] 0.
Proof.
  intros HC Le LH G Py D. destruct (both_choices s ground H CC e P rf text prog doc HC ltac:(lia) G Py D 0 ltac:(lia) ltac:(lia)) as (ks & Pk & Nk & Ik & V).
  exists ks. split; [exact Pk|]. split; [exact Nk|]. intros opt. destruct (V opt) as (b1 & b2 & B1 & B2 & W). exists b1, b2. split; [exact B1|]. split; [exact B2|].
  intros flag T. destruct (W flag T) as (l1 & l2 & R1 & R2 & E). exists l1, l2. split; [exact R1|]. split; [exact R2|].
  exists sparse. split; [exact sparse_axes|]. rewrite (E rationals 1 1 sparse sparse_axes 0 [] eq_refl).
  destruct (sums_differ s H CC e ks LH ltac:(lia) Le Nk Ik) as [-> ->]. intros X. apply (f_equal (fun q : Qc => Qden (this q))) in X. vm_compute in X. discriminate X.
Qed.
