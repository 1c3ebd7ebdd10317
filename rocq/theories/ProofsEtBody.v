(** Proofs about the bodies of the generated functions of the e^T ansatz, for
    every list of filed strings. *)
From Coq Require Import Lia.
From Verif Require Import PyBase PyBaseFacts ModelHelper ModelW ModelFullCC ModelFullCCPy ModelZhz ModelEt ModelEtPy
  SpecFullCCPy SpecEt SpecEtPy ProofsW ProofsStr ProofsResidual ProofsEt.
Local Open Scope nat_scope.
Local Open Scope list_scope.

(** ** Removing equal texts *)
Section Key.
  Context {A B : Type} (f : A -> B) (eqb : B -> B -> bool) (E : forall a b, eqb a b = true <-> a = b).
  Definition same_key (a b : A) : bool := eqb (f a) (f b).
  Lemma dedup_key l : map f (dedup same_key l) = dedup eqb (map f l).
  Proof.
    induction l as [|x l IH]; [reflexivity|]. cbn [dedup map].
    assert (G : existsb (same_key x) l = existsb (eqb (f x)) (map f l)).
    { clear IH. induction l as [|z l IH]; [reflexivity|]. cbn [existsb map]. rewrite IH. reflexivity. }
    rewrite G. destruct (existsb (eqb (f x)) (map f l)); cbn [map]; now rewrite IH.
  Qed.
  Lemma dedup_sub {X} (e : X -> X -> bool) l x : In x (dedup e l) -> In x l.
  Proof. induction l as [|z l IH]; [easy|]. cbn [dedup]. destruct (existsb (e z) l); cbn [In]; tauto. Qed.
  Lemma dedup_length {X} (e : X -> X -> bool) l : List.length (dedup e l) <= List.length l.
  Proof. induction l as [|z l IH]; [cbn; lia|]. cbn [dedup]. destruct (existsb (e z) l); cbn [List.length]; lia. Qed.
  Lemma dedup_all {X} (e : X -> X -> bool) l : List.length (dedup e l) = List.length l -> dedup e l = l.
  Proof.
    induction l as [|z l IH]; [reflexivity|]. cbn [dedup]. pose proof (dedup_length e l).
    destruct (existsb (e z) l); cbn [List.length]; intros H2; [lia|]. f_equal. apply IH. lia.
  Qed.
  Lemma nodup_key l : NoDup (map f (dedup same_key l)).
  Proof. rewrite dedup_key. apply nodup_dedup, E. Qed.
  Lemma in_key l b : In b (map f (dedup same_key l)) <-> In b (map f l).
  Proof. rewrite dedup_key. apply in_dedup, E. Qed.
  Lemma dedup_key_in l x : In x l -> exists z, In z (dedup same_key l) /\ f z = f x.
  Proof. intros H. apply (in_map f) in H. apply in_key in H. apply in_map_iff in H as (z & Ez & Hz). eauto. Qed.
End Key.

Lemma unique_calls_spec l :
  NoDup (map render_ecall (unique_calls l)) /\ (forall c, In c (unique_calls l) -> In c l) /\
  (forall c, In c l -> exists c', In c' (unique_calls l) /\ render_ecall c' = render_ecall c).
Proof.
  unfold unique_calls. change same_ecall with (same_key render_ecall String.eqb).
  pose proof (nodup_key render_ecall String.eqb String.eqb_eq l) as N.
  pose proof (dedup_key_in render_ecall String.eqb String.eqb_eq l) as K.
  destruct (Nat.eqb_spec (List.length l) (List.length (dedup (same_key render_ecall String.eqb) l))) as [L|L].
  - rewrite (dedup_all _ l (eq_sym L)) in N, K. split; [exact N|]. split; [easy|exact K].
  - set (u := dedup _ l) in *. pose proof (isort_perm ecall_leb u) as Pm. split; [|split].
    + apply (Permutation_NoDup (l := map render_ecall u)); [now apply Permutation_map|exact N].
    + intros c H. apply in_isort in H. now apply dedup_sub in H.
    + intros c H. destruct (K c H) as (z & Hz & Ez). exists z. split; [now apply in_isort|exact Ez].
Qed.

(** ** Statements with their places *)
Definition place (e : entry) : nat * nat * nat * string * string :=
  (en_h e, en_t e, en_z e, render_eT_prefactor (en_pref e), render_ecall (en_call e)).

Definition loc_zsums (i j : nat) (b : zsums) : list entry :=
  flat_map (fun kp => flat_map (fun pc => map (mkentry i j (fst kp) (fst pc)) (snd pc)) (snd kp)) b.

Lemma zsums_loc d i j :
  NoDup (map place (loc_zsums i j (zsums_of d i j))) /\
  (forall e, In e (loc_zsums i j (zsums_of d i j)) ->
     en_h e = i /\ en_t e = j /\ (exists e', In e' d /\ en_pref e' = en_pref e) /\
     exists e', In e' d /\ place e' = place e /\ en_call e' = en_call e) /\
  (forall e, In e d -> en_h e = i -> en_t e = j ->
     exists e', In e' (loc_zsums i j (zsums_of d i j)) /\ place e' = place e).
Proof.
  set (here := filter (fun e => Nat.eqb (en_h e) i && Nat.eqb (en_t e) j) d).
  assert (Hh : forall e, In e here <-> In e d /\ en_h e = i /\ en_t e = j).
  { intros e. unfold here. rewrite filter_In, andb_true_iff, !Nat.eqb_eq. tauto. }
  set (calls_at := fun k p => unique_calls (map en_call (filter (fun e => same_pref (en_pref e) p) (filter (fun e => Nat.eqb (en_z e) k) here)))).
  set (prefs_at := fun k => isort pref_leb (dedup same_pref (map en_pref (filter (fun e => Nat.eqb (en_z e) k) here)))).
  set (ks := isort Nat.leb (dedup Nat.eqb (map en_z here))).
  assert (E : loc_zsums i j (zsums_of d i j)
    = flat_map (fun k => flat_map (fun p => map (mkentry i j k p) (calls_at k p)) (prefs_at k)) ks).
  { unfold zsums_of, loc_zsums. fold here. rewrite flat_map_concat_map, map_map, <- flat_map_concat_map.
    fold ks. apply flat_map_ext. intros k. cbn [fst snd]. rewrite flat_map_concat_map, map_map, <- flat_map_concat_map. reflexivity. }
  assert (Ik : forall k, In k ks <-> exists e, In e here /\ en_z e = k).
  { intros k. unfold ks. rewrite in_isort, in_dedup by apply Nat.eqb_eq. rewrite in_map_iff. firstorder. }
  assert (Ip : forall k p, In p (prefs_at k) -> exists e, In e here /\ en_z e = k /\ en_pref e = p).
  { intros k p H. unfold prefs_at in H. apply in_isort in H. apply dedup_sub in H. apply in_map_iff in H as (e & <- & He).
    apply filter_In in He as [He Hz]. apply Nat.eqb_eq in Hz. eauto. }
  assert (Np : forall k, NoDup (map render_eT_prefactor (prefs_at k))).
  { intros k. unfold prefs_at. eapply Permutation_NoDup; [apply Permutation_map, isort_perm|].
    change same_pref with (same_key render_eT_prefactor String.eqb). apply nodup_key, String.eqb_eq. }
  assert (Ic : forall k p c, In c (calls_at k p) -> exists e, In e here /\ en_z e = k /\ same_pref (en_pref e) p = true /\ en_call e = c).
  { intros k p c H. unfold calls_at in H. apply (proj1 (proj2 (unique_calls_spec _))) in H. apply in_map_iff in H as (e & <- & He).
    apply filter_In in He as [He Hp]. apply filter_In in He as [He Hz]. apply Nat.eqb_eq in Hz. eauto. }
  rewrite E. split; [|split].
  - assert (G : map place (flat_map (fun k => flat_map (fun p => map (mkentry i j k p) (calls_at k p)) (prefs_at k)) ks)
      = flat_map (fun k => flat_map (fun p => map (fun c => (i, j, k, render_eT_prefactor p, render_ecall c)) (calls_at k p)) (prefs_at k)) ks).
    { rewrite !flat_map_concat_map, concat_map, map_map. f_equal. apply map_ext. intros k.
      rewrite !flat_map_concat_map, concat_map, map_map. f_equal. apply map_ext. intros p. rewrite map_map. reflexivity. }
    rewrite G. apply NoDup_flat_map.
    + unfold ks. eapply Permutation_NoDup; [apply isort_perm|apply nodup_dedup, Nat.eqb_eq].
    + intros k Hk. apply NoDup_flat_map.
      * apply (NoDup_map_inv render_eT_prefactor), Np.
      * intros p _. rewrite <- (map_map render_ecall (fun t => (i, j, k, render_eT_prefactor p, t))).
        apply NoDup_map_inj; [apply unique_calls_spec|]. intros ? ? _ _ [= H]. exact H.
      * intros p p' x Hp Hp' H1 H2. apply in_map_iff in H1 as (? & <- & _). apply in_map_iff in H2 as (? & H2 & _).
        injection H2 as H2 _. specialize (Np k). clear - Np Hp Hp' H2. induction (prefs_at k) as [|a l IH]; [destruct Hp|].
        cbn [map] in Np. inversion Np as [|? ? N1 N2]; subst. destruct Hp as [->|Hp], Hp' as [->|Hp']; [reflexivity| | |auto];
          exfalso; apply N1; [rewrite <- H2|rewrite H2]; now apply in_map.
    + intros k k' x _ _ H1 H2. apply in_flat_map in H1 as (? & _ & H1). apply in_flat_map in H2 as (? & _ & H2).
      apply in_map_iff in H1 as (? & <- & _). apply in_map_iff in H2 as (? & H2 & _). now injection H2.
  - intros e H. apply in_flat_map in H as (k & Hk & H). apply in_flat_map in H as (p & Hp & H). apply in_map_iff in H as (c & <- & Hc).
    cbn [en_h en_t en_pref]. split; [reflexivity|]. split; [reflexivity|].
    split; [apply Ip in Hp as (e & He & _ & Ep); apply Hh in He as [He _]; eauto|]. apply Ic in Hc as (e & He & Hz & Hs & <-). exists e.
    apply Hh in He as (He & Eh & Et). split; [exact He|]. split; [|reflexivity]. unfold place. cbn [en_h en_t en_z en_pref en_call].
    unfold same_pref in Hs. apply String.eqb_eq in Hs. congruence.
  - intros e He Eh Et. assert (H : In e here) by (now apply Hh).
    destruct (dedup_key_in render_eT_prefactor String.eqb String.eqb_eq (map en_pref (filter (fun e' => Nat.eqb (en_z e') (en_z e)) here)) (en_pref e))
      as (p & Hp & Ep); [apply in_map, filter_In; split; [exact H|apply Nat.eqb_refl]|].
    destruct (proj2 (proj2 (unique_calls_spec (map en_call (filter (fun e' => same_pref (en_pref e') p) (filter (fun e' => Nat.eqb (en_z e') (en_z e)) here))))) (en_call e))
      as (c & Hc & Ec).
    { apply in_map, filter_In. split; [apply filter_In; split; [exact H|apply Nat.eqb_refl]|]. unfold same_pref. now apply String.eqb_eq. }
    exists (mkentry i j (en_z e) p c). split.
    + apply in_flat_map. exists (en_z e). split; [apply Ik; eauto|]. apply in_flat_map. exists p. split; [now apply in_isort|].
      apply in_map. exact Hc.
    + unfold place. cbn [en_h en_t en_z en_pref en_call]. congruence.
Qed.

Lemma zsums_nil d i j : zsums_of d i j = [] <-> (forall e, In e d -> ~ (en_h e = i /\ en_t e = j)).
Proof.
  split.
  - intros E e He [Hi Hj]. destruct (proj2 (proj2 (zsums_loc d i j)) e He Hi Hj) as (e' & H & _). rewrite E in H. destruct H.
  - intros H. unfold zsums_of. rewrite (filter_none _ d); [reflexivity|]. intros e He. apply andb_false_iff.
    destruct (Nat.eqb_spec (en_h e) i), (Nat.eqb_spec (en_t e) j); auto. exfalso. now apply (H e He).
Qed.

(** ** The whole body *)
Definition ifs_of (d : list entry) (cc i : nat) : list (nat * zsums) :=
  flat_map (fun j => match zsums_of d i j with [] => [] | b => [(j, b)] end) (range 1 (cc + 1)).
Definition body_of (d : list entry) (H cc : nat) : ebody :=
  EBody (zsums_of d 0 0) (ifs_of d cc 0)
        (map (fun i => (i, (zsums_of d i 0, ifs_of d cc i))) (range 1 (H + 1))).

Lemma ifs_ok d cc i l : eT_ifs d cc i = Ok l -> l = ifs_of d cc i.
Proof.
  unfold eT_ifs, ifs_of. generalize (range 1 (cc + 1)). intros js. revert l.
  match goal with |- context [mapM ?f js] => set (f0 := f) end.
  induction js as [|j js IH]; intros l E; [now injection E as <-|]. cbn [mapM flat_map] in *.
  assert (G : forall x, mapM f0 js = Ok x ->
    List.concat x = flat_map (fun j => match zsums_of d i j with [] => [] | b => [(j, b)] end) js).
  { intros x Hx. apply (IH (List.concat x)). rewrite Hx. reflexivity. }
  unfold f0 at 1 in E. destruct (zsums_of d i j) as [|z b].
  - cbn [bind] in E. destruct (mapM f0 js) as [x|]; [|discriminate]. cbn [bind] in E. injection E as <-. cbn [List.concat app]. now apply G.
  - destruct (z_tags (z :: b)); [|discriminate]. cbn [bind] in E. destruct (py_nth taylor_series_order_tag j); [|discriminate]. cbn [bind] in E.
    destruct (mapM f0 js) as [x|]; [|discriminate]. cbn [bind] in E. injection E as <-. cbn [List.concat app]. f_equal. now apply G.
Qed.
Lemma body_ok d H cc b : eT_body d H cc = Ok b -> b = body_of d H cc.
Proof.
  unfold eT_body, body_of. destruct (z_tags (zsums_of d 0 0)); [|discriminate]. cbn [bind].
  destruct (eT_ifs d cc 0) as [l|] eqn:E0; [|discriminate]. cbn [bind]. apply ifs_ok in E0 as ->.
  destruct (mapM _ (range 1 (H + 1))) as [bh|] eqn:E; [|discriminate]. cbn [bind]. intros [= <-]. f_equal.
  revert bh E. generalize (range 1 (H + 1)). intros is. induction is as [|i is IH]; intros bh E; [now injection E as <-|]. cbn [mapM map] in *.
  destruct (z_tags (zsums_of d i 0)); [|discriminate]. cbn [bind] in E. destruct (py_nth hamiltonian_order_tag i); [|discriminate]. cbn [bind] in E.
  destruct (eT_ifs d cc i) as [l|] eqn:Ei; [|discriminate]. cbn [bind] in E. destruct (mapM _ is) as [x|]; [|discriminate]. cbn [bind] in E.
  injection E as <-. apply ifs_ok in Ei as ->. f_equal. now apply IH.
Qed.

(** when it can be written *)
Definition tags_suffice (d : list entry) (H cc : nat) : Prop :=
  H <= 5 /\ forall e, In e d -> en_h e <= H -> en_t e <= cc -> en_z e <= 5 /\ en_t e <= 6.

Lemma zsums_keys d i j kp : In kp (zsums_of d i j) -> exists e, In e d /\ en_h e = i /\ en_t e = j /\ en_z e = fst kp.
Proof.
  intros H. unfold zsums_of in H. apply in_map_iff in H as (k & <- & Hk). apply in_isort in Hk. apply in_dedup in Hk; [|apply Nat.eqb_eq].
  apply in_map_iff in Hk as (e & <- & He). apply filter_In in He as [He B]. apply andb_true_iff in B as [B1 B2].
  apply Nat.eqb_eq in B1, B2. exists e. auto.
Qed.
Lemma keys_zsums d e : In e d -> exists kp, In kp (zsums_of d (en_h e) (en_t e)) /\ fst kp = en_z e.
Proof.
  intros He. unfold zsums_of. eexists. split; [apply in_map, in_isort, in_dedup; [apply Nat.eqb_eq|]|reflexivity].
  apply in_map, filter_In. split; [exact He|]. now rewrite !Nat.eqb_refl.
Qed.

Lemma nth_tags : List.length hamiltonian_order_tag = 6 /\ List.length taylor_series_order_tag = 7.
Proof. split; reflexivity. Qed.
Lemma py_nth_iff {A} (l : list A) i : (exists x, py_nth l i = Ok x) <-> i < List.length l.
Proof.
  unfold py_nth. destruct (nth_error l i) eqn:E; (split; [|]).
  - intros _. apply nth_error_Some. congruence.
  - eauto.
  - intros [x H]; discriminate.
  - intros H. apply nth_error_Some in H. congruence.
Qed.
Lemma z_tags_iff b : (exists u, z_tags b = Ok u) <-> (forall kp, In kp b -> fst kp <= 5).
Proof.
  unfold z_tags. induction b as [|kp b IH].
  - split; [intros _ ? []|]. exists tt. reflexivity.
  - cbn [mapM]. destruct kp as [k x]. cbn [fst].
    assert (G : (exists s, match k with 0 => Ok ""%string | S k0 => py_nth hamiltonian_order_tag (S k0) end = Ok s) <-> k <= 5).
    { destruct k as [|k]; [split; [lia|eauto]|]. rewrite py_nth_iff, (proj1 nth_tags). lia. }
    destruct (match k with 0 => Ok ""%string | S k0 => py_nth hamiltonian_order_tag (S k0) end) as [s|e].
    + cbn [bind]. destruct (mapM _ b) as [y|].
      * cbn [bind] in *. split; [|eauto]. intros _ kp [<-|H]; [cbn; apply G; eauto|]. apply (proj1 IH); eauto.
      * cbn [bind] in *. split; [intros [u Hu]; discriminate|]. intros H. destruct (proj2 IH) as [u Hu]; [|discriminate]. intros; apply H; now right.
    + cbn [bind]. split; [intros [u Hu]; discriminate|]. intros H. destruct (proj2 G) as [s Hs]; [apply (H (k, x)); now left|discriminate].
Qed.
Lemma mapM_iff {A B} (f : A -> res B) l : (exists y, mapM f l = Ok y) <-> (forall x, In x l -> exists y, f x = Ok y).
Proof.
  induction l as [|a l IH]; [split; [intros _ ? []|exists []; reflexivity]|]. cbn [mapM]. split.
  - intros [y E] x [<-|H]; destruct (f a) as [z|]; try discriminate; [eauto|]. cbn [bind] in E. destruct (mapM f l); [|discriminate]. apply (proj1 IH); eauto.
  - intros H. destruct (H a (or_introl eq_refl)) as [z ->]. cbn [bind]. destruct (proj2 IH) as [y ->]; [intros; apply H; now right|]. cbn [bind]. eauto.
Qed.
Lemma ifs_iff d cc i : (exists l, eT_ifs d cc i = Ok l) <->
  (forall e, In e d -> en_h e = i -> 1 <= en_t e <= cc -> en_z e <= 5 /\ en_t e <= 6).
Proof.
  unfold eT_ifs.
  set (f := fun j => match zsums_of d i j with [] => Ok [] | b => do _ <- z_tags b; do _ <- py_nth taylor_series_order_tag j; Ok [(j, b)] end).
  assert (G : (exists l, (do l <- mapM f (range 1 (cc + 1)); Ok (List.concat l)) = Ok l) <-> (exists l, mapM f (range 1 (cc + 1)) = Ok l)).
  { destruct (mapM f (range 1 (cc + 1))); cbn [bind]; [split; eauto|split; intros [? ?]; discriminate]. }
  rewrite G, mapM_iff. clear G.
  assert (F : forall j, (exists y, f j = Ok y) <-> (zsums_of d i j = [] \/ (forall kp, In kp (zsums_of d i j) -> fst kp <= 5) /\ j <= 6)).
  { intros j. unfold f. destruct (zsums_of d i j) as [|z b] eqn:E; [split; eauto|].
    pose proof (z_tags_iff (z :: b)) as T. destruct (z_tags (z :: b)).
    - cbn [bind]. pose proof (py_nth_iff taylor_series_order_tag j) as Pn. rewrite (proj2 nth_tags) in Pn.
      destruct (py_nth taylor_series_order_tag j); cbn [bind].
      + split; [|eauto]. intros _. right. split; [apply T; eauto|]. assert (j < 7) by (apply Pn; eauto). lia.
      + split; [intros [? ?]; discriminate|]. intros [?|[_ Hj]]; [discriminate|]. destruct (proj2 Pn) as [? ?]; [lia|discriminate].
    - cbn [bind]. split; [intros [? ?]; discriminate|]. intros [?|[Ht _]]; [discriminate|]. destruct (proj2 T Ht) as [? ?]. discriminate. }
  split.
  - intros H e He <- Hj. destruct (proj1 (F (en_t e)) (H (en_t e) ltac:(apply in_range; lia))) as [E|[Hk Hj6]].
    + exfalso. apply (proj1 (zsums_nil d (en_h e) (en_t e)) E e He). auto.
    + split; [|exact Hj6]. destruct (keys_zsums d e He) as (kp & Hkp & <-). auto.
  - intros H j Hj. apply in_range in Hj. apply F. destruct (zsums_of d i j) as [|z b] eqn:E; [now left|]. right. rewrite <- E.
    assert (W : forall kp, In kp (zsums_of d i j) -> fst kp <= 5 /\ j <= 6).
    { intros kp Hkp. apply zsums_keys in Hkp as (e & He & Hi & <- & <-). apply H; auto. lia. }
    split; [intros; now apply W|]. apply (W z). rewrite E. now left.
Qed.
Lemma body_iff d H cc : (exists b, eT_body d H cc = Ok b) <-> tags_suffice d H cc.
Proof.
  unfold eT_body, tags_suffice.
  assert (Zk : forall i, (exists u, z_tags (zsums_of d i 0) = Ok u) <-> (forall e, In e d -> en_h e = i -> en_t e = 0 -> en_z e <= 5)).
  { intros i. rewrite z_tags_iff. split.
    - intros Hk e He Hi Ht. destruct (keys_zsums d e He) as (kp & Hkp & <-). apply Hk. now rewrite Hi, Ht in Hkp.
    - intros Hk kp Hkp. apply zsums_keys in Hkp as (e & He & Hi & Ht & <-). auto. }
  set (g := fun i => let b := zsums_of d i 0 in do _ <- z_tags b; do _ <- py_nth hamiltonian_order_tag i; do ifs <- eT_ifs d cc i; Ok (i, (b, ifs))).
  assert (G : forall i, (exists y, g i = Ok y) <-> i <= 5 /\ forall e, In e d -> en_h e = i -> en_t e <= cc -> en_z e <= 5 /\ en_t e <= 6).
  { intros i. unfold g. cbv zeta. pose proof (Zk i) as Z. pose proof (ifs_iff d cc i) as I.
    pose proof (py_nth_iff hamiltonian_order_tag i) as Pn. rewrite (proj1 nth_tags) in Pn. split.
    - intros [y E]. destruct (z_tags (zsums_of d i 0)); [|discriminate]. cbn [bind] in E.
      destruct (py_nth hamiltonian_order_tag i); [|discriminate]. cbn [bind] in E. destruct (eT_ifs d cc i); [|discriminate].
      split; [assert (i < 6) by (apply Pn; eauto); lia|]. intros e He Hi Ht. destruct (Nat.eq_dec (en_t e) 0) as [T|T].
      + split; [apply (proj1 Z); eauto|lia].
      + apply (proj1 I); eauto. lia.
    - intros [Hi He]. destruct (proj2 Z) as [u ->]; [intros; apply He; auto; lia|]. cbn [bind]. destruct (proj2 Pn) as [s ->]; [lia|]. cbn [bind].
      destruct (proj2 I) as [l ->]; [intros; apply He; auto; lia|]. cbn [bind]. eauto. }
  pose proof (Zk 0) as Z0. pose proof (ifs_iff d cc 0) as I0. pose proof (mapM_iff g (range 1 (H + 1))) as M. split.
  - intros [b E]. destruct (z_tags (zsums_of d 0 0)); [|discriminate]. cbn [bind] in E. destruct (eT_ifs d cc 0); [|discriminate]. cbn [bind] in E.
    change (mapM _ (range 1 (H + 1))) with (mapM g (range 1 (H + 1))) in E. destruct (mapM g (range 1 (H + 1))); [|discriminate].
    assert (A : forall i, 1 <= i <= H -> i <= 5 /\ forall e, In e d -> en_h e = i -> en_t e <= cc -> en_z e <= 5 /\ en_t e <= 6).
    { intros i Hi. apply G. apply (proj1 M); [eauto|]. apply in_range. lia. }
    split; [destruct (Nat.eq_dec H 0); [lia|]; apply (A H); lia|].
    intros e He Hi Ht. destruct (Nat.eq_dec (en_h e) 0) as [E0|E0].
    + destruct (Nat.eq_dec (en_t e) 0) as [T|T]; [split; [apply (proj1 Z0); eauto|lia]|]. apply (proj1 I0); eauto. lia.
    + apply (A (en_h e)); auto. lia.
  - intros [H5 He]. destruct (proj2 Z0) as [u ->]; [intros e ? E0 T; apply He; auto; lia|]. cbn [bind].
    destruct (proj2 I0) as [l ->]; [intros e ? E0 T; apply He; auto; lia|]. cbn [bind].
    change (mapM _ (range 1 (H + 1))) with (mapM g (range 1 (H + 1))).
    destruct (proj2 M) as [y ->]; [|cbn [bind]; eauto]. intros i Hi. apply in_range in Hi. apply G. split; [lia|]. intros e ? E0 T. apply He; auto; lia.
Qed.

(** ** Running it *)
Definition loc_body (d : list entry) (H cc : nat) : list entry :=
  flat_map (fun i => flat_map (fun j => loc_zsums i j (zsums_of d i j)) (range 0 (cc + 1))) (range 0 (H + 1)).

Lemma body_spec d H cc :
  NoDup (map place (loc_body d H cc)) /\
  (forall e, In e (loc_body d H cc) -> en_h e <= H /\ en_t e <= cc /\
     (exists e', In e' d /\ en_pref e' = en_pref e) /\
     exists e', In e' d /\ place e' = place e /\ en_call e' = en_call e) /\
  (forall e, In e d -> en_h e <= H -> en_t e <= cc -> exists e', In e' (loc_body d H cc) /\ place e' = place e).
Proof.
  unfold loc_body. split; [|split].
  - rewrite flat_map_concat_map, concat_map, map_map, <- flat_map_concat_map.
    apply NoDup_flat_map; [apply seq_NoDup| |].
    + intros i _. rewrite flat_map_concat_map, concat_map, map_map, <- flat_map_concat_map.
      apply NoDup_flat_map; [apply seq_NoDup|intros j _; apply zsums_loc|].
      intros j j' x _ _ H1 H2. apply in_map_iff in H1 as (e & <- & H1). apply in_map_iff in H2 as (e' & E & H2).
      apply (proj1 (proj2 (zsums_loc d i j))) in H1 as (_ & <- & _). apply (proj1 (proj2 (zsums_loc d i j'))) in H2 as (_ & <- & _).
      unfold place in E. congruence.
    + intros i i' x _ _ H1 H2. apply in_map_iff in H1 as (e & <- & H1). apply in_map_iff in H2 as (e' & E & H2).
      apply in_flat_map in H1 as (j & _ & H1). apply in_flat_map in H2 as (j' & _ & H2).
      apply (proj1 (proj2 (zsums_loc d i j))) in H1 as (<- & _). apply (proj1 (proj2 (zsums_loc d i' j'))) in H2 as (<- & _).
      unfold place in E. congruence.
  - intros e He. apply in_flat_map in He as (i & Hi & He). apply in_flat_map in He as (j & Hj & He).
    apply in_range in Hi, Hj. apply (proj1 (proj2 (zsums_loc d i j))) in He as (<- & <- & He).
    split; [lia|]. split; [lia|exact He].
  - intros e He Hi Hj. destruct (proj2 (proj2 (zsums_loc d (en_h e) (en_t e))) e He eq_refl eq_refl) as (e' & He' & Ep).
    exists e'. split; [|exact Ep]. apply in_flat_map. exists (en_h e). split; [apply in_range; lia|].
    apply in_flat_map. exists (en_t e). split; [apply in_range; lia|exact He'].
Qed.

Section Running.
  Variables fh ft fz : nat -> bool.
  Notation added := (map (fun e => (en_pref e, en_call e))).
  Notation on := (fun e => is_on fh ft fz (en_h e) (en_t e) (en_z e)).

  Lemma filter_loc_zsums i j b :
    added (filter on (loc_zsums i j b))
    = if (Nat.eqb i 0 || fh i) && (Nat.eqb j 0 || ft j) then run_zsums fz b else [].
  Proof.
    unfold loc_zsums, run_zsums. induction b as [|kp b IH]; [cbn; now destruct ((Nat.eqb i 0 || fh i) && (Nat.eqb j 0 || ft j))|].
    cbn [flat_map]. rewrite filter_app, map_app, IH. clear IH.
    assert (G : added (filter on (flat_map (fun pc => map (mkentry i j (fst kp) (fst pc)) (snd pc)) (snd kp)))
      = if (Nat.eqb i 0 || fh i) && (Nat.eqb j 0 || ft j) && (Nat.eqb (fst kp) 0 || fz (fst kp))
        then flat_map (fun pc => map (pair (fst pc)) (snd pc)) (snd kp) else []).
    { induction (snd kp) as [|pc l IH]; [cbn; now destruct (_ && _)|]. cbn [flat_map]. rewrite filter_app, map_app, IH. clear IH.
      assert (G : filter on (map (mkentry i j (fst kp) (fst pc)) (snd pc))
        = if (Nat.eqb i 0 || fh i) && (Nat.eqb j 0 || ft j) && (Nat.eqb (fst kp) 0 || fz (fst kp))
          then map (mkentry i j (fst kp) (fst pc)) (snd pc) else []).
      { rewrite filter_map_comm. cbn [en_h en_t en_z]. unfold is_on.
        destruct ((Nat.eqb i 0 || fh i) && (Nat.eqb j 0 || ft j) && (Nat.eqb (fst kp) 0 || fz (fst kp))).
        - f_equal. induction (snd pc) as [|a r IH]; [reflexivity|]. cbn [filter]. now rewrite IH.
        - rewrite filter_none; [reflexivity|reflexivity]. }
      rewrite G. destruct (_ && _); [|reflexivity]. rewrite map_map. reflexivity. }
    rewrite G. clear G. destruct ((Nat.eqb i 0 || fh i) && (Nat.eqb j 0 || ft j)); [|reflexivity]. cbn [andb]. destruct (Nat.eqb (fst kp) 0 || fz (fst kp)); reflexivity.
  Qed.

  Lemma run_ifs d cc i : (Nat.eqb i 0 || fh i) = true ->
    run_tifs ft fz (ifs_of d cc i) = added (filter on (flat_map (fun j => loc_zsums i j (zsums_of d i j)) (range 1 (cc + 1)))).
  Proof.
    intros Hi. unfold run_tifs, ifs_of.
    assert (F : forall j, In j (range 1 (cc + 1)) -> j <> 0) by (intros j Hj; apply in_range in Hj; lia).
    induction (range 1 (cc + 1)) as [|j js IH]; [reflexivity|].
    assert (Cons : forall {X} (h : nat -> list X), flat_map h (j :: js) = h j ++ flat_map h js) by reflexivity.
    rewrite !Cons. rewrite filter_app, map_app, filter_loc_zsums, Hi.
    rewrite flat_map_app. f_equal; [|apply IH; intros; apply F; now right].
    specialize (F j (or_introl eq_refl)). destruct j as [|j]; [easy|]. cbn [Nat.eqb orb andb].
    destruct (zsums_of d i (S j)) as [|z b]; [now destruct (ft (S j))|]. cbn [flat_map fst snd]. now rewrite app_nil_r.
  Qed.
  Lemma run_block d cc i : (Nat.eqb i 0 || fh i) = true ->
    run_zsums fz (zsums_of d i 0) ++ run_tifs ft fz (ifs_of d cc i)
    = added (filter on (flat_map (fun j => loc_zsums i j (zsums_of d i j)) (range 0 (cc + 1)))).
  Proof.
    intros Hi. assert (E : range 0 (cc + 1) = 0 :: range 1 (cc + 1)).
    { unfold range. replace (cc + 1 - 0) with (S cc) by lia. replace (cc + 1 - 1) with cc by lia. reflexivity. }
    rewrite E. cbn [flat_map]. rewrite filter_app, map_app, filter_loc_zsums, Hi. cbn [Nat.eqb orb andb]. f_equal. now apply run_ifs.
  Qed.
  Lemma run_body d H cc : run_ebody fh ft fz (body_of d H cc) = added (filter on (loc_body d H cc)).
  Proof.
    unfold run_ebody, body_of, loc_body. rewrite app_assoc, run_block by reflexivity.
    assert (E : range 0 (H + 1) = 0 :: range 1 (H + 1)).
    { unfold range. replace (H + 1 - 0) with (S H) by lia. replace (H + 1 - 1) with H by lia. reflexivity. }
    rewrite E. clear E. cbn [flat_map]. rewrite filter_app, map_app. f_equal.
    assert (F : forall i, In i (range 1 (H + 1)) -> i <> 0) by (intros i Hi; apply in_range in Hi; lia).
    induction (range 1 (H + 1)) as [|i is IH]; [reflexivity|]. cbn [map flat_map fst snd]. rewrite filter_app, map_app, IH by (intros; apply F; now right).
    f_equal. specialize (F i (or_introl eq_refl)). destruct (fh i) eqn:Ef.
    - apply run_block. rewrite Ef. apply orb_true_r.
    - rewrite filter_none; [reflexivity|]. intros e He. apply in_flat_map in He as (j & _ & He).
      apply (proj1 (proj2 (zsums_loc d i j))) in He as (-> & _). unfold is_on. rewrite Ef. destruct i; [easy|reflexivity].
  Qed.
End Running.
