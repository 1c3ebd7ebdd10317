(** For which truncations the python code of the full coupled cluster equations
    has all contractions. *)
From Coq Require Import List Arith NArith Lia Bool Ascii String Permutation.
From Verif Require Import PyBase PyBaseFacts PyStr ModelFullCC ModelPrefactor ModelFullCCPy SpecFullCC SpecPrefactor SpecFullCCPy SpecPython SpecEtText SpecFullCCText
  SpecFullCCPlaces SpecFullCCComplete ProofsStr ProofsFullCC ProofsFullCCPy ProofsFullCCText ProofsFullCCPlaces.
Import ListNotations.

(** ** One printed prefactor for each contraction *)
Definition printed (so : list nat -> list nat) (hm hn : nat) (us : list tamp) : string :=
  let '(num, den) := build_prefactor so (mkch 0 hm hn 0 0 [] []) us in prefactor_text num den.

  Lemma dedup_length_perm (l l' : list tamp) : Permutation l l' -> List.length (dedup tamp_eqb l) = List.length (dedup tamp_eqb l').
  Proof.
    intros P. apply Permutation_length, NoDup_Permutation; try apply nodup_dedup, tamp_eqb_eq.
    intros x. rewrite !(in_dedup tamp_eqb tamp_eqb_eq). split; apply Permutation_in; [exact P|now symmetry].
  Qed.
  Lemma filter_perm {A} (f : A -> bool) l l' : Permutation l l' -> Permutation (filter f l) (filter f l').
  Proof.
    induction 1; cbn; [constructor| | |etransitivity; eassumption].
    - destruct (f x); [now constructor|assumption].
    - destruct (f x), (f y); try reflexivity. constructor.
  Qed.
  Lemma printed_perm so hm hn us us' : Permutation us us' -> printed so hm hn us = printed so hm hn us'.
  Proof.
    intros P. unfold printed, build_prefactor. cbn [ch_m ch_n].
    assert (B : is_bare_h us = is_bare_h us').
    { unfold is_bare_h. destruct us as [|a [|b us]].
      - apply Permutation_nil in P as ->. reflexivity.
      - apply Permutation_length_1_inv in P as ->. reflexivity.
      - pose proof (Permutation_length P) as L. destruct us' as [|? [|? ?]]; cbn in L; try lia; reflexivity. }
    rewrite <- B. destruct (is_bare_h us); [reflexivity|].
    rewrite (dedup_length_perm _ _ (filter_perm _ _ _ P)), (Permutation_length P). reflexivity.
  Qed.

Section Group.
  Variables (so : list nat -> list nat) (son : list (list nat) -> list (list nat)) (soc : list (list ascii) -> list (list ascii)).
  Hypothesis Hso : set_order so.
  Hypothesis Hson : set_order son.
  Hypothesis Hsoc : set_order soc.
  Variables H cc S m n : nat.
  Hypothesis HS : S <= 6.
  Hypothesis HH : H <= 5.
  Hypothesis Hmn : m + n <= 6.

  (** The calls are those of a term with this contraction. *)
  Definition from_term (c : chosen) : Prop :=
    exists t, describes m n (c_m c) (c_n c) (c_us c) (c_f c) (c_fbar c) t /\ einsum_calls son soc t = Ok (c_calls c).

  Definition places_with (prog : list stmt) (g : string * string) (kind : list tamp -> Prop) : Prop :=
    exists bares what cs,
      defines_cc_terms prog m n false g (branch_does (sum_adds einsum_text) bares what) /\
      NoDup bares /\
      (forall hm hn, In (hm, hn) bares <-> exists f fbar, requested m n H cc S true true hm hn [] f fbar /\ kind []) /\
      Forall (is_chosen H cc S m n kind) cs /\
      Forall (fun c => c_prefactor c = printed so (c_m c) (c_n c) (c_us c)) cs /\
      NoDup (map place_of cs) /\
      (forall hm hn us f fbar, requested m n H cc S true true hm hn us f fbar -> kind us -> us <> [] ->
         right_prefactor hm hn us (printed so hm hn us) /\ In (place hm hn us (printed so hm hn us)) (map place_of cs)) /\
      (forall fh ft, Permutation (what fh ft)
        (flat_map (fun c => if active fh ft (place_of c) then map (pair (c_prefactor c)) (c_calls c) else []) cs)) /\
      Forall from_term cs.

  Lemma slot_printed t hm hn us f fbar : describes m n hm hn us f fbar t -> us <> [] -> slot so t = place hm hn us (printed so hm hn us).
  Proof.
    intros -> N. unfold slot, place, printed, build_prefactor. cbn [ch_m ch_n].
    assert (factors us = us) as -> by (destruct us; [congruence|reflexivity]).
    f_equal. f_equal. f_equal. apply map_ext. intros t. unfold rank_of_t, up, down. lia.
  Qed.

  Lemma group_places_with prog g kind l : group_terms H cc S m n kind l ->
    group_functions prog so (einsum_calls son soc) H cc S m n g l ->
    (forall us us', Permutation us us' -> kind us -> kind us') ->
    places_with prog g kind.
  Proof.
    intros (Nd & Sound & Complete) (bares & what & Df & (surv & calls & L & Cl & Eb & W) & _) Kp.
    assert (Dt : forall t, In t l -> exists hm hn us f fbar, data H cc S m n kind t hm hn us f fbar).
    { intros t I. destruct (Sound t I) as (hm & hn & us & f & fb & X & Y & Z). exists hm, hn, us, f, fb. now split. }
    assert (Iw : forall t, In t (with_amplitudes l) <-> In t l /\ bare t = false).
    { intros t. unfold with_amplitudes. rewrite filter_In, negb_true_iff. reflexivity. }
    assert (Ch : exists cs, Forall2 (fun t c => slot so t = place_of c /\ is_chosen H cc S m n kind c /\ c_calls c = calls t /\ c_prefactor c = snd (slot so t) /\
        c_prefactor c = printed so (c_m c) (c_n c) (c_us c) /\ from_term c) surv cs).
    { assert (Is : incl surv (with_amplitudes l)) by now apply (lasts_incl (slot so)). clear L W. induction surv as [|t surv IH]; [exists []; constructor|].
      destruct IH as [cs IH]; [intros x X; apply Is; now right|]. assert (It := Is t (or_introl eq_refl)). pose proof (proj1 (Iw t) It) as [Il Bt].
      destruct (Dt t Il) as (hm & hn & us & f & fb & D). assert (N : us <> []) by (intros E; apply (bare_iff H cc S m n HS HH Hmn kind t hm hn us f fb D) in E; congruence).
      destruct (slot_place so Hso H cc S m n HS HH Hmn kind t _ _ _ _ _ D N) as (p & Rp & Ep). destruct (data_calls son soc Hson Hsoc H cc S m n HS HH Hmn kind t _ _ _ _ _ D N) as (cl & Ec & F1 & F2 & F3).
      pose proof (slot_printed t hm hn us f fb (proj2 (proj2 D)) N) as Eq. rewrite Ep in Eq. injection Eq as Eq.
      destruct (Cl t It) as [Ec' _]. assert (cl = calls t) by congruence. subst cl.
      exists (mkchosen hm hn us f fb p (calls t) :: cs). constructor; [|exact IH]. rewrite Ep. destruct D as (R & K & D).
      split; [reflexivity|]. split; [exact (conj N (conj R (conj K (conj Rp (conj F1 (conj F2 F3))))))|]. split; [reflexivity|]. split; [reflexivity|]. split; [exact Eq|].
      exists t. now split. }
    destruct Ch as [cs Ch]. exists bares, what, cs. split; [exact Df|].
    assert (Pl : map place_of cs = map (slot so) surv).
    { clear - Ch. induction Ch as [|t c surv cs (E & _) _ IH]; [reflexivity|]. cbn. now rewrite IH, E. }
    split; [|split; [|split; [|split; [|split; [|split; [|split]]]]]].
    - rewrite Eb. assert (X : forall t, In t (filter bare l) -> exists hm hn f fbar, data H cc S m n kind t hm hn [] f fbar).
      { intros t I. apply filter_In in I. destruct I as [I B]. destruct (Dt t I) as (hm & hn & us & f & fb & D). apply (bare_iff H cc S m n HS HH Hmn kind t hm hn us f fb D) in B.
        subst us. eauto 6. }
      assert (Nf : NoDup (filter bare l)) by now apply NoDup_filter. clear - X Nf. induction Nf as [|t r N _ IH]; [constructor|]. cbn. constructor.
      + intros I. apply in_map_iff in I. destruct I as (t' & E & I). apply N.
        destruct (X t (or_introl eq_refl)) as (a & b & f & fb & (_ & _ & _ & (C1 & C2 & C3 & C4) & _) & _ & D).
        destruct (X t' (or_intror I)) as (a' & b' & f' & fb' & (_ & _ & _ & (C1' & C2' & C3' & C4') & _) & _ & D').
        cbn in *. unfold describes in *. replace t with t'; [exact I|]. subst t t'. cbn in E. injection E as <- <-.
        assert (f' = f) by lia. assert (fb' = fb) by lia. now subst.
      + apply IH. intros t' I. apply X. now right.
    - intros hm hn. rewrite Eb, in_map_iff. split.
      + intros (t & E & I). apply filter_In in I. destruct I as [I B]. destruct (Dt t I) as (a & b & us & f & fb & D).
        apply (bare_iff H cc S m n HS HH Hmn kind t a b us f fb D) in B. subst us. destruct D as (R & K & D). unfold describes in D. subst t. cbn in E. injection E as <- <-. eauto.
      + intros (f & fb & R & K). destruct (Complete hm hn [] f fb R K) as (us' & t & Pm & D & I). apply Permutation_nil in Pm. subst us'.
        exists t. split; [unfold describes in D; subst t; reflexivity|]. apply filter_In. split; [exact I|]. unfold describes in D; subst t; reflexivity.
    - clear - Ch. induction Ch as [|t c surv cs (_ & E & _) _ IH]; constructor; auto.
    - clear - Ch. induction Ch as [|t c surv cs (_ & _ & _ & _ & E & _) _ IH]; constructor; auto.
    - rewrite Pl. now apply (lasts_nodup (slot so) (with_amplitudes l)).
    - intros hm hn us f fb R K N. destruct (Complete hm hn us f fb R K) as (us' & t & Pm & D & I).
      assert (N' : us' <> []) by (intros ->; apply N; now apply Permutation_nil, Permutation_sym).
      assert (D' : data H cc S m n kind t hm hn us' f fb).
      { split; [|split; [now apply (Kp us)|exact D]]. destruct R as (R1 & R2 & R3 & R4 & R5). split; [exact R1|]. split; [now rewrite <- (Permutation_length Pm)|].
        split; [eapply Permutation_Forall; eassumption|]. split; [|exact R5]. destruct R4 as (C1 & C2 & C3 & C4).
        assert (T : forall h, total h us = total h us').
        { intros h. unfold total. clear - Pm. induction Pm; cbn; lia. }
        unfold contraction. rewrite <- !T. auto. }
      destruct (slot_place so Hso H cc S m n HS HH Hmn kind t _ _ _ _ _ D' N') as (p & Rp & Ep).
      pose proof (slot_printed t hm hn us' f fb D N') as Eq. rewrite Ep in Eq. injection Eq as ->. rewrite (printed_perm so hm hn us us' Pm).
      split; [apply (right_perm hm hn us'); [now symmetry|exact Rp]|].
      rewrite (place_perm hm hn us us' _ Pm), <- Ep, Pl. apply (lasts_cover (slot so) (with_amplitudes l)); [exact L|]. apply Iw. split; [exact I|].
      apply not_true_iff_false. intros B. apply (bare_iff H cc S m n HS HH Hmn kind t hm hn us' f fb D') in B. contradiction.
    - intros fh ft. match goal with |- Permutation _ ?b => replace b with (flat_map (fun t => if active fh ft (slot so t) then map (fun c => (snd (slot so t), c)) (calls t) else []) surv); [apply W|] end.
      clear - Ch. induction Ch as [|t c surv cs (E & _ & Ec & Ep & _) _ IH]; [reflexivity|]. cbn [flat_map]. rewrite IH, <- E, Ec, Ep. reflexivity.
    - clear - Ch. induction Ch as [|t c surv cs (_ & _ & _ & _ & _ & E) _ IH]; constructor; auto.
  Qed.
End Group.

Lemma cc_file_places_with sot so son soc H cc S P text prog :
  set_order sot -> set_order so -> set_order son -> set_order soc -> 1 <= cc <= 6 -> S <= 6 -> H <= 5 ->
  generate_full_cc_python sot so son soc H cc S P = Ok text -> python text prog ->
  forall m n, m + n <= cc -> m + n <= P ->
    Forall2 (places_with so son soc H cc S m n prog) groups (kinds m n).
Proof.
  intros Hsot Hso Hson Hsoc C1 C2 C3 E R m n A B.
  destruct (cc_file_functions sot so son soc H cc S P text prog Hsot Hso Hson Hsoc C1 C2 C3 E R m n A B) as (terms & F1 & F2).
  pose proof (kind_perm m n) as Kp. unfold kinds in *. inversion F1 as [|k1 t1 ks ts1 G1 F1a]; subst. inversion F1a as [|k2 t2 ks ts2 G2 F1b]; subst.
  inversion F1b as [|k3 t3 ks ts3 G3 F1c]; subst. inversion F1c; subst. unfold groups in *.
  inversion F2 as [|? ? ? ? X1 F2a]; subst. inversion F2a as [|? ? ? ? X2 F2b]; subst. inversion F2b as [|? ? ? ? X3 F2c]; subst.
  constructor; [|constructor; [|constructor; [|constructor]]]; eapply (group_places_with so son soc); try eassumption; try lia; apply Kp; cbn; auto.
Qed.
