(** Which contractions the printed python of the full coupled cluster equations
    adds. *)
From Coq Require Import List Arith Bool Ascii String Lia Permutation.
From Verif Require Import PyBase PyStr ModelHelper ModelFullCC ModelPrefactor ModelFullCCPy SpecFullCC SpecPrefactor SpecFullCCPy SpecPython SpecEtText SpecFullCCText SpecFullCCPlaces
  PyBaseFacts ProofsFullCCPy ProofsFullCCText.
Import ListNotations.

Lemma lasts_incl {A B} (f : A -> B) l l' : lasts f l l' -> incl l' l.
Proof. induction 1 as [|x l l' _ _ IH|x y l l' _ _ _ IH]; [easy| |]; intros z Z; [destruct Z as [<-|Z]; [now left|right; auto]|right; auto]. Qed.
Lemma lasts_nodup {A B} (f : A -> B) l l' : lasts f l l' -> NoDup (map f l').
Proof.
  induction 1 as [|x l l' H L IH|x y l l' _ _ _ IH]; [constructor| |exact IH]. cbn. constructor; [|exact IH].
  intros I. apply in_map_iff in I. destruct I as (y & E & I). apply (H y); [|exact E]. now apply (lasts_incl f l l').
Qed.
Lemma lasts_cover {A B} (f : A -> B) l l' : lasts f l l' -> forall x, In x l -> In (f x) (map f l').
Proof.
  induction 1 as [|x l l' _ _ IH|x y l l' I E _ IH]; intros z Z; [destruct Z| |].
  - destruct Z as [<-|Z]; [now left|right; auto].
  - destruct Z as [<-|Z]; [rewrite <- E; auto|auto].
Qed.

Lemma different_perm us us' x : Permutation us us' -> different_connected us x -> different_connected us' x.
Proof.
  intros P (d & N & I & L). exists d. split; [exact N|]. split; [|exact L]. intros t. rewrite I. split; intros [A B]; (split; [|exact B]);
    eapply Permutation_in; try eassumption. now symmetry.
Qed.
Lemma right_perm hm hn us us' p : Permutation us us' -> right_prefactor hm hn us p -> right_prefactor hm hn us' p.
Proof.
  intros P (x & num & den & E & N & D & V). exists x, num, den. rewrite <- (Permutation_length P). repeat split; try assumption. eapply different_perm; eassumption.
Qed.
Lemma list_max_perm l l' : Permutation l l' -> list_max l = list_max l'.
Proof. unfold list_max. induction 1; cbn [fold_right]; lia. Qed.
Lemma place_perm hm hn us us' p : Permutation us us' -> place hm hn us p = place hm hn us' p.
Proof. intros P. unfold place. f_equal. f_equal. apply list_max_perm. now apply Permutation_map. Qed.

Section Group.
  Variables (so : list nat -> list nat) (son : list (list nat) -> list (list nat)) (soc : list (list ascii) -> list (list ascii)).
  Hypothesis Hso : set_order so.
  Hypothesis Hson : set_order son.
  Hypothesis Hsoc : set_order soc.
  Variables H cc S m n : nat.
  Hypothesis HS : S <= 6.
  Hypothesis HH : H <= 5.
  Hypothesis Hmn : m + n <= 6.

  (** what is known of a term of a group *)
  Definition data (kind : list tamp -> Prop) (t : term) (hm hn : nat) (us : list tamp) (f fbar : nat) : Prop :=
    requested m n H cc S true true hm hn us f fbar /\ kind us /\ describes m n hm hn us f fbar t.

  Lemma ranked us : Forall (amplitude cc true) us -> Forall (fun t => 1 <= up t + down t) us.
  Proof. apply Forall_impl. intros t [X _]. lia. Qed.
  Lemma bare_iff kind t hm hn us f fbar : data kind t hm hn us f fbar -> (bare t = true <-> us = []).
  Proof.
    intros ((_ & _ & A & _) & _ & D). unfold describes in D. subst t. unfold bare. cbn [snd]. destruct us as [|u us]; [now split|]. cbn [factors].
    split; [|discriminate]. destruct us as [|u' us]; [|destruct u as [[|?] [|?] [|?] [|?]]; discriminate].
    inversion A as [|? ? [[X _] _] _]; subst. unfold up, down in X. destruct u as [[|?] [|?] [|?] [|?]]; cbn in *; try lia; discriminate.
  Qed.
  Lemma slot_place kind t hm hn us f fbar : data kind t hm hn us f fbar -> us <> [] ->
    exists p, right_prefactor hm hn us p /\ slot so t = place hm hn us p.
  Proof.
    intros ((_ & _ & A & C & _) & _ & D) N.
    destruct (prefactor_value so m n hm hn us f fbar t Hso D (ranked us A) N) as (x & num & den & Dx & B & V & Nc).
    exists (prefactor_text num den). split; [exists x, num, den; repeat split; assumption|].
    unfold describes in D. subst t. cbn [fst snd] in B. unfold slot, place. rewrite B. cbn [ch_m ch_n]. f_equal. f_equal. f_equal.
    destruct us as [|u us]; [now elim N|]. cbn [factors]. apply map_ext. intros t. unfold rank_of_t, up, down. lia.
  Qed.
  Lemma data_calls kind t hm hn us f fbar : data kind t hm hn us f fbar -> us <> [] ->
    exists calls, einsum_calls son soc t = Ok calls /\ Forall (realises m n hm hn f fbar us) calls /\
      (List.length us = 1 -> exists e, calls = repeat e (fact (m + n))) /\
      (2 <= List.length us -> NoDup calls /\ List.length calls = fact (List.length us)).
  Proof.
    intros ((R1 & R2 & A & C & _) & _ & D) N.
    destruct (labels_consistent son soc m n hm hn us f fbar t Hson Hsoc C D N) as (calls & E & _ & F); try lia.
    destruct (calls_of_term son soc m n hm hn us f fbar t Hson Hsoc C D (ranked us A) N) as (calls' & E' & G1 & G2); try lia.
    assert (calls' = calls) by congruence. subst calls'. exists calls. auto.
  Qed.

  Lemma group_places prog g kind l : group_terms H cc S m n kind l ->
    group_functions prog so (einsum_calls son soc) H cc S m n g l -> 
    (forall us us', Permutation us us' -> kind us -> kind us') ->
    adds_one_of_each_place prog H cc S m n g kind.
  Proof.
    intros (Nd & Sound & Complete) (bares & what & Df & (surv & calls & L & Cl & Eb & W) & _) Kp.
    assert (Dt : forall t, In t l -> exists hm hn us f fbar, data kind t hm hn us f fbar).
    { intros t I. destruct (Sound t I) as (hm & hn & us & f & fb & X & Y & Z). exists hm, hn, us, f, fb. now split. }
    assert (Iw : forall t, In t (with_amplitudes l) <-> In t l /\ bare t = false).
    { intros t. unfold with_amplitudes. rewrite filter_In, negb_true_iff. reflexivity. }
    assert (Ch : exists cs, Forall2 (fun t c => slot so t = place_of c /\ is_chosen H cc S m n kind c /\ c_calls c = calls t /\ c_prefactor c = snd (slot so t)) surv cs).
    { assert (Is : incl surv (with_amplitudes l)) by now apply (lasts_incl (slot so)). clear L W. induction surv as [|t surv IH]; [exists []; constructor|].
      destruct IH as [cs IH]; [intros x X; apply Is; now right|]. assert (It := Is t (or_introl eq_refl)). pose proof (proj1 (Iw t) It) as [Il Bt].
      destruct (Dt t Il) as (hm & hn & us & f & fb & D). assert (N : us <> []) by (intros E; apply (bare_iff kind t hm hn us f fb D) in E; congruence).
      destruct (slot_place _ _ _ _ _ _ _ D N) as (p & Rp & Ep). destruct (data_calls _ _ _ _ _ _ _ D N) as (cl & Ec & F1 & F2 & F3).
      destruct (Cl t It) as [Ec' _]. assert (cl = calls t) by congruence. subst cl.
      exists (mkchosen hm hn us f fb p (calls t) :: cs). constructor; [|exact IH]. rewrite Ep. destruct D as (R & K & _).
      split; [reflexivity|]. split; [exact (conj N (conj R (conj K (conj Rp (conj F1 (conj F2 F3))))))|]. now split. }
    destruct Ch as [cs Ch]. exists bares, what, cs. split; [exact Df|].
    assert (Pl : map place_of cs = map (slot so) surv).
    { clear - Ch. induction Ch as [|t c surv cs (E & _) _ IH]; [reflexivity|]. cbn. now rewrite IH, E. }
    split; [|split; [|split; [|split; [|split]]]].
    - rewrite Eb. assert (X : forall t, In t (filter bare l) -> exists hm hn f fbar, data kind t hm hn [] f fbar).
      { intros t I. apply filter_In in I. destruct I as [I B]. destruct (Dt t I) as (hm & hn & us & f & fb & D). apply (bare_iff kind t hm hn us f fb D) in B.
        subst us. eauto 6. }
      assert (Nf : NoDup (filter bare l)) by now apply NoDup_filter. clear - X Nf. induction Nf as [|t r N _ IH]; [constructor|]. cbn. constructor.
      + intros I. apply in_map_iff in I. destruct I as (t' & E & I). apply N.
        destruct (X t (or_introl eq_refl)) as (a & b & f & fb & (_ & _ & _ & (C1 & C2 & C3 & C4) & _) & _ & D).
        destruct (X t' (or_intror I)) as (a' & b' & f' & fb' & (_ & _ & _ & (C1' & C2' & C3' & C4') & _) & _ & D').
        cbn in *. unfold describes in *. replace t with t'; [exact I|]. subst t t'. cbn in E. injection E as <- <-.
        assert (f' = f) by lia. assert (fb' = fb) by lia. now subst.
      + apply IH. intros t' I. apply X. now right.
    - intros hm hn. rewrite Eb, in_map_iff. split.
      + intros (t & E & I). apply filter_In in I. destruct I as [I B]. destruct (Dt t I) as (a & b & us & f & fb & D).
        apply (bare_iff kind t a b us f fb D) in B. subst us. destruct D as (R & K & D). unfold describes in D. subst t. cbn in E. injection E as <- <-. eauto.
      + intros (f & fb & R & K). destruct (Complete hm hn [] f fb R K) as (us' & t & Pm & D & I). apply Permutation_nil in Pm. subst us'.
        exists t. split; [unfold describes in D; subst t; reflexivity|]. apply filter_In. split; [exact I|]. unfold describes in D; subst t; reflexivity.
    - clear - Ch. induction Ch as [|t c surv cs (_ & E & _) _ IH]; constructor; auto.
    - rewrite Pl. now apply (lasts_nodup (slot so) (with_amplitudes l)).
    - intros hm hn us f fb R K N. destruct (Complete hm hn us f fb R K) as (us' & t & Pm & D & I).
      assert (N' : us' <> []) by (intros ->; apply N; now apply Permutation_nil, Permutation_sym).
      assert (D' : data kind t hm hn us' f fb).
      { split; [|split; [now apply (Kp us)|exact D]]. destruct R as (R1 & R2 & R3 & R4 & R5). split; [exact R1|]. split; [now rewrite <- (Permutation_length Pm)|].
        split; [eapply Permutation_Forall; eassumption|]. split; [|exact R5]. destruct R4 as (C1 & C2 & C3 & C4).
        assert (T : forall h, total h us = total h us').
        { intros h. unfold total. clear - Pm. induction Pm; cbn; lia. }
        unfold contraction. rewrite <- !T. auto. }
      destruct (slot_place _ _ _ _ _ _ _ D' N') as (p & Rp & Ep). exists p. split; [apply (right_perm hm hn us'); [now symmetry|exact Rp]|].
      rewrite (place_perm hm hn us us' p Pm), <- Ep, Pl. apply (lasts_cover (slot so) (with_amplitudes l)); [exact L|]. apply Iw. split; [exact I|].
      apply not_true_iff_false. intros B. apply (bare_iff kind t hm hn us' f fb D') in B. contradiction.
    - intros fh ft. match goal with |- Permutation _ ?b => replace b with (flat_map (fun t => if active fh ft (slot so t) then map (fun c => (snd (slot so t), c)) (calls t) else []) surv); [apply W|] end.
      clear - Ch. induction Ch as [|t c surv cs (E & _ & Ec & Ep) _ IH]; [reflexivity|]. cbn [flat_map]. rewrite IH, <- E, Ec, Ep. reflexivity.
  Qed.
End Group.

Lemma kind_perm m n kind : In kind (kinds m n) -> forall us us', Permutation us us' -> kind us -> kind us'.
Proof.
  intros [<-|[<-|[<-|[]]]] us us' P.
  - apply Permutation_Forall, P.
  - intros ((t & I & D) & A). split; [exists t; split; [eapply Permutation_in; eassumption|exact D]|]. intros x X. apply A. eapply Permutation_in; [symmetry|]; eassumption.
  - intros (t & I & D). exists t. split; [eapply Permutation_in; eassumption|exact D].
Qed.

Theorem cc_file_places sot so son soc H cc S P text prog :
  set_order sot -> set_order so -> set_order son -> set_order soc -> 1 <= cc <= 6 -> S <= 6 -> H <= 5 ->
  generate_full_cc_python sot so son soc H cc S P = Ok text -> python text prog ->
  forall m n, m + n <= cc -> m + n <= P ->
    Forall2 (adds_one_of_each_place prog H cc S m n) groups (kinds m n).
Proof.
  intros Hsot Hso Hson Hsoc C1 C2 C3 E R m n A B.
  destruct (cc_file_functions sot so son soc H cc S P text prog Hsot Hso Hson Hsoc C1 C2 C3 E R m n A B) as (terms & F1 & F2).
  pose proof (kind_perm m n) as Kp. unfold kinds in *. inversion F1 as [|k1 t1 ks ts1 G1 F1a]; subst. inversion F1a as [|k2 t2 ks ts2 G2 F1b]; subst.
  inversion F1b as [|k3 t3 ks ts3 G3 F1c]; subst. inversion F1c; subst. unfold groups in *.
  inversion F2 as [|? ? ? ? X1 F2a]; subst. inversion F2a as [|? ? ? ? X2 F2b]; subst. inversion F2b as [|? ? ? ? X3 F2c]; subst.
  constructor; [|constructor; [|constructor; [|constructor]]]; eapply (group_places so son soc); try eassumption; try lia; apply Kp; cbn; auto.
Qed.
