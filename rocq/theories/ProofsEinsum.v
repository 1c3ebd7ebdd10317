(** Proofs about sums, numpy.einsum and products of matrices. *)
From Coq Require Import List Arith Bool Ascii String Ring_theory Ring Lia Permutation.
From Verif Require Import SpecEinsum.
Import ListNotations.

Lemma list_ascii_string l : list_ascii_of_string (string_of_list_ascii l) = l.
Proof. apply list_ascii_of_string_of_list_ascii. Qed.

Section Sums.
  Variable F : scalars.
  Add Ring kring : (k_ring F).
  Notation K := (K F).
  Notation "0" := (kzero F). Notation "1" := (kone F).
  Infix "+" := (kadd F). Infix "*" := (kmul F).
  Notation ksum := (ksum F). Notation sum_below := (sum_below F). Notation kprod := (kprod F).

  Lemma ksum_nil : ksum [] = 0. Proof. reflexivity. Qed.
  Lemma ksum_cons x l : ksum (x :: l) = x + ksum l. Proof. reflexivity. Qed.
  Ltac ks := cbn [app map filter flat_map]; rewrite ?ksum_nil, ?ksum_cons.
  Lemma ksum_app l l' : ksum (l ++ l') = ksum l + ksum l'.
  Proof. induction l as [|x l IH]; ks; [ring|]. rewrite IH. ring. Qed.
  Lemma ksum_perm l l' : Permutation l l' -> ksum l = ksum l'.
  Proof. induction 1; ks; [reflexivity|congruence|ring|congruence]. Qed.
  Lemma ksum_ext {X} (f g : X -> K) l : (forall x, In x l -> f x = g x) -> ksum (map f l) = ksum (map g l).
  Proof. intros H. f_equal. now apply map_ext_in. Qed.
  Lemma ksum_scale {X} (f : X -> K) k l : ksum (map (fun x => k * f x) l) = k * ksum (map f l).
  Proof. induction l as [|x l IH]; ks; [ring|]. rewrite IH. ring. Qed.
  Lemma ksum_scale_r {X} (f : X -> K) k l : ksum (map (fun x => f x * k) l) = ksum (map f l) * k.
  Proof. induction l as [|x l IH]; ks; [ring|]. rewrite IH. ring. Qed.
  Lemma ksum_add {X} (f g : X -> K) l : ksum (map (fun x => f x + g x) l) = ksum (map f l) + ksum (map g l).
  Proof. induction l as [|x l IH]; ks; [ring|]. rewrite IH. ring. Qed.
  Lemma ksum_zero {X} (f : X -> K) l : (forall x, In x l -> f x = 0) -> ksum (map f l) = 0.
  Proof. intros H. induction l as [|x l IH]; ks; [reflexivity|]. rewrite (H x (or_introl eq_refl)), IH; [ring|]. intros y I. apply H. now right. Qed.
  Lemma ksum_flat_map {X Y} (f : Y -> K) (g : X -> list Y) l :
    ksum (map f (flat_map g l)) = ksum (map (fun x => ksum (map f (g x))) l).
  Proof. induction l as [|x l IH]; ks; [reflexivity|]. rewrite map_app, ksum_app, IH. reflexivity. Qed.
  Lemma ksum_filter {X} (f : X -> K) (p : X -> bool) l : (forall x, In x l -> p x = false -> f x = 0) ->
    ksum (map f l) = ksum (map f (filter p l)).
  Proof.
    intros H. induction l as [|x l IH]; [reflexivity|]. cbn [map filter].
    assert (IH' := IH (fun y I => H y (or_intror I))). destruct (p x) eqn:E; cbn [map]; ks; rewrite IH'.
    - reflexivity.
    - rewrite (H x (or_introl eq_refl) E). ring.
  Qed.
  Lemma ksum_swap {X Y} (f : X -> Y -> K) l l' :
    ksum (map (fun x => ksum (map (f x) l')) l) = ksum (map (fun y => ksum (map (fun x => f x y) l)) l').
  Proof.
    induction l as [|x l IH]; cbn.
    - symmetry. now apply ksum_zero.
    - etransitivity; [|symmetry; apply (ksum_add (f x) (fun y => ksum (map (fun x => f x y) l)))]. f_equal. exact IH.
  Qed.
  Lemma ksum_single (f : nat -> K) n b : b < n -> (forall c, c < n -> c <> b -> f c = 0) -> sum_below n f = f b.
  Proof.
    intros L Z. unfold SpecEinsum.sum_below.
    assert (E : seq O n = seq O b ++ b :: seq (S b) (n - S b)).
    { replace n with (b + S (n - S b))%nat at 1 by lia. rewrite seq_app. reflexivity. }
    rewrite E, map_app, ksum_app. ks. rewrite (ksum_zero f (seq O b)), (ksum_zero f (seq (S b) _)); [ring| |].
    - intros x I. apply in_seq in I. apply Z; lia.
    - intros x I. apply in_seq in I. apply Z; lia.
  Qed.
  Lemma sum_below_ext n f g : (forall i, i < n -> f i = g i) -> sum_below n f = sum_below n g.
  Proof. intros H. apply ksum_ext. intros x I. apply in_seq in I. apply H. lia. Qed.

  (** ** Values of letters *)
  Lemma with_value_same rho c i : with_value rho c i c = i.
  Proof. unfold with_value. now rewrite Ascii.eqb_refl. Qed.
  Lemma with_value_other rho c i d : d <> c -> with_value rho c i d = rho d.
  Proof. unfold with_value. intros H. destruct (Ascii.eqb_spec d c); [contradiction|reflexivity]. Qed.
  Lemma with_values_other cs is rho d : ~ In d cs -> with_values cs is rho d = rho d.
  Proof.
    revert is. induction cs as [|c cs IH]; intros [|i is] H; cbn; try reflexivity.
    rewrite with_value_other; [apply IH; intros I; apply H; now right|]. intros ->. apply H. now left.
  Qed.
  Lemma with_values_map cs is rho : NoDup cs -> List.length cs = List.length is -> map (with_values cs is rho) cs = is.
  Proof.
    revert is. induction cs as [|c cs IH]; intros [|i is] N L; cbn in L; try lia; [reflexivity|]. inversion N as [|? ? Nc N']; subst. cbn.
    rewrite with_value_same. f_equal. rewrite <- (IH is) at 2 by (auto; lia). apply map_ext_in. intros d I. apply with_value_other. intros ->. contradiction.
  Qed.

  Section Letters.
    Variable size : ascii -> nat.
    Notation sum_letters := (sum_letters F size).

    Lemma letters_ext cs rho f g : (forall r, (forall c, ~ In c cs -> r c = rho c) -> f r = g r) -> sum_letters cs rho f = sum_letters cs rho g.
    Proof.
      revert rho. induction cs as [|c cs IH]; intros rho H; cbn; [apply H; auto|]. apply sum_below_ext. intros i L. apply IH.
      intros r R. apply H. intros d I. rewrite R by (intros J; apply I; now right). apply with_value_other. intros ->. apply I. now left.
    Qed.
    (** [f] only depends on the values. *)
    Definition respects (f : values -> K) : Prop := forall r r', (forall c, r c = r' c) -> f r = f r'.
    Lemma letters_respects cs f : respects f -> respects (fun rho => sum_letters cs rho f).
    Proof.
      intros R. induction cs as [|c cs IH]; intros r r' E; cbn; [now apply R|]. apply sum_below_ext. intros i _. apply IH.
      intros d. unfold with_value. now rewrite E.
    Qed.
    Lemma letters_perm cs cs' rho f : respects f -> NoDup cs -> Permutation cs cs' -> sum_letters cs rho f = sum_letters cs' rho f.
    Proof.
      intros R N P. revert rho. induction P as [|c l l' P IH|c d l|l1 l2 l3 P1 IH1 P2 IH2]; intros rho.
      - reflexivity.
      - cbn. apply sum_below_ext. intros i _. apply IH. now inversion N.
      - cbn. unfold SpecEinsum.sum_below. rewrite ksum_swap. apply ksum_ext. intros i _. apply ksum_ext. intros j _.
        apply letters_respects; [exact R|]. intros x. unfold with_value. assert (c <> d) by (inversion N as [|? ? X _]; subst; intros ->; apply X; now left).
        destruct (Ascii.eqb_spec x c), (Ascii.eqb_spec x d); try reflexivity. congruence.
      - rewrite IH1 by assumption. apply IH2. now rewrite <- P1.
    Qed.
    Lemma letters_app cs cs' rho f : sum_letters (cs ++ cs') rho f = sum_letters cs rho (fun r => sum_letters cs' r f).
    Proof. revert rho. induction cs as [|c cs IH]; intros rho; cbn; [reflexivity|]. apply sum_below_ext. intros i _. apply IH. Qed.
    Lemma letters_scale cs rho f k : sum_letters cs rho (fun r => k * f r) = k * sum_letters cs rho f.
    Proof.
      revert rho. induction cs as [|c cs IH]; intros rho; cbn; [reflexivity|]. unfold SpecEinsum.sum_below.
      rewrite <- ksum_scale. apply ksum_ext. intros i _. apply IH.
    Qed.
  End Letters.
  Lemma letters_sizes size size' cs rho f : (forall c, In c cs -> size c = size' c) -> sum_letters F size cs rho f = sum_letters F size' cs rho f.
  Proof.
    revert rho. induction cs as [|c cs IH]; intros rho H; cbn; [reflexivity|]. rewrite (H c (or_introl eq_refl)). apply sum_below_ext. intros i _.
    apply IH. intros d I. apply H. now right.
  Qed.

  (** ** Chains of subscripts *)
  Variables A N : nat.

  (** Subscripts with the state letters of a chain: c c', c' c'', ... *)
  Fixpoint chain_of (chain : list ascii) (vs : list (list ascii)) : list (list ascii) :=
    match chain, vs with
    | c :: ((c' :: _) as r), v :: vs' => (c :: c' :: v) :: chain_of r vs'
    | _, _ => []
    end.

  Definition chain_entry (subs : list (list ascii)) (xs : list (array F)) (rho : values) : K :=
    kprod (map (fun sx => entry (snd sx) (map rho (fst sx))) (combine subs xs)).

  Lemma mprod_one (x : matrix F) a b : b < A -> mmul F A x (identity F) a b = x a b.
  Proof.
    intros L. unfold mmul. rewrite (ksum_single _ A b L).
    - unfold identity. rewrite Nat.eqb_refl. ring.
    - intros c _ D. unfold identity. apply Nat.eqb_neq in D. rewrite D. ring.
  Qed.

  Lemma chain_value size first mid lst vs xs rho :
    NoDup (first :: mid ++ [lst]) -> List.length vs = S (List.length mid) -> List.length xs = S (List.length mid) ->
    (forall c, In c mid -> size c = A) -> (forall v c, In v vs -> In c v -> ~ In c (first :: mid ++ [lst])) -> rho lst < A ->
    sum_letters F size mid rho (chain_entry (chain_of (first :: mid ++ [lst]) vs) xs) =
    mprod F A (map (fun vx => at_modes F (snd vx) (map rho (fst vx))) (combine vs xs)) (rho first) (rho lst).
  Proof.
    revert first vs xs rho. induction mid as [|c mid IH]; intros first vs xs rho Nd Lv Lx Sz Dj La.
    - destruct vs as [|v [|? ?]]; cbn in Lv; try lia. destruct xs as [|x [|? ?]]; cbn in Lx; try lia.
      cbn. rewrite mprod_one by exact La. unfold chain_entry, at_modes. cbn. ring.
    - destruct vs as [|v vs]; cbn in Lv; try lia. destruct xs as [|x xs]; cbn in Lx; try lia.
      change (((c :: mid) ++ [lst])%list) with (c :: mid ++ [lst])%list in *. cbn [sum_letters].
      rewrite (Sz c (or_introl eq_refl)). cbn [combine map mprod fold_right]. unfold mmul at 1. apply sum_below_ext. intros i _.
      inversion Nd as [|? ? Nf Nd']; subst. inversion Nd' as [|? ? Nc Nd'']; subst.
      rewrite (letters_ext size mid _ _ (fun r => (at_modes F x (map rho v) (rho first) i) * chain_entry (chain_of (c :: mid ++ [lst]) vs) xs r)).
      + rewrite letters_scale. cbn [fst snd]. f_equal. rewrite (IH c vs xs (with_value rho c i)); try (auto; lia).
        * rewrite with_value_same. rewrite (with_value_other rho c i lst) by (intros ->; apply Nc, in_or_app; right; now left).
          assert (El : map (fun vx => at_modes F (snd vx) (map (with_value rho c i) (fst vx))) (combine vs xs) =
                       map (fun vx => at_modes F (snd vx) (map rho (fst vx))) (combine vs xs)); [|rewrite El; reflexivity].
          apply map_ext_in. intros [w y] I. cbn [fst snd]. f_equal. apply map_ext_in. intros d J. apply with_value_other. intros ->.
          apply in_combine_l in I. apply (Dj w c (or_intror I) J). right. now left.
        * intros d I. apply Sz. now right.
        * intros w d I J X. apply (Dj w d (or_intror I) J). now right.
        * rewrite with_value_other; [exact La|]. intros ->. apply Nc, in_or_app. right. now left.
      + intros r R. unfold chain_entry. cbn [chain_of combine map kprod fold_right fst snd]. f_equal. unfold at_modes.
        assert (E : forall d, ~ In d mid -> d <> c -> r d = rho d) by (intros d I J; rewrite R by exact I; now apply with_value_other).
        rewrite (E first); [|intros I; apply Nf; right; apply in_or_app; now left|intros ->; apply Nf; now left].
        rewrite (R c) by (intros I; apply Nc, in_or_app; now left). rewrite with_value_same. f_equal. f_equal. f_equal. apply map_ext_in. intros d I.
        apply E; [|intros ->; apply (Dj v c (or_introl eq_refl) I); right; now left].
        intros J. apply (Dj v d (or_introl eq_refl) I). right. right. apply in_or_app. now left.
  Qed.

  (** [f] only depends on the letters of [M]. *)
  Lemma letters_agree size (M : list ascii) cs rho rho' f :
    (forall r r', (forall c, In c M -> r c = r' c) -> f r = f r') -> (forall c, In c M -> rho c = rho' c) ->
    sum_letters F size cs rho f = sum_letters F size cs rho' f.
  Proof.
    intros D. revert rho rho'. induction cs as [|c cs IH]; intros rho rho' H; cbn; [now apply D|]. apply sum_below_ext. intros i _. apply IH.
    intros d I. unfold with_value. now rewrite H.
  Qed.

  Lemma chars_string l : chars_of (string_of_list_ascii l) = l.
  Proof. apply list_ascii_string. Qed.

  Definition modes_of (vs : list (list ascii)) (xs : list (array F)) (rho : values) : list (matrix F) :=
    map (fun vx => at_modes F (snd vx) (map rho (fst vx))) (combine vs xs).

  Section Chain.
    Variables (first lst : ascii) (mid sm outm : list ascii) (vs : list (list ascii)) (xs : list (array F)).
    Let chain := first :: mid ++ [lst].
    Let ins := map string_of_list_ascii (chain_of chain vs).
    Let out := string_of_list_ascii (first :: lst :: outm).
    Hypothesis Nd : NoDup (chain ++ sm ++ outm).
    Hypothesis Lv : List.length vs = S (List.length mid).
    Hypothesis Fx : Forall2 (fun v x => has_axes F A N (List.length v) x) vs xs.
    Hypothesis Mv : forall c, In c (List.concat vs) <-> In c (sm ++ outm).

    Lemma chain_sizes ch ws ys : List.length ch = S (List.length ws) -> Forall2 (fun v x => has_axes F A N (List.length v) x) ws ys ->
      Forall2 (fun s x => List.length (chars_of s) = List.length (shape x)) (map string_of_list_ascii (chain_of ch ws)) ys /\
      (forall c n, In (c, n) (letter_sizes F (map string_of_list_ascii (chain_of ch ws)) ys) -> (In c ch /\ n = A) \/ (In c (List.concat ws) /\ n = N)).
    Proof.
      intros L H. revert ch L. induction H as [|w x ws ys Hx H IH]; intros ch L.
      - destruct ch as [|c [|d ch]]; cbn in L; try lia. split; [constructor|]. intros ? ? [].
      - destruct ch as [|c [|d ch]]; cbn in L; try lia. destruct (IH (d :: ch)) as [IH1 IH2]; [cbn; lia|]. cbn [chain_of map]. split.
        + constructor; [|exact IH1]. rewrite chars_string, Hx. cbn. now rewrite repeat_length.
        + intros e n I. unfold letter_sizes in I. cbn [combine flat_map fst snd] in I. apply in_app_or in I as [I|I].
          * rewrite chars_string, Hx in I. cbn in I. destruct I as [[= <- <-]|[[= <- <-]|I]]; [left; split; [now left|reflexivity]|left; split; [right; now left|reflexivity]|].
            right. split; [cbn; apply in_or_app; left; now apply in_combine_l in I|]. apply in_combine_r in I. now apply repeat_spec in I.
          * destruct (IH2 e n I) as [[J ->]|[J ->]]; [left; split; [now right|reflexivity]|]. right. split; [|reflexivity]. cbn. apply in_or_app. now right.
    Qed.
    Lemma chain_letters ch ws c : List.length ch = S (List.length ws) -> ws <> [] ->
      (In c (flat_map chars_of (map string_of_list_ascii (chain_of ch ws))) <-> In c ch \/ In c (List.concat ws)).
    Proof.
      revert ch. induction ws as [|w ws IH]; intros ch L Nn; [contradiction|]. destruct ch as [|x [|y ch]]; cbn in L; try lia.
      cbn [chain_of map flat_map List.concat]. rewrite chars_string, !in_app_iff. destruct ws as [|w' ws].
      - destruct ch; cbn in L; try lia. cbn. tauto.
      - rewrite (IH (y :: ch)) by (cbn in *; try lia; discriminate). cbn [In]. tauto.
    Qed.

    Lemma size_found l c n : In (c, n) l -> (forall n', In (c, n') l -> n' = n) -> size_of l c = n.
    Proof.
      intros I U. unfold size_of. destruct (find _ l) as [[d k]|] eqn:E.
      - apply find_some in E as [J E]. apply Ascii.eqb_eq in E. cbn in E. subst d. cbn. now apply U.
      - apply (find_none _ _ E) in I. cbn in I. now rewrite Ascii.eqb_refl in I.
    Qed.
    Lemma sizes_all ss (ys : list (array F)) c : Forall2 (fun s x => List.length (chars_of s) = List.length (shape x)) ss ys ->
      In c (flat_map chars_of ss) -> exists n, In (c, n) (letter_sizes F ss ys).
    Proof.
      induction 1 as [|s x ss ys L H IH]; [intros []|]. cbn [flat_map]. intros I. unfold letter_sizes. cbn [combine flat_map fst snd].
      apply in_app_or in I as [I|I].
      - assert (X : exists n, In (c, n) (combine (chars_of s) (shape x))).
        { clear - I L. revert I L. generalize (chars_of s) (shape x). induction l as [|d l IH]; intros [|n k] I L; cbn in *; try contradiction; try lia.
          destruct I as [->|I]; [exists n; now left|]. destruct (IH k I) as [m J]; [lia|]. exists m. now right. }
        destruct X as [n X]. exists n. apply in_or_app. now left.
      - destruct (IH I) as [n X]. exists n. apply in_or_app. now right.
    Qed.

    Lemma chain_len : List.length chain = S (List.length vs).
    Proof. unfold chain. cbn. rewrite app_length. cbn. lia. Qed.
    Lemma vs_some : vs <> []. Proof. intros E. rewrite E in Lv. discriminate. Qed.
    Lemma chain_not_mode c : In c chain -> ~ In c (List.concat vs).
    Proof. intros I J. apply Mv in J. revert I J. clear - Nd. revert Nd. generalize chain as ch.
      induction ch as [|d l IH]; cbn in *; [tauto|]. intros Nd' I J. inversion Nd' as [|? ? X Y]; subst.
      destruct I as [->|I]; [apply X; apply in_or_app; now right|]. now apply IH. Qed.
    Lemma nodup_split {X} (l l' : list X) : NoDup (l ++ l') -> NoDup l /\ NoDup l' /\ forall x, In x l -> ~ In x l'.
    Proof.
      induction l as [|x l IH]; cbn; intros H; [repeat split; [constructor|exact H|tauto]|]. inversion H as [|? ? X1 X2]; subst. destruct (IH X2) as (A1 & A2 & A3).
      split; [constructor; [intros I; apply X1, in_or_app; now left|exact A1]|]. split; [exact A2|]. intros y [<-|I]; [intros J; apply X1, in_or_app; now right|now apply A3].
    Qed.

    Theorem chain_accepts : einsum_accepts F ins out xs.
    Proof.
      destruct (chain_sizes chain vs xs chain_len Fx) as [S1 S2]. split; [exact S1|]. split; [|split].
      - intros c a b I J. destruct (S2 c a I) as [[I1 ->]|[I1 ->]], (S2 c b J) as [[J1 ->]|[J1 ->]]; try reflexivity; now destruct (chain_not_mode c).
      - unfold out. rewrite chars_string. destruct (nodup_split _ _ Nd) as (N1 & N2 & N3). destruct (nodup_split _ _ N2) as (_ & N4 & _).
        unfold chain in N1. inversion N1 as [|? ? X Y]; subst. destruct (nodup_split _ _ Y) as (_ & _ & _).
        constructor; [|constructor; [|exact N4]].
        + intros [E|I]; [apply X; rewrite E; apply in_or_app; right; now left|]. apply (N3 first); [now left|]. apply in_or_app. now right.
        + intros I. apply (N3 lst); [right; apply in_or_app; right; now left|]. apply in_or_app. now right.
      - intros c I. unfold out in I. rewrite chars_string in I. apply (chain_letters chain vs c chain_len vs_some).
        destruct I as [<-|[<-|I]]; [left; now left|left; right; apply in_or_app; right; now left|]. right. apply Mv, in_or_app. now right.
    Qed.

    Lemma chain_size c : (In c chain -> size_of (letter_sizes F ins xs) c = A) /\ (In c (sm ++ outm) -> size_of (letter_sizes F ins xs) c = N).
    Proof.
      destruct (chain_sizes chain vs xs chain_len Fx) as [S1 S2]. split; intros I.
      - destruct (sizes_all ins xs c S1) as [n J]; [apply (chain_letters chain vs c chain_len vs_some); now left|]. assert (n = A) as -> by (destruct (S2 c n J) as [[_ E]|[E _]]; [exact E|now destruct (chain_not_mode c I)]); apply size_found; [exact J|]; intros n' J';
         destruct (S2 c n' J') as [[_ E]|[E _]]; [exact E|now destruct (chain_not_mode c I)].
      - apply Mv in I. destruct (sizes_all ins xs c S1) as [n J]; [apply (chain_letters chain vs c chain_len vs_some); now right|].
        assert (n = N) as -> by (destruct (S2 c n J) as [[E _]|[_ E]]; [now destruct (chain_not_mode c E)|exact E]). apply size_found; [exact J|]. intros n' J'.
        destruct (S2 c n' J') as [[E _]|[_ E]]; [now destruct (chain_not_mode c E)|exact E].
    Qed.

    Theorem chain_shape : shape (einsum_array F ins out xs) = A :: A :: repeat N (List.length outm).
    Proof.
      cbn [shape einsum_array]. unfold out. rewrite chars_string. cbn [map]. f_equal; [apply chain_size; now left|]. f_equal; [apply chain_size; right; apply in_or_app; right; now left|].
      assert (H : forall c, In c outm -> size_of (letter_sizes F ins xs) c = N) by (intros c I; apply chain_size, in_or_app; now right).
      clear - H. induction outm as [|c l IH]; [reflexivity|]. cbn [map List.length repeat]. f_equal; [apply H; now left|]. apply IH. intros d I. apply H. now right.
    Qed.

    Lemma chain_summed : Permutation (summed_letters ins out) (sm ++ mid).
    Proof.
      destruct (nodup_split _ _ Nd) as (N1 & N2 & N3). destruct (nodup_split _ _ N2) as (N4 & N5 & N6).
      unfold chain in N1. inversion N1 as [|? ? X Y]; subst. destruct (nodup_split _ _ Y) as (N7 & _ & N8).
      assert (Q : NoDup (sm ++ mid)).
      { clear - N4 N7 N3. revert N4 N3. unfold chain. induction sm as [|c l IH]; intros N4 N3; cbn; [exact N7|]. inversion N4 as [|? ? X1 X2]; subst. constructor.
        - intros I. apply in_app_or in I as [I|I]; [contradiction|]. apply (N3 c); [right; apply in_or_app; now left|]. now left.
        - apply IH; [exact X2|]. intros x I J. apply (N3 x I). now right. }
      apply NoDup_Permutation; [apply NoDup_nodup|exact Q|]. intros c. unfold summed_letters. rewrite nodup_In, filter_In, in_app_iff.
      unfold ins. rewrite (chain_letters chain vs c chain_len vs_some). unfold out. rewrite chars_string, negb_true_iff.
      assert (Z : existsb (Ascii.eqb c) (first :: lst :: outm) = false <-> ~ In c (first :: lst :: outm)).
      { rewrite <- not_true_iff_false, existsb_exists. split.
        - intros H I. apply H. exists c. split; [exact I|apply Ascii.eqb_refl].
        - intros H (d & I & E). apply Ascii.eqb_eq in E. subst d. contradiction. }
      rewrite Z, Mv, in_app_iff. unfold chain. cbn [In]. rewrite in_app_iff. cbn [In]. split.
      - intros [H Q']. tauto.
      - intros [I|I].
        + split; [tauto|]. intros [<-|[<-|J]]; [apply (N3 first); [now left|apply in_or_app; now left]|apply (N3 lst); [right; apply in_or_app; right; now left|apply in_or_app; now left]|].
          now apply (N6 c).
        + split; [tauto|]. intros [<-|[<-|J]]; [apply X, in_or_app; now left|apply (N8 lst I); now left|].
          apply (N3 c); [right; apply in_or_app; now left|apply in_or_app; now right].
    Qed.

    Theorem chain_einsum a b is : b < A -> List.length is = List.length outm ->
      einsum_entry F ins out xs (a :: b :: is) =
      sum_letters F (fun _ => N) sm (with_values outm is (fun _ => O)) (fun rho => mprod F A (modes_of vs xs rho) a b).
    Proof.
      intros Lb Li. unfold einsum_entry. unfold out at 2. rewrite chars_string.
      destruct (nodup_split _ _ Nd) as (N1 & N2 & N3). destruct (nodup_split _ _ N2) as (N4 & N5 & N6).
      set (f := fun rho => kprod _). assert (R : respects f).
      { intros r r' E. unfold f. f_equal. apply map_ext. intros [s x]. cbn. f_equal. now apply map_ext. }
      rewrite (letters_perm _ _ _ _ f R (NoDup_nodup _ _) chain_summed). rewrite letters_app.
      set (base := with_values (first :: lst :: outm) (a :: b :: is) (fun _ => O)).
      assert (Fl : first <> lst) by (unfold chain in N1; inversion N1 as [|? ? X Y]; subst; intros E; apply X; rewrite E; apply in_or_app; right; now left).
      assert (B1 : base first = a) by (unfold base; cbn; apply with_value_same).
      assert (B2 : base lst = b) by (unfold base; cbn; rewrite with_value_other by congruence; apply with_value_same).
      rewrite (letters_sizes _ (fun _ => N)) by (intros c I; apply chain_size, in_or_app; now left).
      rewrite (letters_ext _ sm base _ (fun r => mprod F A (modes_of vs xs r) a b)).
      - apply (letters_agree _ (sm ++ outm)).
        + intros r r' E. assert (El : modes_of vs xs r = modes_of vs xs r'); [|now rewrite El]. unfold modes_of. apply map_ext_in. intros [v x] I. cbn. f_equal.
          apply map_ext_in. intros c J. apply E, Mv. apply in_concat. exists v. split; [now apply in_combine_l in I|exact J].
        + intros c I. unfold base. cbn. assert (c <> first) by (intros ->; apply (N3 first); [now left|exact I]).
          assert (c <> lst) by (intros ->; apply (N3 lst); [right; apply in_or_app; right; now left|exact I]). now rewrite !with_value_other.
      - intros r Rr. assert (R1 : r first = a) by (rewrite Rr; [exact B1|]; intros I; apply (N3 first); [now left|apply in_or_app; now left]).
        assert (R2 : r lst = b) by (rewrite Rr; [exact B2|]; intros I; apply (N3 lst); [right; apply in_or_app; right; now left|apply in_or_app; now left]).
        transitivity (sum_letters F (size_of (letter_sizes F ins xs)) mid r (chain_entry (chain_of (first :: mid ++ [lst]) vs) xs)).
        + apply letters_ext. intros r' _. unfold f, chain_entry, ins. f_equal. fold chain. clear. generalize (chain_of chain vs) as l. intros l. revert xs.
          induction l as [|s l IH]; intros [|x xs']; cbn; try reflexivity. rewrite chars_string. f_equal. apply IH.
        + rewrite chain_value.
          * now rewrite R1, R2.
          * exact N1.
          * exact Lv.
          * rewrite <- Lv. symmetry. clear - Fx. induction Fx as [|? ? ? ? ? ? IH]; cbn; [reflexivity|now rewrite IH].
          * intros c I. apply chain_size. right. apply in_or_app. now left.
          * intros v c I J X. apply (chain_not_mode c X). apply in_concat. eauto.
          * rewrite R2. exact Lb.
    Qed.
  End Chain.
End Sums.
