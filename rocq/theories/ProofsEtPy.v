(** Proofs about the calls generated for one term of the e^T ansatz. *)
From Coq Require Import Lia.
From Verif Require Import PyBase PyBaseFacts ModelHelper ModelW ModelFullCC ModelFullCCPy ModelZhz ModelEt ModelEtPy
  SpecFullCCPy SpecEt SpecEtPy ProofsW ProofsStr ProofsFullCCLabels ProofsResidual ProofsZhzLatex ProofsEt.
Local Open Scope nat_scope.
Local Open Scope list_scope.

Notation UL := (chars unlinked_indices).

Lemma sslice_slice a n s : sslice a (a + n) s = of_chars (slice (chars s) a n).
Proof. rewrite <- chars_sslice, of_chars_chars. reflexivity. Qed.
Lemma sslice_none a s : sslice a (a + 0) s = ""%string.
Proof. rewrite sslice_slice. reflexivity. Qed.
Lemma of_chars_nil l : of_chars l = ""%string -> l = [].
Proof. destruct l; [reflexivity|discriminate]. Qed.
Lemma nul_l s : (""%string +++ s) = s.
Proof. reflexivity. Qed.

(** ** Subscripts *)
Lemma t_labels_z o : eT_t_labels t_with_z o
  = (of_chars (slice SL (eo_sum o) 1), ""%string,
     mkeo (eo_sum o + 1) (eo_unl o) (eo_upper_h o) (eo_lower_h o)
       (eo_upper_z o +++ of_chars (slice SL (eo_sum o) 1)) (eo_lower_z o)).
Proof.
  unfold eT_t_labels, eT_t_lower_labels, eT_t_upper_labels, t_with_z. cbn [et_n et_m et_n_h et_n_r et_n_lhs Nat.ltb Nat.leb].
  rewrite !sslice_slice. rewrite !slice_0, !Nat.add_0_r, !Nat.add_0_l. cbn [of_chars]. rewrite !append_nil_r, !nul_l. reflexivity.
Qed.
Lemma t_labels_h o : eT_t_labels t_with_h o
  = (of_chars (slice SL (eo_sum o) 1), ""%string,
     mkeo (eo_sum o + 1) (eo_unl o) (eo_upper_h o +++ of_chars (slice SL (eo_sum o) 1)) (eo_lower_h o)
       (eo_upper_z o) (eo_lower_z o)).
Proof.
  unfold eT_t_labels, eT_t_lower_labels, eT_t_upper_labels, t_with_h. cbn [et_n et_m et_n_h et_n_r et_n_lhs Nat.ltb Nat.leb].
  rewrite !sslice_slice. rewrite !slice_0, !Nat.add_0_r. cbn [of_chars]. rewrite !append_nil_r. reflexivity.
Qed.

Definition single (x : ascii) : string := of_chars [x].

Lemma slice_one k n : k + S n <= 10 -> exists c, slice SL k (S n) = c :: slice SL (S k) n /\ slice SL k 1 = [c].
Proof.
  intros Hk. assert (L : List.length (slice SL k 1) = 1) by (apply slice_length; change (List.length SL) with 10; lia).
  destruct (slice SL k 1) as [|c [|]] eqn:E; try discriminate. exists c. split; [|reflexivity].
  change (S n) with (1 + n). rewrite <- slice_app, E. now rewrite Nat.add_1_r.
Qed.

Lemma group_z x : forall r o, eo_sum o + x <= 10 ->
  eT_t_group (repeat t_with_z x ++ r) o =
  let '(l, o') := eT_t_group r (mkeo (eo_sum o + x) (eo_unl o) (eo_upper_h o) (eo_lower_h o)
                     (eo_upper_z o +++ of_chars (slice SL (eo_sum o) x)) (eo_lower_z o)) in
  (map (fun c => (single c, ""%string)) (slice SL (eo_sum o) x) ++ l, o').
Proof.
  induction x as [|x IH]; intros r o Hx.
  - rewrite slice_0. cbn [repeat app of_chars map]. rewrite append_nil_r, Nat.add_0_r. destruct o. cbn. now destruct (eT_t_group r _).
  - cbn [repeat app eT_t_group]. rewrite t_labels_z. destruct (slice_one (eo_sum o) x Hx) as (c & E1 & E2).
    rewrite IH by (cbn [eo_sum]; lia). cbn [eo_sum eo_unl eo_upper_h eo_lower_h eo_upper_z eo_lower_z].
    rewrite E1, E2. replace (eo_sum o + 1 + x) with (eo_sum o + S x) by lia. replace (eo_sum o + 1) with (S (eo_sum o)) by lia.
    change (of_chars (c :: slice SL (S (eo_sum o)) x)) with ((of_chars [c] +++ of_chars (slice SL (S (eo_sum o)) x))).
    rewrite append_assoc. destruct (eT_t_group r _) as [l o']. reflexivity.
Qed.
Lemma group_h y : forall r o, eo_sum o + y <= 10 ->
  eT_t_group (repeat t_with_h y ++ r) o =
  let '(l, o') := eT_t_group r (mkeo (eo_sum o + y) (eo_unl o) (eo_upper_h o +++ of_chars (slice SL (eo_sum o) y)) (eo_lower_h o)
                     (eo_upper_z o) (eo_lower_z o)) in
  (map (fun c => (single c, ""%string)) (slice SL (eo_sum o) y) ++ l, o').
Proof.
  induction y as [|x IH]; intros r o Hx.
  - rewrite slice_0. cbn [repeat app of_chars map]. rewrite append_nil_r, Nat.add_0_r. destruct o. cbn. now destruct (eT_t_group r _).
  - cbn [repeat app eT_t_group]. rewrite t_labels_h. destruct (slice_one (eo_sum o) x Hx) as (c & E1 & E2).
    rewrite IH by (cbn [eo_sum]; lia). cbn [eo_sum eo_unl eo_upper_h eo_lower_h eo_upper_z eo_lower_z].
    rewrite E1, E2. replace (eo_sum o + 1 + x) with (eo_sum o + S x) by lia. replace (eo_sum o + 1) with (S (eo_sum o)) by lia.
    change (of_chars (c :: slice SL (S (eo_sum o)) x)) with ((of_chars [c] +++ of_chars (slice SL (S (eo_sum o)) x))).
    rewrite append_assoc. destruct (eT_t_group r _) as [l o']. reflexivity.
Qed.

Lemma dedup_same {A} (eqb : A -> A -> bool) a n : eqb a a = true -> dedup eqb (repeat a (S n)) = [a].
Proof.
  intros R. induction n as [|n IH]; [reflexivity|]. change (repeat a (S (S n))) with (a :: repeat a (S n)). cbn [dedup].
  cbn [repeat existsb] in *. rewrite R. cbn [orb]. exact IH.
Qed.
Lemma dedup_two {A} (eqb : A -> A -> bool) a b x y : eqb a a = true -> eqb b b = true -> eqb a b = false ->
  dedup eqb (repeat a (S x) ++ repeat b (S y)) = [a; b].
Proof.
  intros Ra Rb Rab. induction x as [|x IH].
  - change (repeat a 1 ++ repeat b (S y)) with (a :: repeat b (S y)). cbn [dedup]. rewrite dedup_same by exact Rb.
    change (repeat b (S y)) with (b :: repeat b y).
    replace (existsb (eqb a) (b :: repeat b y)) with false; [reflexivity|]. symmetry.
    destruct (existsb (eqb a) (b :: repeat b y)) eqn:E; [|reflexivity]. apply existsb_exists in E as (z & I & Ez).
    change (b :: repeat b y) with (repeat b (S y)) in I. apply repeat_spec in I. congruence.
  - change (repeat a (S (S x))) with (a :: repeat a (S x)). cbn [app dedup].
    replace (existsb (eqb a) (repeat a (S x) ++ repeat b (S y))) with true; [exact IH|].
    cbn [repeat app existsb]. now rewrite Ra.
Qed.

Lemma match_0 {A} q (a b : A) : q = 0 -> match q with 0 => a | S _ => b end = a.
Proof. now intros ->. Qed.
Lemma match_S {A} q (a b : A) : 1 <= q -> match q with 0 => a | S _ => b end = b.
Proof. destruct q; [lia|reflexivity]. Qed.

Lemma nodup_prefixes {A} (a b c : list A) i j : NoDup (a ++ b ++ c) -> NoDup (a ++ firstn i b ++ firstn j c).
Proof.
  intros N. assert (G : forall (u v w : list A) i, NoDup (u ++ v ++ w) -> NoDup (u ++ firstn i v ++ w)).
  { intros u v w i0 H. rewrite <- (firstn_skipn i0 v) in H. rewrite <- app_assoc in H.
    induction (skipn i0 v) as [|z l IH]; [exact H|]. apply IH. cbn [app] in H. rewrite app_assoc in H. apply NoDup_remove_1 in H.
    now rewrite <- app_assoc in H. }
  apply (G a b _ i). rewrite app_assoc, <- (app_nil_r (firstn j c)). apply G. now rewrite app_nil_r, <- app_assoc.
Qed.

Section OneTerm.
  Variables (P q m n k : nat) (c : contraction).
  Hypothesis C : complete P q m n k c.
  Hypothesis L1 : q + n <= 10.
  Hypothesis L2 : P <= 8.
  Notation x := (list_sum (e_zt c)).
  Notation y := (list_sum (e_ht c)).

  Definition tz := slice SL 0 x.
  Definition th := slice SL x y.
  Definition hz := slice SL q n.
  Definition eh := slice UL 0 (e_hp c).
  Definition ez := slice UL (e_hp c) (e_zp c).

  Lemma sums : x + y = q.
  Proof. destruct C as (_ & _ & C3 & C4 & C5 & _). apply (sum_bits _ _ _ C3 C4 C5). Qed.
  Lemma counts : e_zp c + e_hp c = P /\ e_zh c = n /\ e_zp c + n + x = k /\ e_hp c + y = m.
  Proof. clear L1 L2. destruct C as (C1 & C2 & _ & _ & _ & C6 & C7). lia. Qed.

  Definition h_group := of_chars (th ++ hz ++ eh).
  Definition z_group := of_chars (tz ++ hz ++ ez).

  Lemma group_offsets : 1 <= q ->
    eT_t_group (tt_ts (written P q m n k c)) no_offsets
    = (map (fun c => (single c, ""%string)) (tz ++ th), mkeo q 0 (of_chars th) "" (of_chars tz) "").
  Proof.
    intros Hq. pose proof sums as S0. unfold written. cbn [tt_ts]. rewrite !match_S by lia.
    unfold no_offsets. rewrite group_z by (cbn [eo_sum]; lia). cbn [eo_sum eo_unl eo_upper_h eo_lower_h eo_upper_z eo_lower_z].
    rewrite <- (app_nil_r (repeat t_with_h y)), group_h by (cbn [eo_sum]; lia). cbn [eo_sum eo_unl eo_upper_h eo_lower_h eo_upper_z eo_lower_z].
    cbn [eT_t_group]. rewrite app_nil_r, <- map_app, !Nat.add_0_l, S0, !nul_l. reflexivity.
  Qed.
  Lemma group_offsets_0 : q = 0 ->
    eT_t_group (tt_ts (written P q m n k c)) no_offsets
    = ([(""%string, ""%string)], mkeo q 0 (of_chars th) "" (of_chars tz) "").
  Proof.
    intros Hq. pose proof sums as S0. unfold written, tz, th. cbn [tt_ts]. assert (x = 0) as -> by lia. assert (y = 0) as -> by lia.
    rewrite Hq. reflexivity.
  Qed.

  Lemma labels o : o = mkeo q 0 (of_chars th) "" (of_chars tz) "" ->
    (do hl <- eT_h_labels (tt_h (written P q m n k c)) o;
     let '(hs, hu, o') := hl in
     do zl <- eT_z_labels (tt_z (written P q m n k c)) o';
     let '(zs, zu) := zl in Ok (hs, hu, zs, zu))
    = Ok (of_chars (th ++ hz), of_chars eh, of_chars (tz ++ hz), of_chars ez).
  Proof.
    intros ->. destruct counts as (K1 & K2 & K3 & K4).
    unfold eT_h_labels, written. cbn [tt_h tt_z eh_rank eh_m eh_n eh_m_lhs eh_n_lhs eh_m_r eh_n_r].
    rewrite K2. cbn [eo_sum eo_unl eo_upper_h eo_lower_h eo_upper_z eo_lower_z].
    assert (G : forall o', o' = mkeo (q + n) (e_hp c) (of_chars th) "" (of_chars (tz ++ hz)) "" ->
      eT_z_labels (tt_z (written P q m n k c)) o' = Ok (of_chars (tz ++ hz), of_chars ez)).
    { intros o' ->. unfold eT_z_labels, written. cbn [tt_h tt_z ez_rank ez_m ez_n ez_m_lhs ez_n_lhs eo_upper_z eo_lower_z eo_unl].
      rewrite append_nil_r. change (Nat.ltb 0 0) with false. cbn iota.
      destruct (Nat.eqb_spec k 0) as [Hk|Hk].
      - unfold tz, hz, ez. assert (x = 0) as -> by lia. assert (n = 0) as -> by lia. assert (e_zp c = 0) as -> by lia.
        rewrite !slice_0. reflexivity.
      - replace (Nat.ltb 0 k) with true by (symmetry; apply Nat.ltb_lt; lia). rewrite sslice_slice, append_nil_r. reflexivity. }
    destruct (Nat.eqb_spec (m + n) 0) as [Hr|Hr].
    - assert (Eth : th = []) by (unfold th; replace y with 0 by lia; reflexivity).
      assert (Ehz : hz = []) by (unfold hz; replace n with 0 by lia; reflexivity).
      assert (Eeh : eh = []) by (unfold eh; replace (e_hp c) with 0 by lia; reflexivity).
      rewrite append_nil_r. cbn [append].
      specialize (G (mkeo q 0 (of_chars th) "" (of_chars tz) "")). unfold written in G. cbn [tt_z] in G. rewrite K2 in G.
      rewrite Eth, Ehz, Eeh in *. cbn [of_chars String.eqb bind app] in *. rewrite G; [reflexivity|].
      rewrite app_nil_r. f_equal; lia.
    - rewrite append_nil_r.
      assert (E1 : (if Nat.ltb 0 m
        then ((of_chars th +++ sslice q (q + 0) summation_indices), sslice 0 (0 + e_hp c) unlinked_indices,
              mkeo (q + 0) (0 + e_hp c) (of_chars th) "" (of_chars tz) ("" +++ sslice q (q + 0) summation_indices))
        else (of_chars th, "", mkeo q 0 (of_chars th) "" (of_chars tz) ""))
        = (of_chars th, of_chars eh, mkeo q (e_hp c) (of_chars th) "" (of_chars tz) "")).
      { destruct (Nat.ltb_spec 0 m) as [Hm|Hm].
        - rewrite sslice_none, sslice_slice, !append_nil_r, Nat.add_0_r. reflexivity.
        - unfold eh. replace (e_hp c) with 0 by lia. reflexivity. }
      rewrite E1. cbn [eo_sum eo_unl eo_upper_h eo_lower_h eo_upper_z eo_lower_z].
      assert (E2 : (if Nat.ltb 0 n
        then ((of_chars th +++ sslice q (q + n) summation_indices), (of_chars eh +++ sslice (e_hp c) (e_hp c + 0) unlinked_indices),
              mkeo (q + n) (e_hp c + 0) (of_chars th) "" (of_chars tz +++ sslice q (q + n) summation_indices) "")
        else (of_chars th, of_chars eh, mkeo q (e_hp c) (of_chars th) "" (of_chars tz) ""))
        = (of_chars (th ++ hz), of_chars eh, mkeo (q + n) (e_hp c) (of_chars th) "" (of_chars (tz ++ hz)) "")).
      { destruct (Nat.ltb_spec 0 n) as [Hn|Hn].
        - rewrite sslice_none, sslice_slice, !append_nil_r, Nat.add_0_r, !of_chars_app. reflexivity.
        - unfold hz. replace n with 0 by lia. rewrite slice_0, !app_nil_r, Nat.add_0_r. reflexivity. }
      rewrite E2. cbn [bind]. specialize (G _ eq_refl). unfold written in G. cbn [tt_z] in G. rewrite K2 in G. rewrite G. reflexivity.
  Qed.

  Lemma components :
    eT_vibrational_components (tt_ts (written P q m n k c)) (tt_h (written P q m n k c)) (tt_z (written P q m n k c))
    = Ok (match q with 0 => [""%string] | _ => map single (tz ++ th) end ++ [h_group; z_group], of_chars (eh ++ ez)).
  Proof.
    unfold eT_vibrational_components.
    assert (E : eT_t_group (tt_ts (written P q m n k c)) no_offsets
      = (match q with 0 => [(""%string, ""%string)] | _ => map (fun c => (single c, ""%string)) (tz ++ th) end,
         mkeo q 0 (of_chars th) "" (of_chars tz) "")).
    { destruct (Nat.eq_dec q 0) as [Eq|Eq]; [rewrite match_0 by exact Eq; now apply group_offsets_0|].
      rewrite match_S by lia. apply group_offsets. lia. }
    rewrite E. pose proof (labels _ eq_refl) as L.
    destruct (eT_h_labels (tt_h (written P q m n k c)) (mkeo q 0 (of_chars th) "" (of_chars tz) "")) as [[[hs hu] o']|]; [|discriminate].
    cbn [bind] in *. destruct (eT_z_labels (tt_z (written P q m n k c)) o') as [[zs zu]|]; [|discriminate].
    cbn [bind] in *. injection L as -> -> -> ->. unfold h_group, z_group. rewrite !(app_assoc _ _ eh), !(app_assoc _ _ ez), !(of_chars_app (th ++ hz)), !(of_chars_app (tz ++ hz)). f_equal. f_equal.
    - f_equal. destruct q; [reflexivity|]. rewrite map_map. apply map_ext. intros a. apply append_nil_r.
    - rewrite concat_str_app. unfold concat_str at 2. cbn [String.concat]. cbn [fold_right]. rewrite append_nil_r, of_chars_app.
      assert (G : forall (f : ascii -> string) l, concat_str (map snd (map (fun c => (f c, ""%string)) l)) = ""%string).
      { intros f l. induction l as [|a l IH]; [reflexivity|]. exact IH. }
      destruct q; [reflexivity|]. rewrite G. reflexivity.
  Qed.

  Variable s : side.

  Definition groups : list (string * operand) :=
    map (fun l => (of_chars [l], t_of_side s)) (tz ++ th)
    ++ h_of_side s m n (th ++ hz ++ eh) ++ [z_of_side s m n k (tz ++ hz ++ ez)].
  Definition the_call : ecall :=
    mkecall (map fst groups) (of_chars (result_letter s :: eh ++ ez)) (map snd groups).

  Lemma hz_operands : map snd (h_of_side s m n (th ++ hz ++ eh) ++ [z_of_side s m n k (tz ++ hz ++ ez)])
    = eT_h_operand s (tt_h (written P q m n k c)) ++ [eT_z_operand s (tt_h (written P q m n k c)) (tt_z (written P q m n k c))].
  Proof. unfold written. destruct s; [destruct m, n|]; reflexivity. Qed.

  (** H (or dT) has a group without letters only if it is left out *)
  Lemma h_group_empty : s = LHS -> (h_group = ""%string <-> m = 0 /\ n = 0).
  Proof.
    intros Hs. destruct counts as (K1 & K2 & K3 & K4). pose proof sums as S0. unfold h_group. split.
    - intros E. apply of_chars_nil in E. apply app_eq_nil in E as [E1 E]. apply app_eq_nil in E as [E2 E3].
      apply (f_equal (@List.length _)) in E1, E2, E3. unfold th, hz, eh in *.
      rewrite slice_length in E1 by (change (List.length SL) with 10; lia).
      rewrite slice_length in E2 by (change (List.length SL) with 10; lia).
      rewrite slice_length in E3 by (change (List.length UL) with 8; lia). cbn in *. lia.
    - intros [Em En]. unfold th, hz, eh. replace y with 0 by lia. replace (e_hp c) with 0 by lia. rewrite En. reflexivity.
  Qed.

  Lemma z_group_text : fst (z_of_side s m n k (tz ++ hz ++ ez)) = ("c" +++ z_group)%string.
  Proof. reflexivity. Qed.

  Lemma pruned_groups (pre : list string) : (forall g, In g pre -> g <> ""%string) ->
    filter (fun g => negb (String.eqb g "")) (pre ++ [((match s with RHS => "ac" | LHS => "" end) +++ h_group); ("c" +++ z_group)]%string)
    = pre ++ map fst (h_of_side s m n (th ++ hz ++ eh) ++ [z_of_side s m n k (tz ++ hz ++ ez)]).
  Proof.
    intros F. rewrite filter_app. f_equal.
    - induction pre as [|g pre IH]; [reflexivity|]. cbn [filter]. destruct (String.eqb_spec g "") as [E|E].
      + exfalso. apply (F g); [now left|exact E].
      + cbn [negb]. f_equal. apply IH. intros; apply F; now right.
    - destruct s eqn:Es.
      + pose proof (h_group_empty Es) as H. cbn [filter append]. destruct (String.eqb_spec h_group "") as [E|E].
        * apply H in E as [-> ->]. reflexivity.
        * cbn [negb]. unfold h_of_side. rewrite map_app. destruct m; [destruct n|]; [|reflexivity..]. exfalso. apply E. now apply H.
      + reflexivity.
  Qed.

  Lemma combined_groups :
    map (fun ev : string * string => (fst ev +++ snd ev)%string)
      (combine (eT_electronic_components s (tt_ts (written P q m n k c)))
        (match q with 0 => [""%string] | _ => map single (tz ++ th) end ++ [h_group; z_group]))
    = match q with 0 => [""%string] | _ => map single (tz ++ th) end
      ++ [((match s with RHS => "ac" | LHS => "" end) +++ h_group); ("c" +++ z_group)]%string.
  Proof.
    unfold eT_electronic_components. pose proof sums as S0.
    assert (G : forall (l : list string) r r', List.length r = List.length r' ->
      map (fun ev : string * string => (fst ev +++ snd ev)%string) (combine (repeat ""%string (List.length l) ++ r) (l ++ r'))
      = l ++ map (fun ev : string * string => (fst ev +++ snd ev)%string) (combine r r')).
    { intros l r r' _. induction l as [|a l IH]; [reflexivity|]. cbn [repeat List.length app combine map fst snd]. rewrite IH. reflexivity. }
    assert (E : List.length (tt_ts (written P q m n k c)) = List.length (match q with 0 => [""%string] | _ => map single (tz ++ th) end)).
    { unfold written. cbn [tt_ts]. destruct q; [reflexivity|]. rewrite map_length, !app_length, !repeat_length. unfold tz, th.
      rewrite !slice_length; [reflexivity|change (List.length SL) with 10; lia..]. }
    rewrite E, G by reflexivity. destruct s; reflexivity.
  Qed.

  Lemma single_nonempty g l : In g (map single l) -> g <> ""%string.
  Proof. intros H. apply in_map_iff in H as (a & <- & _). discriminate. Qed.

  Lemma perms_some {X} (eqb : X -> X -> bool) l : (forall a b, eqb a b = true <-> a = b) -> l <> [] -> dedup eqb l <> [].
  Proof. intros E H D. destruct l as [|a l]; [easy|]. assert (I : In a (dedup eqb (a :: l))) by (apply in_dedup; [exact E|now left]). rewrite D in I. destruct I. Qed.

  Lemma t_operands : 1 <= q -> map (eT_t_operand s) (tt_ts (written P q m n k c)) = map snd (map (fun l => (of_chars [l], t_of_side s)) (tz ++ th)).
  Proof.
    intros Hq. pose proof sums as S0. unfold written. cbn [tt_ts]. rewrite !match_S by lia.
    rewrite !map_app, !map_repeat, !map_map. cbn [snd].
    assert (G : forall l : list ascii, map (fun _ => t_of_side s) l = repeat (t_of_side s) (List.length l)).
    { induction l as [|a l IH]; [reflexivity|]. cbn [map List.length repeat]. now rewrite IH. }
    rewrite !G. unfold tz, th. rewrite !slice_length by (change (List.length SL) with 10; lia). destruct s; reflexivity.
  Qed.

  Lemma calls_of_term : exists r, 1 <= r /\ (1 <= q -> r = 1) /\ eT_calls s (written P q m n k c) = Ok (repeat the_call r).
  Proof.
    unfold eT_calls. rewrite components. cbn [bind]. rewrite combined_groups.
    pose proof sums as S0.
    destruct (Nat.eq_dec q 0) as [Eq|Eq].
    - assert (Etz : tz = []) by (unfold tz; replace x with 0 by lia; reflexivity).
      assert (Eth : th = []) by (unfold th; replace y with 0 by lia; reflexivity).
      assert (T : tt_ts (written P q m n k c) = [t_bare]) by (unfold written; rewrite Eq; reflexivity). rewrite T, match_0 by exact Eq. cbn [dedup existsb].
      change (et_rank t_bare =? 0) with true. cbn iota.
      assert (Ec : mkecall (filter (fun g => negb (String.eqb g "")) ([""%string] ++ [((match s with RHS => "ac" | LHS => "" end) +++ h_group); ("c" +++ z_group)]%string))
        ((match s with RHS => "a" | LHS => "c" end) +++ of_chars (eh ++ ez))
        (eT_h_operand s (tt_h (written P q m n k c)) ++ [eT_z_operand s (tt_h (written P q m n k c)) (tt_z (written P q m n k c))]) = the_call).
      { unfold the_call. f_equal.
        - change ([""%string] ++ ?l) with (""%string :: l). cbn [filter String.eqb negb].
          pose proof (pruned_groups [] ltac:(easy)) as G. cbn [app] in G. cbn [filter] in G. rewrite G.
          unfold groups. rewrite Etz, Eth. reflexivity.
        - unfold result_letter. destruct s; reflexivity.
        - rewrite <- hz_operands. unfold groups. rewrite Etz, Eth. reflexivity. }
      rewrite Ec. destruct (String.eqb_spec (of_chars (eh ++ ez)) "") as [E|E].
      + exists 1. split; [lia|split; [lia|reflexivity]].
      + exists (nof_permutations (of_chars (eh ++ ez))). split; [|split; [lia|reflexivity]]. unfold nof_permutations.
        assert (H : dedup (list_eqb Ascii.eqb) (perms (chars (of_chars (eh ++ ez)))) <> []).
        { apply perms_some; [apply list_eqb_eq, Ascii.eqb_eq|]. intros H.
          assert (I : In (chars (of_chars (eh ++ ez))) (perms (chars (of_chars (eh ++ ez))))) by (apply in_perms; reflexivity).
          rewrite H in I. destruct I. }
        destruct (dedup _ _); [easy|]. cbn. lia.
    - assert (Hq : 1 <= q) by lia. rewrite match_S by exact Hq.
      exists 1. split; [lia|]. split; [reflexivity|]. cbn [repeat].
      assert (Eo : map (eT_t_operand s) (tt_ts (written P q m n k c)) ++
        (eT_h_operand s (tt_h (written P q m n k c)) ++ [eT_z_operand s (tt_h (written P q m n k c)) (tt_z (written P q m n k c))])
        = map snd groups).
      { unfold groups. rewrite map_app, t_operands by lia. rewrite <- hz_operands. reflexivity. }
      rewrite Eo.
      assert (Ep : filter (fun g => negb (String.eqb g "")) (map single (tz ++ th) ++ [((match s with RHS => "ac" | LHS => "" end) +++ h_group); ("c" +++ z_group)]%string)
        = map fst groups).
      { rewrite pruned_groups by (intros g; apply single_nonempty). unfold groups. rewrite !map_app, !map_map. reflexivity. }
      assert (Eout : ((match s with RHS => "a" | LHS => "c" end) +++ of_chars (eh ++ ez)) = of_chars (result_letter s :: eh ++ ez))
        by (unfold result_letter; destruct s; reflexivity).
      rewrite Eout, Ep.
      assert (T : tt_ts (written P q m n k c) = repeat t_with_z x ++ repeat t_with_h y) by (unfold written; cbn [tt_ts]; now rewrite match_S by exact Hq).
      rewrite T. destruct x as [|x'] eqn:Ex; [|destruct y as [|y'] eqn:Ey].
      + cbn [repeat app]. destruct y as [|y'] eqn:Ey; [lia|]. rewrite dedup_same by reflexivity. reflexivity.
      + cbn [repeat]. rewrite app_nil_r. change (t_with_z :: repeat t_with_z x') with (repeat t_with_z (S x')). rewrite dedup_same by reflexivity. reflexivity.
      + rewrite dedup_two by reflexivity. unfold the_call. do 2 f_equal. rewrite <- Ex, <- Ey in *. rewrite <- Ep. clear - C L1 L2 S0 Ey Eq.
        symmetry. assert (G : forall l : list string, (forall g, In g l -> g <> ""%string) -> filter (fun g => negb (String.eqb g "")) l = l).
        { induction l as [|g l IH]; intros F; [reflexivity|]. cbn [filter]. destruct (String.eqb_spec g "") as [E|E].
          - exfalso. apply (F g); [now left|exact E].
          - cbn [negb]. f_equal. apply IH. intros; apply F; now right. }
        f_equal. apply G. intros g I. apply in_app_iff in I as [I|[<-|[<-|[]]]]; [now apply single_nonempty in I| |discriminate].
        destruct s eqn:Es; [|discriminate]. cbn [append]. intros E. apply (h_group_empty Es) in E. destruct counts as (_ & _ & _ & K4). lia.
  Qed.

  (** ** The prefactor *)
  Lemma prefactor_value :
    build_eT_zhz_python_prefactor (tt_ts (written P q m n k c)) (tt_h (written P q m n k c)) (tt_z (written P q m n k c))
    = Ok (comb m (e_hp c) * (comb k (e_zp c) * comb (k - e_zp c) n * fact n), fact m * fact n * fact k).
  Proof. clear L1 L2.
    destruct counts as (K1 & K2 & K3 & K4). pose proof sums as S0.
    unfold build_eT_zhz_python_prefactor.
    assert (E1 : eT_h_numerator m (e_hp c) 0 = Ok (comb m (e_hp c))).
    { unfold eT_h_numerator, comb_minus. destruct (Nat.ltb_spec 1 m) as [Hm|Hm].
      - destruct (Nat.ltb_spec m (e_hp c)); [lia|]. cbn [bind]. f_equal. replace (comb (m - e_hp c) 0) with 1 by (destruct (m - e_hp c); reflexivity).
        cbn [factor_if]. unfold factor_if. rewrite <- K4. pose proof (comb_nz (e_hp c) y).
        destruct (Nat.ltb_spec 1 (comb (e_hp c + y) (e_hp c))); cbn; lia.
      - f_equal. destruct m as [|[|]]; [|destruct (e_hp c) as [|[|]]; [reflexivity|reflexivity|lia]|lia]. destruct (e_hp c); [reflexivity|lia]. }
    assert (E2 : eT_h_numerator n 0 n = Ok 1).
    { unfold eT_h_numerator, comb_minus. destruct (Nat.ltb_spec 1 n) as [Hn|Hn]; [|reflexivity].
      destruct (Nat.ltb_spec n 0); [lia|]. cbn [bind]. rewrite Nat.sub_0_r, comb_full. replace (comb n 0) with 1 by (destruct n; reflexivity). reflexivity. }
    assert (E3 : eT_z_numerator (tt_z (written P q m n k c)) = Ok (comb k (e_zp c) * comb (k - e_zp c) n * fact n)).
    { unfold eT_z_numerator, written, comb_minus. cbn [tt_z ez_m ez_m_lhs ez_m_h ez_m_t]. rewrite K2.
      assert (Ex : list_sum (match q with 0 => [0] | S _ => e_zt c end) = x).
      { destruct (Nat.eq_dec q 0) as [Eq|Eq]; [rewrite match_0 by exact Eq|rewrite match_S by lia; reflexivity].
        assert (x = 0) by lia. cbn. lia. }
      rewrite Ex. assert (F : factorial_if n = fact n).
      { unfold factorial_if. destruct (Nat.ltb_spec 1 n); [apply factorial_spec|]. destruct n as [|[|]]; [reflexivity|reflexivity|lia]. }
      destruct (Nat.ltb_spec 1 k) as [Hk|Hk].
      - destruct (Nat.ltb_spec k (e_zp c)); [lia|]. destruct (Nat.ltb_spec k (e_zp c + n)); [lia|]. cbn [bind].
        replace (k - (e_zp c + n)) with x by lia. rewrite comb_full. cbn [Nat.eqb]. f_equal. rewrite F. f_equal.
        replace (k - e_zp c) with (n + x) by lia. pose proof (comb_nz n x). pose proof (comb_nz (e_zp c) (n + x)).
        replace (e_zp c + (n + x)) with k in * by lia. unfold factor_if.
        destruct (Nat.ltb_spec 1 (comb k (e_zp c))), (Nat.ltb_spec 1 (comb (n + x) n)); try reflexivity;
          repeat match goal with H : ?v <= 1 |- _ => replace v with 1 by lia; clear H end; lia.
      - f_equal. replace k with (e_zp c + (n + x)) in * by lia. replace (e_zp c + (n + x) - e_zp c) with (n + x) by lia.
        destruct (e_zp c) as [|[|]], n as [|[|]], x as [|[|]]; try lia; reflexivity. }
    change (eh_m (tt_h (written P q m n k c))) with m. change (eh_n (tt_h (written P q m n k c))) with n.
    change (eh_m_lhs (tt_h (written P q m n k c))) with (e_hp c). change (eh_n_lhs (tt_h (written P q m n k c))) with 0.
    change (eh_m_r (tt_h (written P q m n k c))) with 0. change (eh_n_r (tt_h (written P q m n k c))) with (e_zh c).
    rewrite K2, E1, E2. cbn [bind]. rewrite E3. cbn [bind].
    do 2 f_equal.
    - unfold written, eT_z_lower_numerator. cbn. lia.
    - assert (F : forall v, factorial_if v = fact v).
      { intros v. unfold factorial_if. destruct (Nat.ltb_spec 1 v); [apply factorial_spec|]. destruct v as [|[|]]; [reflexivity|reflexivity|lia]. }
      rewrite !F. unfold written. cbn [tt_h tt_z tt_ts eh_m eh_n ez_m ez_n].
      assert (T : product_of (map (fun t => factorial_if (et_m t) * factorial_if (et_n t))
        match q with 0 => [t_bare] | S _ => repeat t_with_z x ++ repeat t_with_h y end) = 1).
      { assert (G : forall l, (forall t, In t l -> factorial_if (et_m t) * factorial_if (et_n t) = 1) ->
          product_of (map (fun t => factorial_if (et_m t) * factorial_if (et_n t)) l) = 1).
        { induction l as [|t l IH]; intros H; [reflexivity|]. unfold product_of in *. cbn [map fold_right]. rewrite H by now left.
          rewrite IH; [reflexivity|]. intros; apply H; now right. }
        apply G. intros t I. destruct q; [destruct I as [<-|[]]; reflexivity|].
        apply in_app_iff in I as [I|I]; apply repeat_spec in I; subst t; reflexivity. }
      rewrite T. change (fact 0) with 1. lia.
  Qed.
  Lemma weight_value :
    comb m (e_hp c) * (comb k (e_zp c) * comb (k - e_zp c) n * fact n) * pair_permutations c = fact m * fact n * fact k.
  Proof. clear L1 L2.
    destruct counts as (K1 & K2 & K3 & K4). unfold pair_permutations. rewrite K2.
    pose proof (comb_fact (e_hp c) y) as F1. rewrite K4 in F1.
    pose proof (comb_fact (e_zp c) (n + x)) as F2. replace (e_zp c + (n + x)) with k in F2 by lia.
    pose proof (comb_fact n x) as F3. replace (k - e_zp c) with (n + x) by lia.
    rewrite <- F1, <- F2, <- F3. ring.
  Qed.
  Lemma fraction_1 a b w : a * w = b -> a <> 0 -> fraction (a, b) = (1, w).
  Proof using. clear.
    intros <- Ha. unfold fraction. cbn [fst snd].
    assert (G : Nat.gcd a (a * w) = a).
    { pose proof (Nat.gcd_mul_mono_l 1 w a) as G. rewrite Nat.mul_1_r in G. rewrite G. replace (Nat.gcd 1 w) with 1 by (symmetry; apply Nat.gcd_1_l). lia. }
    rewrite G. rewrite Nat.div_same by exact Ha. rewrite (Nat.mul_comm a w), Nat.div_mul by exact Ha. reflexivity.
  Qed.
  Lemma numerator_nz : comb m (e_hp c) * (comb k (e_zp c) * comb (k - e_zp c) n * fact n) <> 0.
  Proof. clear L1 L2. intros E. pose proof weight_value as W. rewrite E in W. pose proof (fact_neq_0 m). pose proof (fact_neq_0 n). pose proof (fact_neq_0 k). nia. Qed.

  Definition the_entry : entry := mkentry (Nat.max m n) (match q with 0 => 0 | S _ => 1 end) k (1, pair_permutations c) the_call.

  Lemma entries_of_term Hmax : Nat.max m n <= Hmax ->
    exists r, 1 <= r /\ (1 <= q -> r = 1) /\ eT_entries s Hmax (written P q m n k c) = Ok (repeat the_entry r).
  Proof.
    intros Hm. destruct calls_of_term as (r & R1 & R2 & E). exists r. split; [exact R1|]. split; [exact R2|].
    destruct counts as (K1 & K2 & K3 & K4). unfold eT_entries. rewrite prefactor_value, E. cbn [bind].
    rewrite (fraction_1 _ _ _ weight_value numerator_nz).
    assert (G : list_max (map et_rank (tt_ts (written P q m n k c))) = match q with 0 => 0 | S _ => 1 end).
    { pose proof sums as S0. unfold written. cbn [tt_ts]. destruct (Nat.eq_dec q 0) as [Eq|Eq]; [rewrite !match_0 by exact Eq; reflexivity|].
      rewrite !match_S by lia. rewrite map_app, !map_repeat. cbn [et_rank t_with_z t_with_h].
      rewrite <- repeat_app, S0. replace q with (S (q - 1)) by lia. clear. induction (q - 1) as [|j IH]; [reflexivity|].
      cbn [repeat list_max fold_right] in *. rewrite IH. reflexivity. }
    unfold written in *. cbn [tt_h tt_z tt_ts eh_m_r eh_n_r ez_n_h ez_m_h eh_m eh_n ez_rank] in *. rewrite !Nat.eqb_refl. cbn [Nat.eqb andb negb].
    destruct (Nat.ltb_spec Hmax (Nat.max m n)); [lia|]. rewrite map_repeat, G. reflexivity.
  Qed.

  Lemma letters_distinct : NoDup (electronic s ++ tz ++ th ++ hz ++ eh ++ ez).
  Proof.
    pose proof sums as S0.
    assert (E : electronic s ++ tz ++ th ++ hz ++ eh ++ ez = electronic s ++ firstn (q + n) SL ++ firstn P UL).
    { unfold tz, th, hz, eh, ez. destruct counts as (K1 & _).
      f_equal. rewrite (app_assoc (slice SL x y)), (app_assoc (slice SL 0 x)), (app_assoc (slice SL 0 x)).
      change x with (0 + x) at 2. rewrite slice_app. rewrite S0. change q with (0 + q) at 2. rewrite slice_app.
      f_equal. change (e_hp c) with (0 + e_hp c) at 2. rewrite slice_app. replace (e_hp c + e_zp c) with P by lia. reflexivity. }
    rewrite E. apply nodup_prefixes. clear. destruct s; cbv; repeat constructor; cbn; intuition discriminate.
  Qed.
  Lemma realised : realises_eT s m n k c the_call.
  Proof.
    destruct counts as (K1 & K2 & K3 & K4). pose proof sums as S0. exists tz, th, hz, eh, ez.
    split; [apply slice_length; change (List.length SL) with 10; lia|].
    split; [apply slice_length; change (List.length SL) with 10; lia|].
    split; [rewrite K2; apply slice_length; change (List.length SL) with 10; lia|].
    split; [apply slice_length; change (List.length UL) with 8; lia|].
    split; [apply slice_length; change (List.length UL) with 8; lia|].
    split; [exact letters_distinct|]. cbv zeta. repeat split.
  Qed.
End OneTerm.
