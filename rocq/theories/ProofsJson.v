(** Proofs about the layout of truncation files. *)
From Coq Require Import ZArith.
From Verif Require Import PyBase PyStr PyBaseFacts ModelTrunc SpecTrunc SpecJson ProofsStr ProofsTrunc.
Open Scope list_scope.

Lemma blank_ws c : blank_char c -> is_ws c = true.
Proof. intros [->|[->|[->| ->]]]; reflexivity. Qed.

Lemma blank_no_digit c : blank_char c -> is_digit_char c = false.
Proof. intros [->|[->|[->| ->]]]; reflexivity. Qed.

Lemma lex_idle_blank c : blank_char c -> lex_idle c = Ok ([], LIdle).
Proof. intros H. unfold lex_idle. now rewrite (blank_ws c H). Qed.

Lemma lex_blank b r : blank b -> lex LIdle (b ++ r)%string = lex LIdle r.
Proof.
  unfold blank. induction b as [|c b IH]; intros H; [reflexivity|].
  cbn [list_ascii_of_string] in H. inversion H as [|? ? Hc Hb]; subst.
  cbn [String.append lex]. rewrite (lex_idle_blank c Hc). cbn [bind fst snd]. rewrite (IH Hb).
  now destruct (lex LIdle r).
Qed.

Lemma lex_number z b c r : blank b -> is_digit_char c = false ->
  lex LIdle (str_Z z ++ b ++ String c r)%string
  = bind (lex LIdle (String c r)) (fun rest => Ok (TInt z :: rest)).
Proof.
  intros Hb Hc. destruct b as [|d b].
  - cbn [String.append]. rewrite lex_Z by exact Hc. cbn [lex].
    destruct (lex_idle c) as [ts|]; [|reflexivity]. cbn [bind].
    now destruct (lex (snd ts) r).
  - unfold blank in Hb. cbn [list_ascii_of_string] in Hb. inversion Hb as [|? ? Hd Hb']; subst.
    cbn [String.append]. rewrite lex_Z by exact (blank_no_digit d Hd).
    rewrite (lex_idle_blank d Hd). cbn [bind fst snd app]. rewrite lex_blank by exact Hb'. reflexivity.
Qed.

Lemma published_value k : published k = tkey_value k.
Proof. destruct k; reflexivity. Qed.

Definition named_item (kv : tkey * Z) : string * Z := (tkey_value (fst kv), snd kv).

Lemma lex_member kv s c r : member_layout kv s -> is_digit_char c = false ->
  lex LIdle (s ++ String c r)%string
  = bind (lex LIdle (String c r)) (fun rest => Ok (tokens_of_item (named_item kv) ++ rest)).
Proof.
  intros [b1 [b2 [b3 [b4 [H1 [H2 [H3 [H4 ->]]]]]]]] Hc. rewrite published_value.
  remember (lex LIdle (String c r)) as tail eqn:Htail.
  rewrite !append_assoc. rewrite lex_blank by exact H1.
  unfold double_quote. cbn [String.append lex].
  change (lex_idle (ascii_of_nat 34)) with (Ok ([] : list token, LStr [])). cbn [bind fst snd].
  rewrite lex_str by apply plain_tkey. cbn [rev app]. rewrite of_chars_chars.
  rewrite lex_blank by exact H2. cbn [String.append].
  cbn [lex]. change (lex_idle ":") with (Ok ([TColon], LIdle)). cbn [bind fst snd].
  rewrite lex_blank by exact H3. rewrite lex_number by (exact H4 || exact Hc). rewrite <- Htail.
  destruct tail; reflexivity.
Qed.

Lemma lex_members l m b : members_layout l m -> blank b ->
  lex LIdle (m ++ "}" ++ b)%string = Ok (tokens_of_items (named_items l) ++ [TClose]).
Proof.
  intros H Hb. assert (lex LIdle (String "}" b) = Ok [TClose]) as Hend.
  { cbn [lex]. change (lex_idle "}") with (Ok ([TClose], LIdle)). cbn [bind fst snd].
    rewrite <- (append_nil_r b). rewrite lex_blank by exact Hb. reflexivity. }
  induction H as [kv s Hs|kv s l r Hs Hl IH].
  - cbn [String.append]. rewrite (lex_member kv) by (exact Hs || reflexivity). rewrite Hend. reflexivity.
  - rewrite !append_assoc. cbn [String.append].
    rewrite (lex_member kv) by (exact Hs || reflexivity). cbn [lex].
    change (lex_idle ",") with (Ok ([TComma], LIdle)). cbn [bind fst snd].
    cbn [String.append] in IH. rewrite IH. cbn [bind app].
    assert (l <> []) as Hne by (now inversion Hl). destruct l as [|x l]; [contradiction|].
    reflexivity.
Qed.

Lemma layout_nonempty l m : members_layout l m -> l <> [].
Proof. now intros []. Qed.

Lemma loads_layout l s : is_dict (enum_items l) -> object_layout l s ->
  json_loads s = Ok (map str_item (named_items l)).
Proof.
  intros Hd [b1 [m [b2 [H1 [H2 [Hm ->]]]]]]. unfold json_loads.
  rewrite lex_blank by exact H1. cbn [String.append lex].
  change (lex_idle "{") with (Ok ([TOpen], LIdle)). cbn [bind fst snd].
  pose proof (lex_members l m b2 Hm H2) as E. cbn [String.append] in E. rewrite E. clear E.
  pose proof (layout_nonempty _ _ Hm) as Hne. cbn [bind app].
  destruct l as [|kv l]; [contradiction|].
  assert (exists t ts, tokens_of_items (named_items (kv :: l)) ++ [TClose] = TStr t :: ts) as [t [ts E]].
  { destruct l; cbn; repeat eexists. }
  rewrite E. rewrite <- E. rewrite parse_members_ok; [reflexivity|now apply nodup_named| |discriminate].
  intros x _ [].
Qed.

Lemma layout_loads t l s : is_dict (dictionary_of l) -> exactly_valid t (dictionary_of l) -> object_layout l s ->
  load_trunc_from_JSON s None = Ok (Some (dictionary_of l)).
Proof.
  change (dictionary_of l) with (enum_items l). intros Hd Hv Hs.
  pose proof (exactly_valid_length t _ Hd Hv) as Hlen. destruct Hv as [Ha _].
  cbn [load_trunc_from_JSON]. unfold load_from_JSON. rewrite (loads_layout l s Hd Hs). cbn [bind].
  rewrite to_enum_saved by exact Hd. cbn [bind]. rewrite Hlen, type_of_length. cbn [bind].
  rewrite (proj2 (verify_exact t _ Hd) Ha). reflexivity.
Qed.

(** ** Names that stand there more than once *)

Fixpoint put (m : list (tkey * Z)) (k : tkey) (v : Z) : list (tkey * Z) :=
  match m with
  | [] => [(k, v)]
  | (k', v') :: r => if tkey_eqb k k' then (k', v) :: r else (k', v') :: put r k v
  end.

Definition put_all (m l : list (tkey * Z)) : list (tkey * Z) :=
  fold_left (fun m kv => put m (fst kv) (snd kv)) l m.

Lemma put_named m k v :
  dict_set (map str_item (named_items m)) (DStr (tkey_value k)) v = map str_item (named_items (put m k v)).
Proof.
  induction m as [|[k' v'] m IH]; [reflexivity|]. cbn [named_items map str_item fst snd dict_set put dkey_eqb].
  destruct (tkey_eqb k k') eqn:E.
  - apply tkey_eqb_eq in E as ->. now rewrite String.eqb_refl.
  - destruct (String.eqb (tkey_value k) (tkey_value k')) eqn:E2.
    + apply String.eqb_eq, tkey_value_inj in E2 as ->. assert (tkey_eqb k' k' = true) by now apply tkey_eqb_eq. congruence.
    + cbn [named_items map str_item fst snd]. f_equal. exact IH.
Qed.

Lemma put_keys m k v x : In x (map fst (put m k v)) <-> In x (map fst m) \/ x = k.
Proof.
  induction m as [|[k' v'] m IH]; cbn [put map fst].
  - cbn. intuition.
  - destruct (tkey_eqb k k') eqn:E.
    + apply tkey_eqb_eq in E as ->. cbn. intuition.
    + cbn [map fst In]. rewrite IH. intuition.
Qed.

Lemma put_nodup m k v : NoDup (map fst m) -> NoDup (map fst (put m k v)).
Proof.
  induction m as [|[k' v'] m IH]; intros Hd; cbn [put].
  - cbn. repeat constructor. intros [].
  - inversion Hd as [|? ? Hni Hnd]; subst. destruct (tkey_eqb k k') eqn:E.
    + now constructor.
    + cbn [map fst]. constructor; [|now apply IH]. rewrite put_keys. intros [H|H]; [contradiction|]. subst k'.
      assert (tkey_eqb k k = true) by now apply tkey_eqb_eq. congruence.
Qed.

Lemma put_in m k v x w : NoDup (map fst m) -> (In (x, w) (put m k v) <-> (x = k /\ w = v) \/ (x <> k /\ In (x, w) m)).
Proof.
  induction m as [|[k' v'] m IH]; intros Hd; cbn [put].
  - cbn. split; [intros [H|[]]; injection H as <- <-; now left|intros [[-> ->]|[_ []]]; now left].
  - inversion Hd as [|? ? Hni Hnd]; subst. destruct (tkey_eqb k k') eqn:E.
    + apply tkey_eqb_eq in E as ->. cbn [In]. split.
      * intros [H|H]; [injection H as <- <-; now left|]. right. split; [|now right].
        intros ->. apply Hni. apply in_map_iff. now exists (k', w).
      * intros [[-> ->]|[Hne [H|H]]]; [now left|injection H as <- <-; contradiction|now right].
    + assert (k <> k') as Hk by (intros ->; assert (tkey_eqb k' k' = true) by (now apply tkey_eqb_eq); congruence).
      cbn [In]. rewrite (IH Hnd). split.
      * intros [H|[H|[Hne H]]]; [injection H as <- <-; right; split; [congruence|now left]|now left|right; split; [exact Hne|now right]].
      * intros [H|[Hne [H|H]]]; [right; now left|now left|right; right; now split].
Qed.

Lemma put_all_nodup l : forall m, NoDup (map fst m) -> NoDup (map fst (put_all m l)).
Proof.
  unfold put_all. induction l as [|[k v] l IH]; intros m Hm; [exact Hm|]. cbn [fold_left fst snd].
  apply IH, put_nodup, Hm.
Qed.

Lemma put_all_in l : forall m x w, NoDup (map fst m) ->
  (In (x, w) (put_all m l) <-> last_value l x w \/ (~ In x (map fst l) /\ In (x, w) m)).
Proof.
  unfold put_all. induction l as [|[k v] l IH]; intros m x w Hm; cbn [fold_left fst snd].
  - split; [intros H; right; split; [intros []|exact H]|].
    intros [[b [a [E _]]]|[_ H]]; [now destruct b|exact H].
  - rewrite (IH _ x w (put_nodup m k v Hm)), (put_in m k v x w Hm). cbn [map fst In]. split.
    + intros [[b [a [-> Ha]]]|[Hni [[-> ->]|[Hne H]]]].
      * left. exists ((k, v) :: b), a. now split.
      * left. exists [], l. now split.
      * right. split; [|exact H]. intros [H'|H']; [now apply Hne|contradiction].
    + intros [[b [a [E Ha]]]|[Hni H]].
      * destruct b as [|p b]; cbn [app] in E.
        -- injection E as <- <- ->. right. split; [exact Ha|]. left. now split.
        -- injection E as _ ->. left. now exists b, a.
      * right. split; [intros H'; apply Hni; now right|]. right. split; [|exact H]. intros ->. apply Hni. now left.
Qed.

Lemma parse_members_put l : forall m, l <> [] ->
  parse_members (map str_item (named_items m)) (tokens_of_items (named_items l) ++ [TClose])
  = Ok (map str_item (named_items (put_all m l))).
Proof.
  unfold put_all. induction l as [|[k v] l IH]; intros m Hne; [contradiction|]. destruct l as [|[k2 v2] l].
  - cbn [named_items map tokens_of_items tokens_of_item fst snd app parse_members fold_left].
    now rewrite put_named.
  - change (tokens_of_items (named_items ((k, v) :: (k2, v2) :: l)))
      with (tokens_of_item (tkey_value k, v) ++ TComma :: tokens_of_items (named_items ((k2, v2) :: l))).
    cbn [tokens_of_item fst snd app parse_members]. rewrite put_named.
    rewrite IH by discriminate. reflexivity.
Qed.

Lemma loads_repeated l s : object_layout l s ->
  json_loads s = Ok (map str_item (named_items (put_all [] l))).
Proof.
  intros [b1 [m [b2 [H1 [H2 [Hm ->]]]]]]. unfold json_loads.
  rewrite lex_blank by exact H1. cbn [String.append lex].
  change (lex_idle "{") with (Ok ([TOpen], LIdle)). cbn [bind fst snd].
  pose proof (lex_members l m b2 Hm H2) as E. cbn [String.append] in E. rewrite E. clear E.
  pose proof (layout_nonempty _ _ Hm) as Hne. cbn [bind app].
  pose proof (parse_members_put l [] Hne) as P. cbn [named_items map] in P.
  destruct l as [|kv l]; [contradiction|].
  assert (exists t ts, tokens_of_items (named_items (kv :: l)) ++ [TClose] = TStr t :: ts) as [t [ts E]].
  { destruct l; cbn; repeat eexists. }
  rewrite E. rewrite <- E. exact P.
Qed.

Lemma enum_has m k v : In (DEnum k, v) (enum_items m) <-> In (k, v) m.
Proof.
  unfold enum_items. rewrite in_map_iff. split.
  - intros [[k' v'] [E H]]. cbn [fst snd] in E. now injection E as -> ->.
  - intros H. now exists (k, v).
Qed.

Lemma repeated_loads t l s : object_layout l s ->
  (forall k v, In (k, v) l -> exists top, In (k, top) (documented t)) ->
  (forall k top, In (k, top) (documented t) -> exists v, last_value l k v /\ (1 <= v <= top)%Z) ->
  exists d, load_trunc_from_JSON s None = Ok (Some d) /\ is_dict d /\
    forall k v, has_value d k v <-> last_value l k v.
Proof.
  intros Hs Hk Ht. set (m := put_all [] l).
  assert (NoDup (map fst m)) as Hm by (apply put_all_nodup; constructor).
  assert (forall k v, In (k, v) m <-> last_value l k v) as Hin.
  { intros k v. unfold m. rewrite put_all_in by constructor. split; [intros [H|[_ []]]; exact H|intros H; now left]. }
  assert (is_dict (enum_items m)) as Hd.
  { unfold is_dict, enum_items. rewrite map_map. cbn [fst]. rewrite <- (map_map fst DEnum).
    apply FinFun.Injective_map_NoDup; [intros a b E; now injection E|exact Hm]. }
  assert (acceptable t (enum_items m)) as Ha.
  { split.
    - intros k v H. apply in_map_iff in H as [x [E _]]. injection E as <- _. now eexists.
    - intros k top H. destruct (Ht k top H) as [v [Hv Hb]]. exists v. split; [|exact Hb].
      unfold has_value. now rewrite enum_has, Hin. }
  assert (exactly_valid t (enum_items m)) as Hv.
  { split; [exact Ha|]. intros k v H. apply in_map_iff in H as [[k' v'] [E H]]. injection E as <- <-.
    apply Hin in H as [b [a [-> _]]]. destruct (Hk k' v') as [top Htop]; [apply in_or_app; right; now left|].
    now exists k', top. }
  exists (enum_items m). split; [|split; [exact Hd|intros k v; unfold has_value; now rewrite enum_has, Hin]].
  cbn [load_trunc_from_JSON]. unfold load_from_JSON. rewrite (loads_repeated l s Hs). cbn [bind]. fold m.
  rewrite to_enum_saved by exact Hd. cbn [bind]. rewrite (exactly_valid_length t _ Hd Hv), type_of_length. cbn [bind].
  rewrite (proj2 (verify_exact t _ Hd) Ha). reflexivity.
Qed.
