(** Proofs about truncations, JSON files, command line and dispatch. *)
From Coq Require Import ZArith.
From Coq Require DecimalFacts DecimalNat.
From Verif Require Import PyBase PyStr PyBaseFacts ModelTrunc SpecTrunc ProofsStr.
Open Scope list_scope.

Lemma tkey_eqb_eq a b : tkey_eqb a b = true <-> a = b.
Proof. destruct a, b; split; intros H; try reflexivity; discriminate. Qed.

Lemma dkey_eqb_eq a b : dkey_eqb a b = true <-> a = b.
Proof.
  destruct a as [x|x], b as [y|y]; cbn [dkey_eqb]; try (split; intros H; discriminate).
  - rewrite tkey_eqb_eq. split; [now intros ->|intros H; now injection H].
  - rewrite String.eqb_eq. split; [now intros ->|intros H; now injection H].
Qed.

Lemma dkey_eqb_refl a : dkey_eqb a a = true. Proof. now apply dkey_eqb_eq. Qed.
Lemma dkey_eqb_neq a b : a <> b -> dkey_eqb a b = false.
Proof. intros H. destruct (dkey_eqb a b) eqn:E; [apply dkey_eqb_eq in E; contradiction|reflexivity]. Qed.

Lemma tkey_value_inj a b : tkey_value a = tkey_value b -> a = b.
Proof. destruct a, b; intros H; try reflexivity; discriminate H. Qed.

Lemma tkey_of_value_ok k : tkey_of_value (tkey_value k) = Ok k.
Proof. destruct k; reflexivity. Qed.

Lemma tkey_of_value_inv s k : tkey_of_value s = Ok k -> s = tkey_value k.
Proof.
  unfold tkey_of_value. destruct (find _ all_tkeys) as [k'|] eqn:E; [|discriminate].
  intros H. injection H as ->. apply find_some in E as [_ E]. now apply String.eqb_eq in E.
Qed.

Lemma dict_set_new d k v : ~ In k (map fst d) -> dict_set d k v = d ++ [(k, v)].
Proof.
  induction d as [|[k' v'] d IH]; intros H; [reflexivity|]. cbn [dict_set app].
  rewrite dkey_eqb_neq; [|intros ->; apply H; now left]. rewrite IH; [reflexivity|].
  intros Hin. apply H. now right.
Qed.

Lemma dict_del_notin d k : ~ In k (map fst d) -> dict_del d k = d.
Proof.
  unfold dict_del. induction d as [|[k' v'] d IH]; intros H; [reflexivity|]. cbn [filter fst].
  rewrite dkey_eqb_neq; [|intros ->; apply H; now left]. cbn [negb]. f_equal. apply IH.
  intros Hin. apply H. now right.
Qed.

Lemma dict_del_head d k v : ~ In k (map fst d) -> dict_del ((k, v) :: d) k = d.
Proof.
  intros H. unfold dict_del. cbn [filter fst]. rewrite dkey_eqb_refl. cbn [negb].
  now apply dict_del_notin.
Qed.

Lemma dict_get_some d k v : is_dict d -> (dict_get d k = Some v <-> In (k, v) d).
Proof.
  unfold is_dict. induction d as [|[k' v'] d IH]; intros Hd; cbn [dict_get].
  - split; [discriminate|intros []].
  - inversion Hd as [|? ? Hni Hnd]; subst. destruct (dkey_eqb k k') eqn:E.
    + apply dkey_eqb_eq in E as ->. split.
      * intros H. injection H as ->. now left.
      * intros [H|H]; [now injection H as ->|]. exfalso. apply Hni. now apply (in_map fst) in H.
    + rewrite IH by exact Hnd. split; [now right|].
      intros [H|H]; [injection H as -> ->; rewrite dkey_eqb_refl in E; discriminate|exact H].
Qed.

Definition to_str (kv : dkey * Z) : dkey * Z :=
  match fst kv with DEnum k => (DStr (tkey_value k), snd kv) | DStr _ => kv end.

Definition enum_dict (d : dict) : Prop := forall k v, In (k, v) d -> exists m, k = DEnum m.

Lemma enum_loop_ok items done :
  enum_dict items -> is_dict items -> (forall k v, In (k, v) done -> is_enum k = false) ->
  (forall k, In (DEnum k) (map fst items) -> ~ In (DStr (tkey_value k)) (map fst done)) ->
  enum_to_string_loop items (items ++ done) = Ok (done ++ map to_str items).
Proof.
  revert done. induction items as [|[k v] items IH]; intros done He Hd Hs Hn.
  - cbn. now rewrite app_nil_r.
  - destruct (He k v (or_introl eq_refl)) as [m ->]. cbn [enum_to_string_loop app].
    inversion Hd as [|? ? Hni Hnd]; subst. cbn [map fst] in *.
    assert (~ In (DEnum m) (map fst done)) as Hmd.
    { intros Hin. apply in_map_iff in Hin as [[k' v'] [E Hin]]. cbn [fst] in E. subst k'.
      apply Hs in Hin. discriminate. }
    rewrite dict_set_new.
    2:{ cbn [map fst]. intros [E|Hin]; [discriminate|]. rewrite map_app in Hin.
        apply in_app_iff in Hin as [Hin|Hin].
        - apply in_map_iff in Hin as [[k' v'] [E Hin]]. cbn [fst] in E. subst k'.
          destruct (He _ _ (or_intror Hin)) as [m' E]. discriminate.
        - apply (Hn m); [now left|exact Hin]. }
    cbn [app]. rewrite dict_del_head.
    2:{ rewrite !map_app, !in_app_iff. intros [[H|H]|H]; [contradiction|contradiction|].
        cbn in H. destruct H as [H|[]]. discriminate. }
    rewrite <- app_assoc. rewrite IH.
    + cbn [map to_str fst snd]. now rewrite <- app_assoc.
    + intros k' v' H. apply (He k' v'). now right.
    + exact Hnd.
    + intros k' v' H. apply in_app_iff in H as [H|[H|[]]]; [now apply (Hs k' v')|]. now injection H as <- _.
    + intros k' Hk' Hin. rewrite map_app in Hin. apply in_app_iff in Hin as [Hin|[Hin|[]]].
      * apply (Hn k'); [now right|exact Hin].
      * cbn [fst] in Hin. injection Hin as E. apply tkey_value_inj in E as ->. contradiction.
Qed.

Lemma to_strings_ok d : enum_dict d -> is_dict d -> change_keys_to_strings d = Ok (map to_str d).
Proof.
  intros He Hd. unfold change_keys_to_strings.
  rewrite <- (app_nil_r d) at 2. rewrite enum_loop_ok; [reflexivity|exact He|exact Hd|intros k v []|intros k _ []].
Qed.

Lemma to_str_keys d : enum_dict d -> is_dict d -> is_dict (map to_str d).
Proof.
  intros He Hd. unfold is_dict in *. rewrite map_map. revert Hd. induction d as [|[k v] d IH]; intros Hd; [constructor|].
  cbn [map] in *. inversion Hd as [|? ? Hni Hnd]; subst. constructor.
  - destruct (He k v (or_introl eq_refl)) as [m ->]. cbn [to_str fst snd]. intros Hin.
    apply in_map_iff in Hin as [[k' v'] [E Hin]].
    destruct (He _ _ (or_intror Hin)) as [m' ->]. cbn [to_str fst snd] in E. injection E as E.
    apply tkey_value_inj in E as ->. apply Hni. now apply (in_map fst) in Hin.
  - apply IH; [|exact Hnd]. intros k' v' H. apply (He k' v'). now right.
Qed.

Lemma in_to_str d k v : enum_dict d -> (In (DStr (tkey_value k), v) (map to_str d) <-> In (DEnum k, v) d).
Proof.
  intros He. rewrite in_map_iff. split.
  - intros [[k' v'] [E Hin]]. destruct (He _ _ Hin) as [m ->]. cbn [to_str fst snd] in E.
    injection E as E ->. apply tkey_value_inj in E as ->. exact Hin.
  - intros H. exists (DEnum k, v). now split.
Qed.

(** ** Verification *)

Lemma verify_keys_ok d keys : is_dict d ->
  (verify_keys d keys = Ok tt <->
   forall k, In k keys -> exists v, In (DStr (tkey_value k), v) d /\ (1 <= v <= truncation_maximum k)%Z).
Proof.
  intros Hd. induction keys as [|k keys IH]; cbn [verify_keys].
  - split; [intros _ k []|reflexivity].
  - destruct (dict_get d (DStr (tkey_value k))) as [v|] eqn:E.
    + apply (dict_get_some d _ _ Hd) in E.
      destruct (Z.leb_spec 1 v) as [H1|H1]; cbn [negb].
      * destruct (Z.leb_spec v (truncation_maximum k)) as [H2|H2]; cbn [negb].
        -- rewrite IH. split.
           ++ intros H k' [<-|Hk']; [now exists v|auto].
           ++ intros H k' Hk'. apply H. now right.
        -- split; [discriminate|]. intros H. destruct (H k (or_introl eq_refl)) as [v' [Hin Hb]].
           apply (dict_get_some d _ _ Hd) in E, Hin. rewrite E in Hin. injection Hin as <-. lia.
      * split; [discriminate|]. intros H. destruct (H k (or_introl eq_refl)) as [v' [Hin Hb]].
        apply (dict_get_some d _ _ Hd) in E, Hin. rewrite E in Hin. injection Hin as <-. lia.
    + split; [discriminate|]. intros H. destruct (H k (or_introl eq_refl)) as [v' [Hin Hb]].
      apply (dict_get_some d _ _ Hd) in Hin. congruence.
Qed.

Lemma documented_keys t k top :
  In (k, top) (documented t) <-> In k (keys_of t) /\ top = truncation_maximum k.
Proof.
  destruct t; cbn; split; intros H;
    repeat match goal with
           | H : _ \/ _ |- _ => destruct H
           | H : _ /\ _ |- _ => destruct H
           | H : False |- _ => destruct H
           | H : (_, _) = (_, _) |- _ => injection H as <- <-
           end; subst; cbn; auto 8.
Qed.

Lemma verify_exact t d : is_dict d ->
  (verify_truncations t d = Ok tt <-> acceptable t d).
Proof.
  intros Hd. unfold verify_truncations, acceptable. destruct d as [|kv d].
  - split; [discriminate|]. intros [_ H].
    assert (exists k top, In (k, top) (documented t)) as [k [top Hk]] by (destruct t; repeat eexists; now left).
    destruct (H k top Hk) as [v [[] _]].
  - set (d' := kv :: d) in *. destruct (forallb (fun kv => is_enum (fst kv)) d') eqn:Ef; cbn [negb].
    + assert (enum_dict d') as He.
      { intros k v Hin. rewrite forallb_forall in Ef. specialize (Ef _ Hin). cbn [fst] in Ef.
        destruct k as [m|s]; [now exists m|discriminate]. }
      rewrite (to_strings_ok d' He Hd). cbn [bind].
      rewrite (verify_keys_ok _ _ (to_str_keys d' He Hd)). split.
      * intros H. split; [exact He|]. intros k top Hk. apply documented_keys in Hk as [Hk ->].
        destruct (H k Hk) as [v [Hin Hb]]. exists v. split; [now apply in_to_str in Hin|exact Hb].
      * intros [_ H] k Hk. destruct (H k (truncation_maximum k)) as [v [Hin Hb]]; [now apply documented_keys|].
        exists v. split; [now apply in_to_str|exact Hb].
    + split; [discriminate|]. intros [He _]. exfalso.
      assert (forallb (fun kv => is_enum (fst kv)) d' = true) as E; [|congruence].
      apply forallb_forall. intros [k v] Hin. destruct (He k v Hin) as [m ->]. reflexivity.
Qed.

Lemma verify_extra_key_accepted :
  exists t d, is_dict d /\ verify_truncations t d = Ok tt /\ ~ exactly_valid t d.
Proof.
  exists Zhz, [(DEnum KH, 2%Z); (DEnum KCC, 2%Z); (DEnum KP, 2%Z); (DEnum KS, 99%Z)].
  split; [|split].
  - unfold is_dict. cbn. repeat constructor; cbn; intuition discriminate.
  - vm_compute. reflexivity.
  - intros [_ H]. destruct (H (DEnum KS) 99%Z) as [m [top [E Hin]]]; [cbn; tauto|].
    injection E as <-. cbn in Hin. intuition discriminate.
Qed.

(** ** JSON round trip *)

Definition tokens_of_item (kv : string * Z) : list token := [TStr (fst kv); TColon; TInt (snd kv)].

Fixpoint tokens_of_items (l : list (string * Z)) : list token :=
  match l with
  | [] => []
  | [kv] => tokens_of_item kv
  | kv :: r => tokens_of_item kv ++ TComma :: tokens_of_items r
  end.

Definition plain_key (s : string) : Prop :=
  has_char (ascii_of_nat 34) s = false /\ has_char "\" s = false.

Definition item_text (kv : string * Z) : string :=
  (quote ++ fst kv ++ quote ++ ": " ++ str_Z (snd kv))%string.

Lemma lex_str s acc r : plain_key s ->
  lex (LStr acc) (s ++ String (ascii_of_nat 34) r)%string
  = bind (lex LIdle r) (fun rest => Ok (TStr (of_chars (rev acc ++ chars s)) :: rest)).
Proof.
  unfold plain_key. revert acc. induction s as [|c s IH]; intros acc [H1 H2].
  - cbn [String.append lex]. rewrite Ascii.eqb_refl. cbn [chars]. now rewrite app_nil_r.
  - cbn [has_char] in H1, H2. apply orb_false_iff in H1 as [H1 H1']. apply orb_false_iff in H2 as [H2 H2'].
    cbn [String.append lex]. rewrite Ascii.eqb_sym in H1, H2. rewrite H1, H2.
    rewrite IH by now split. cbn [rev chars]. now rewrite <- app_assoc.
Qed.

Fixpoint all_digits (s : string) : bool :=
  match s with EmptyString => true | String c r => is_digit_char c && all_digits r end.

Lemma str_nat_digits n : all_digits (str_nat n) = true.
Proof.
  unfold str_nat. induction (Nat.to_uint n) as [|u IH|u IH|u IH|u IH|u IH|u IH|u IH|u IH|u IH|u IH];
    cbn [DecimalString.NilEmpty.string_of_uint all_digits]; [reflexivity|..]; rewrite IH; reflexivity.
Qed.

Lemma str_nat_head n : exists c r, str_nat n = String c r.
Proof.
  destruct (str_nat n) as [|c r] eqn:E; [|now exists c, r].
  pose proof (py_int_str_nat n) as H. rewrite E in H. discriminate H.
Qed.

Lemma lex_int neg acc s r c : all_digits s = true -> is_digit_char c = false ->
  lex (LInt neg acc) (s ++ String c r)%string
  = bind (int_token neg (rev (rev acc ++ chars s)))
      (fun t => bind (lex_idle c) (fun ts => bind (lex (snd ts) r) (fun rest => Ok (t :: fst ts ++ rest)))).
Proof.
  intros Hs Hc. revert acc Hs. induction s as [|d s IH]; intros acc Hs.
  - cbn [String.append lex chars]. rewrite Hc, app_nil_r, rev_involutive. reflexivity.
  - cbn [all_digits] in Hs. apply andb_true_iff in Hs as [H1 H2].
    cbn [String.append lex]. rewrite H1. rewrite IH by exact H2. cbn [rev chars]. now rewrite <- app_assoc.
Qed.

Lemma no_leading_zero n : leading_zero (chars (str_nat n)) = false.
Proof.
  unfold str_nat. assert (U : Nat.to_uint n = Decimal.unorm (Nat.to_uint n)).
  { rewrite <- DecimalNat.Unsigned.to_of, DecimalNat.Unsigned.of_to. reflexivity. }
  destruct (Nat.to_uint n) as [|d|d|d|d|d|d|d|d|d|d]; try reflexivity.
  - assert (d = Decimal.Nil) as ->; [|reflexivity]. unfold Decimal.unorm in U.
    destruct (Decimal.nzhead (Decimal.D0 d)) eqn:E; try discriminate U; [now injection U|].
    exfalso. exact (DecimalFacts.nzhead_nonzero (Decimal.D0 d) _ E).
  - cbn. destruct (chars _); reflexivity.
  - cbn. destruct (chars _); reflexivity.
  - cbn. destruct (chars _); reflexivity.
  - cbn. destruct (chars _); reflexivity.
  - cbn. destruct (chars _); reflexivity.
  - cbn. destruct (chars _); reflexivity.
  - cbn. destruct (chars _); reflexivity.
  - cbn. destruct (chars _); reflexivity.
  - cbn. destruct (chars _); reflexivity.
Qed.

Lemma int_token_ok neg n :
  int_token neg (rev (chars (str_nat n))) = Ok (TInt (if neg then Z.opp (Z.of_nat n) else Z.of_nat n)).
Proof. unfold int_token. rewrite rev_involutive, no_leading_zero, of_chars_chars, py_int_str_nat. reflexivity. Qed.

(** an integer followed by a comma or closing brace *)
Lemma lex_Z z c r : is_digit_char c = false ->
  lex LIdle (str_Z z ++ String c r)%string
  = bind (lex_idle c) (fun ts => bind (lex (snd ts) r) (fun rest => Ok (TInt z :: fst ts ++ rest))).
Proof.
  intros Hc.
  assert (forall n, lex LIdle (str_nat n ++ String c r)%string
     = bind (lex_idle c) (fun ts => bind (lex (snd ts) r) (fun rest => Ok (TInt (Z.of_nat n) :: fst ts ++ rest)))) as Hn.
  { intros n. destruct (str_nat_head n) as [d [s E]].
    pose proof (str_nat_digits n) as Hd. rewrite E in Hd |- *. cbn [all_digits] in Hd.
    apply andb_true_iff in Hd as [Hd Hs]. cbn [String.append lex].
    assert (lex_idle d = Ok ([], LInt false [d])) as ->.
    { unfold lex_idle.
      assert (48 <= nat_of_ascii d <= 57) as Hb.
      { unfold is_digit_char in Hd. apply andb_true_iff in Hd as [H1 H2].
        apply Nat.leb_le in H1, H2. lia. }
      assert (is_ws d = false) as ->.
      { unfold is_ws. cbn [existsb]. repeat (rewrite (proj2 (Nat.eqb_neq _ _)); [|lia]). reflexivity. }
      rewrite Hd.
      assert (forall e, nat_of_ascii e < 48 \/ 57 < nat_of_ascii e -> Ascii.eqb d e = false) as He.
      { intros e He. apply Ascii.eqb_neq. intros ->. lia. }
      rewrite !He; [reflexivity|..]; vm_compute; lia. }
    cbn [bind snd fst]. rewrite lex_int by assumption.
    change (rev [d] ++ chars s) with (chars (String d s)). rewrite <- E, int_token_ok. cbn [bind].
    destruct (lex_idle c) as [ts|]; [|reflexivity]. cbn [bind]. destruct (lex (snd ts) r); reflexivity. }
  destruct z as [|p|p].
  - change (str_Z 0) with (str_nat 0). rewrite Hn. reflexivity.
  - change (str_Z (Z.pos p)) with (str_nat (Pos.to_nat p)). rewrite Hn. now rewrite positive_nat_Z.
  - cbn [str_Z]. cbn [String.append lex]. change (lex_idle "-") with (Ok ([] : list token, LInt true [])).
    cbn [bind snd fst]. rewrite lex_int; [|apply str_nat_digits|exact Hc].
    change (rev [] ++ chars (str_nat (Pos.to_nat p))) with (chars (str_nat (Pos.to_nat p))).
    rewrite int_token_ok, positive_nat_Z. cbn [bind Z.opp].
    destruct (lex_idle c) as [ts|]; [|reflexivity]. cbn [bind]. destruct (lex (snd ts) r); reflexivity.
Qed.

Lemma lex_item kv c r : plain_key (fst kv) -> is_digit_char c = false ->
  lex LIdle (item_text kv ++ String c r)%string
  = bind (lex_idle c) (fun ts => bind (lex (snd ts) r) (fun rest => Ok (tokens_of_item kv ++ fst ts ++ rest))).
Proof.
  intros Hk Hc. destruct kv as [k v]. unfold item_text. cbn [fst snd] in *.
  unfold quote at 1. rewrite !append_assoc. cbn [String.append lex].
  change (lex_idle (ascii_of_nat 34)) with (Ok ([] : list token, LStr [])). cbn [bind fst snd].
  unfold quote. cbn [String.append]. rewrite lex_str by exact Hk. cbn [rev app]. rewrite of_chars_chars.
  cbn [lex]. change (lex_idle ":") with (Ok ([TColon], LIdle)). cbn [bind fst snd].
  change (lex_idle " ") with (Ok ([] : list token, LIdle)). cbn [bind fst snd app].
  rewrite lex_Z by exact Hc. destruct (lex_idle c) as [ts|]; [|reflexivity]. cbn [bind].
  destruct (lex (snd ts) r); reflexivity.
Qed.

Lemma lex_items l : (forall kv, In kv l -> plain_key (fst kv)) -> l <> [] ->
  lex LIdle (join ", " (map item_text l) ++ "}")%string = Ok (tokens_of_items l ++ [TClose]).
Proof.
  induction l as [|kv l IH]; intros Hl Hne; [contradiction|]. destruct l as [|kv2 l].
  - cbn [map join tokens_of_items]. rewrite lex_item; [reflexivity|apply Hl; now left|reflexivity].
  - change (join ", " (map item_text (kv :: kv2 :: l)))
      with (item_text kv ++ ", " ++ join ", " (map item_text (kv2 :: l)))%string.
    rewrite !append_assoc. cbn [String.append]. rewrite lex_item; [|apply Hl; now left|reflexivity].
    change (lex_idle ",") with (Ok ([TComma], LIdle)). cbn [bind fst snd lex].
    change (lex_idle " ") with (Ok ([] : list token, LIdle)). cbn [bind fst snd].
    rewrite IH; [|intros x Hx; apply Hl; now right|discriminate]. cbn [bind app].
    change (tokens_of_items (kv :: kv2 :: l)) with (tokens_of_item kv ++ TComma :: tokens_of_items (kv2 :: l)).
    rewrite <- !app_assoc. reflexivity.
Qed.

Definition str_item (kv : string * Z) : dkey * Z := (DStr (fst kv), snd kv).

Lemma parse_members_ok l : forall d, NoDup (map fst l) ->
  (forall kv, In kv l -> ~ In (DStr (fst kv)) (map fst d)) -> l <> [] ->
  parse_members d (tokens_of_items l ++ [TClose]) = Ok (d ++ map str_item l).
Proof.
  induction l as [|[k v] l IH]; intros d Hnd Hd Hne; [contradiction|]. destruct l as [|[k2 v2] l].
  - cbn. rewrite dict_set_new; [reflexivity|]. apply (Hd (k, v)). now left.
  - change (tokens_of_items ((k, v) :: (k2, v2) :: l))
      with (tokens_of_item (k, v) ++ TComma :: tokens_of_items ((k2, v2) :: l)).
    cbn [tokens_of_item app fst snd parse_members].
    rewrite dict_set_new; [|apply (Hd (k, v)); now left].
    inversion Hnd as [|? ? Hni Hnd']; subst. rewrite IH; [|exact Hnd'| |discriminate].
    + rewrite <- app_assoc. reflexivity.
    + intros kv Hkv. rewrite map_app. intros Hin. apply in_app_iff in Hin as [Hin|[Hin|[]]].
      * apply (Hd kv); [now right|exact Hin].
      * cbn [fst] in Hin. injection Hin as E. apply Hni. rewrite E. exact (in_map fst _ _ Hkv).
Qed.

(** enum dictionaries as items *)
Definition enum_items (l : list (tkey * Z)) : dict := map (fun kv => (DEnum (fst kv), snd kv)) l.
Definition named_items (l : list (tkey * Z)) : list (string * Z) := map (fun kv => (tkey_value (fst kv), snd kv)) l.

Lemma enum_dict_items d : enum_dict d -> exists l, d = enum_items l.
Proof.
  induction d as [|[k v] d IH]; intros He; [now exists []|].
  destruct (He k v (or_introl eq_refl)) as [m ->]. destruct IH as [l ->].
  { intros k' v' H. apply (He k' v'). now right. }
  now exists ((m, v) :: l).
Qed.

Lemma plain_tkey k : plain_key (tkey_value k).
Proof. destruct k; split; reflexivity. Qed.

Lemma save_text l : is_dict (enum_items l) ->
  save_to_JSON (enum_items l) = Ok ("{" ++ join ", " (map item_text (named_items l)) ++ "}")%string.
Proof.
  intros Hd. unfold save_to_JSON. rewrite to_strings_ok; [|intros k v H; apply in_map_iff in H as [x [E _]]; injection E as <- _; now eexists|exact Hd].
  cbn [bind]. unfold json_dumps.
  assert (mapM json_item (map to_str (enum_items l)) = Ok (map item_text (named_items l))) as ->; [|reflexivity].
  clear. induction l as [|[k v] l IH]; [reflexivity|]. cbn [enum_items map to_str fst snd mapM json_item].
  unfold enum_items in IH. cbn [bind]. rewrite IH. reflexivity.
Qed.

Lemma nodup_named l : is_dict (enum_items l) -> NoDup (map fst (named_items l)).
Proof.
  unfold is_dict, enum_items, named_items. rewrite !map_map. cbn [fst].
  intros H.
  induction l as [|[k v] l IH]; [constructor|]. cbn [map fst] in *. inversion H as [|? ? Hni Hnd]; subst.
  constructor; [|now apply IH]. intros Hin. apply in_map_iff in Hin as [[k' v'] [E Hin]]. cbn [fst] in E.
  apply tkey_value_inj in E as ->. apply Hni. apply in_map_iff. now exists (k, v').
Qed.

Lemma loads_saved l : is_dict (enum_items l) ->
  json_loads ("{" ++ join ", " (map item_text (named_items l)) ++ "}")%string = Ok (map str_item (named_items l)).
Proof.
  intros Hd. unfold json_loads. cbn [String.append lex].
  change (lex_idle "{") with (Ok ([TOpen], LIdle)). cbn [bind fst snd].
  destruct l as [|kv l]; [reflexivity|].
  rewrite lex_items; [|intros x Hx; apply in_map_iff in Hx as [y [<- _]]; apply plain_tkey|discriminate].
  cbn [bind app].
  assert (exists t ts, tokens_of_items (named_items (kv :: l)) ++ [TClose] = TStr t :: ts) as [t [ts E]].
  { destruct l; cbn; repeat eexists. }
  rewrite E. rewrite <- E. rewrite parse_members_ok; [reflexivity|now apply nodup_named| |discriminate].
  intros x _ [].
Qed.

Lemma string_loop_ok l : forall done,
  is_dict (enum_items l) -> enum_dict done ->
  (forall k, In k (map fst l) -> ~ In (DEnum k) (map fst done)) ->
  string_to_enum_loop (map str_item (named_items l)) (map str_item (named_items l) ++ done)
  = Ok (done ++ enum_items l).
Proof.
  induction l as [|[k v] l IH]; intros done Hd He Hn.
  - cbn. now rewrite app_nil_r.
  - change (map str_item (named_items ((k, v) :: l))) with ((DStr (tkey_value k), v) :: map str_item (named_items l)).
    cbn [string_to_enum_loop app]. rewrite tkey_of_value_ok. cbn [bind].
    pose proof (nodup_named _ Hd) as Hnm. cbn [named_items map fst] in Hnm.
    inversion Hnm as [|? ? Hni' Hnm']; subst.
    inversion Hd as [|? ? Hni Hnd]; subst.
    assert (forall s, In (DStr s) (map fst done) -> False) as Hns.
    { intros s Hin. apply in_map_iff in Hin as [[k' v'] [E Hin]]. cbn [fst] in E. subst k'.
      destruct (He _ _ Hin) as [m E]. discriminate. }
    assert (forall m, In (DEnum m) (map fst (map str_item (named_items l))) -> False) as Hne.
    { intros m Hin. rewrite map_map in Hin. apply in_map_iff in Hin as [x [E _]]. discriminate. }
    rewrite dict_set_new.
    2:{ cbn [map fst]. intros [E|Hin]; [discriminate|]. rewrite map_app in Hin. apply in_app_iff in Hin as [Hin|Hin].
        - now apply Hne in Hin.
        - apply (Hn k); [now left|exact Hin]. }
    cbn [app]. rewrite dict_del_head.
    2:{ rewrite !map_app, !in_app_iff. intros [[H|H]|[H|[]]]; [|now apply Hns in H|discriminate].
        rewrite map_map in H. apply in_map_iff in H as [x [E Hx]]. cbn [str_item fst] in E. injection E as E.
        apply Hni'. rewrite <- E. apply in_map_iff. now exists x. }
    rewrite <- app_assoc. rewrite IH.
    + cbn [enum_items map fst snd]. now rewrite <- app_assoc.
    + exact Hnd.
    + intros k' v' H. apply in_app_iff in H as [H|[H|[]]]; [now apply (He k' v')|]. injection H as <- _. now exists k.
    + intros k' Hk' Hin. rewrite map_app in Hin. apply in_app_iff in Hin as [Hin|[Hin|[]]].
      * apply (Hn k'); [now right|exact Hin].
      * cbn [fst] in Hin. injection Hin as <-. apply Hni. unfold enum_items. rewrite map_map.
        apply in_map_iff in Hk' as [x [E Hx]]. apply in_map_iff. exists x. split; [now rewrite <- E|exact Hx].
Qed.

Lemma to_enum_saved l : is_dict (enum_items l) ->
  change_keys_to_enum (map str_item (named_items l)) = Ok (enum_items l).
Proof.
  intros Hd. unfold change_keys_to_enum.
  rewrite <- (app_nil_r (map str_item (named_items l))) at 2.
  rewrite string_loop_ok; [reflexivity|exact Hd|intros k v []|intros k _ []].
Qed.

Lemma documented_nodup t : NoDup (map fst (documented t)).
Proof. destruct t; cbn; repeat constructor; cbn; intuition discriminate. Qed.

Lemma exactly_valid_length t d : is_dict d -> exactly_valid t d -> List.length d = List.length (documented t).
Proof.
  intros Hd [[He Ha] Hx].
  rewrite <- (map_length fst d), <- (map_length (fun kt => DEnum (fst kt)) (documented t)).
  apply Permutation_length, NoDup_Permutation.
  - exact Hd.
  - rewrite <- (map_map fst DEnum). apply FinFun.Injective_map_NoDup; [intros a b E; now injection E|apply documented_nodup].
  - intros k. rewrite !in_map_iff. split.
    + intros [[k' v] [E Hin]]. cbn [fst] in E. subst k'. destruct (Hx k v Hin) as [m [top [-> Hm]]].
      exists (m, top). now split.
    + intros [[m top] [E Hin]]. cbn [fst] in E. subst k. destruct (Ha m top Hin) as [v [Hv _]].
      exists (DEnum m, v). now split.
Qed.

Lemma type_of_length t : key_list_type (List.length (documented t)) = Ok t.
Proof. destruct t; reflexivity. Qed.

Lemma key_list_type_inv n t : key_list_type n = Ok t <-> n = List.length (documented t).
Proof.
  split.
  - unfold key_list_type. destruct (Nat.eqb_spec n (List.length zhz_keys)) as [->|]; [intros H; injection H as <-; reflexivity|].
    destruct (Nat.eqb_spec n (List.length fcc_keys)) as [->|]; [intros H; injection H as <-; reflexivity|].
    destruct (Nat.eqb_spec n (List.length eTz_keys)) as [->|]; [intros H; injection H as <-; reflexivity|discriminate].
  - intros ->. apply type_of_length.
Qed.

Lemma save_load t d : is_dict d -> exactly_valid t d ->
  exists text, save_to_JSON d = Ok text /\ load_trunc_from_JSON text None = Ok (Some d).
Proof.
  intros Hd Hv. pose proof (exactly_valid_length t d Hd Hv) as Hlen.
  destruct Hv as [Ha _]. destruct (enum_dict_items d (proj1 Ha)) as [l ->].
  eexists. split; [now apply save_text|].
  cbn [load_trunc_from_JSON]. unfold load_from_JSON. rewrite loads_saved by exact Hd. cbn [bind].
  rewrite to_enum_saved by exact Hd. cbn [bind]. rewrite Hlen, type_of_length. cbn [bind].
  rewrite (proj2 (verify_exact t _ Hd) Ha). reflexivity.
Qed.

(** ** What a successful load guarantees *)

Lemma dict_set_keys d k v : forall x, In x (map fst (dict_set d k v)) <-> In x (map fst d) \/ x = k.
Proof.
  induction d as [|[k' v'] d IH]; intros x; cbn [dict_set map fst].
  - cbn. intuition.
  - destruct (dkey_eqb k k') eqn:E.
    + apply dkey_eqb_eq in E as ->. cbn. intuition.
    + cbn [map fst In]. rewrite IH. intuition.
Qed.

Lemma dict_set_is_dict d k v : is_dict d -> is_dict (dict_set d k v).
Proof.
  unfold is_dict. induction d as [|[k' v'] d IH]; intros Hd; cbn [dict_set].
  - cbn. repeat constructor. intros [].
  - inversion Hd as [|? ? Hni Hnd]; subst. destruct (dkey_eqb k k') eqn:E.
    + now constructor.
    + cbn [map fst]. constructor; [|now apply IH]. rewrite dict_set_keys. intros [H| ->]; [contradiction|].
      now rewrite dkey_eqb_refl in E.
Qed.

Lemma NoDup_map_filter {A B} (f : A -> B) p l : NoDup (map f l) -> NoDup (map f (filter p l)).
Proof.
  induction l as [|x l IH]; intros H; [constructor|]. cbn [map filter] in *. inversion H as [|? ? Hni Hnd]; subst.
  destruct (p x); [|now apply IH]. cbn [map]. constructor; [|now apply IH].
  intros Hin. apply Hni. apply in_map_iff in Hin as [y [E Hy]]. apply filter_In in Hy as [Hy _].
  apply in_map_iff. now exists y.
Qed.

Lemma dict_del_is_dict d k : is_dict d -> is_dict (dict_del d k).
Proof. apply NoDup_map_filter. Qed.

Lemma string_loop_dict items : forall d d', is_dict d -> string_to_enum_loop items d = Ok d' -> is_dict d'.
Proof.
  induction items as [|[[k|s] v] items IH]; intros d d' Hd H; cbn [string_to_enum_loop] in H.
  - injection H as <-. exact Hd.
  - eapply IH; [|exact H]. now apply dict_del_is_dict, dict_set_is_dict.
  - destruct (tkey_of_value s) as [k|]; [|discriminate]. cbn [bind] in H.
    eapply IH; [|exact H]. now apply dict_del_is_dict, dict_set_is_dict.
Qed.

Lemma parse_members_dict n : forall ts d d', List.length ts <= n -> is_dict d -> parse_members d ts = Ok d' -> is_dict d'.
Proof.
  induction n as [|n IH]; intros ts d d' Hn Hd H.
  - destruct ts; [discriminate H|cbn in Hn; lia].
  - destruct ts as [|[| | | |k|] [|[] [|[| | | | |v] [|[] ts]]]]; try discriminate H.
    + destruct ts; [|discriminate H]. cbn in H. injection H as <-. now apply dict_set_is_dict.
    + cbn [parse_members] in H. refine (IH _ _ d' _ _ H); [cbn [List.length] in Hn; lia|now apply dict_set_is_dict].
Qed.

Lemma json_loads_dict s d : json_loads s = Ok d -> is_dict d.
Proof.
  unfold json_loads. destruct (lex LIdle s) as [ts|]; [|discriminate]. cbn [bind].
  destruct ts as [|[] ts]; try discriminate. destruct ts as [|t ts].
  - cbn. discriminate.
  - assert (is_dict []) as Hnil by constructor.
    destruct t; intros H;
    match type of H with
    | match ts with _ => _ end = _ => destruct ts; [injection H as <-; exact Hnil|]
    | _ => idtac end;
    (eapply parse_members_dict; [apply le_n|exact Hnil|exact H]).
Qed.

Lemma load_valid text d : load_trunc_from_JSON text None = Ok (Some d) ->
  is_dict d /\ exists t, exactly_valid t d.
Proof.
  cbn [load_trunc_from_JSON]. destruct (load_from_JSON text) as [d'|] eqn:E; [|discriminate].
  cbn [bind]. intros H. injection H as ->. unfold load_from_JSON in E.
  destruct (json_loads text) as [s|] eqn:Es; [|discriminate]. cbn [bind] in E.
  destruct (change_keys_to_enum s) as [d'|] eqn:Ed; [|discriminate]. cbn [bind] in E.
  destruct (key_list_type (List.length d')) as [t|] eqn:Et; [|discriminate]. cbn [bind] in E.
  destruct (verify_truncations t d') as [[]|] eqn:Ev; [|discriminate]. cbn [bind] in E. injection E as ->.
  assert (is_dict d) as Hd by (eapply string_loop_dict; [eapply json_loads_dict; exact Es|exact Ed]).
  split; [exact Hd|]. exists t. apply (verify_exact t d Hd) in Ev. split; [exact Ev|].
  destruct Ev as [He Ha]. apply key_list_type_inv in Et.
  assert (incl (map fst d) (map (fun kt => DEnum (fst kt)) (documented t))) as Hincl.
  { apply NoDup_length_incl.
    - rewrite <- (map_map fst DEnum). apply FinFun.Injective_map_NoDup; [intros a b E; now injection E|apply documented_nodup].
    - rewrite !map_length. lia.
    - intros k Hk. apply in_map_iff in Hk as [[m top] [<- Hm]]. cbn [fst].
      destruct (Ha m top Hm) as [v [Hv _]]. now apply (in_map fst) in Hv. }
  intros k v Hin. apply (in_map fst) in Hin. apply Hincl in Hin. apply in_map_iff in Hin as [[m top] [E Hm]].
  exists m, top. now split.
Qed.

(** ** Driver *)

Lemma combine_is_dict keys values : NoDup keys -> is_dict (combine (map DEnum keys) values).
Proof.
  unfold is_dict. intros H. revert values. induction H as [|k keys Hni Hnd IH]; intros [|v values]; cbn [map combine]; try constructor.
  - intros Hin. apply in_map_iff in Hin as [[k' v'] [E Hin]]. cbn [fst] in E. subst k'.
    apply in_combine_l in Hin. apply in_map_iff in Hin as [x [E Hx]]. injection E as ->. contradiction.
  - apply IH.
Qed.

Lemma combine_enum keys values : enum_dict (combine (map DEnum keys) values).
Proof. intros k v H. apply in_combine_l in H. apply in_map_iff in H as [x [<- _]]. now exists x. Qed.

Lemma save_ok d : enum_dict d -> is_dict d -> exists text, save_to_JSON d = Ok text.
Proof. intros He Hd. destruct (enum_dict_items d He) as [l ->]. eexists. now apply save_text. Qed.

Lemma documented_map t : map (fun kt => DEnum (fst kt)) (documented t) = map DEnum (keys_of t).
Proof. destruct t; reflexivity. Qed.

Lemma make_trunc_exact values d t :
  (make_trunc values = Ok d /\ key_list_type (List.length values) = Ok t) <-> dict_of_values t values d.
Proof.
  unfold make_trunc, dict_of_values. rewrite documented_map, key_list_type_inv. split.
  - intros [H E]. pose proof E as E'. apply key_list_type_inv in E'. rewrite E' in H. cbn [bind] in H.
    injection H as <-. now split.
  - intros [E ->]. split; [|exact E]. apply key_list_type_inv in E. rewrite E. reflexivity.
Qed.

Lemma dict_of_values_length t values d : dict_of_values t values d -> List.length d = List.length (documented t).
Proof. intros [E ->]. rewrite combine_length, map_length. lia. Qed.

Lemma dict_of_values_enum t values d : dict_of_values t values d -> enum_dict d /\ is_dict d.
Proof.
  intros [E ->]. rewrite documented_map. split; [apply combine_enum|]. apply combine_is_dict.
  pose proof (documented_nodup t) as H. destruct t; exact H.
Qed.

Lemma dict_of_values_get t values d k : dict_of_values t values d -> In k (keys_of t) -> exists v, dict_value d k = Ok v.
Proof.
  intros [E ->] Hk. rewrite documented_map. unfold dict_value.
  destruct t; cbn in E; cbn in Hk;
    repeat match goal with values : list Z |- _ => destruct values; cbn in E; try discriminate E end;
    repeat match goal with H : _ \/ _ |- _ => destruct H as [<-|H] end; try destruct Hk; cbn; eexists; reflexivity.
Qed.

Lemma valid_get t d k : is_dict d -> exactly_valid t d -> In k (keys_of t) -> exists v, dict_value d k = Ok v.
Proof.
  intros Hd [[_ Ha] _] Hk. destruct (Ha k (truncation_maximum k)) as [v [Hv _]]; [now apply documented_keys|].
  exists v. unfold dict_value. apply (dict_get_some d _ _ Hd) in Hv. now rewrite Hv.
Qed.

Lemma ktype_eqb_eq a b : ktype_eqb a b = true <-> a = b.
Proof. destruct a, b; split; intros H; try reflexivity; discriminate. Qed.

Lemma remove_f_iff a :
  match arg_remove_f a with Some s => negb (String.eqb s "") | None => false end = true <->
  exists s, arg_remove_f a = Some s /\ s <> ""%string.
Proof.
  destruct (arg_remove_f a) as [s|].
  - destruct (String.eqb_spec s "") as [->|Hs]; cbn [negb].
    + split; [discriminate|]. intros [s [E H]]. injection E as <-. congruence.
    + split; [intros _; now exists s|reflexivity].
  - split; [discriminate|]. intros [s [E _]]. discriminate.
Qed.

Lemma ansatz_of_name_inv s an : ansatz_of_name s = Ok an <-> s = ansatz_name an.
Proof.
  unfold ansatz_of_name. split.
  - destruct (String.eqb_spec s "eT_z_t ansatz") as [->|]; [intros H; injection H as <-; reflexivity|].
    destruct (String.eqb_spec s "z_t ansatz") as [->|]; [intros H; injection H as <-; reflexivity|].
    destruct (String.eqb_spec s "full cc") as [->|]; [intros H; injection H as <-; reflexivity|discriminate].
  - intros ->. destruct an; reflexivity.
Qed.

Lemma driver_sound file a saved c : driver_main file a = Ok (saved, c) ->
  exists t, source_ok file a t saved (gc_trunc c) /\ call_ok a t (gc_trunc c) c.
Proof.
  unfold driver_main.
  match goal with |- bind ?x _ = _ -> _ => set (st := x) end.
  assert (forall s d, st = Ok (s, d) -> exists t, key_list_type (List.length d) = Ok t /\ source_ok file a t s d) as Hst.
  { intros s d E. unfold st in E. destruct (arg_t a) as [values|] eqn:Et; destruct (arg_path a) as [p|] eqn:Ep; try discriminate.
    - destruct (make_trunc values) as [d'|] eqn:Ed; [|discriminate]. cbn [bind] in E.
      destruct (save_to_JSON d') as [text|] eqn:Etx; [|discriminate]. cbn [bind] in E. injection E as <- <-.
      destruct (key_list_type (List.length values)) as [t|] eqn:Ek; [|unfold make_trunc in Ed; rewrite Ek in Ed; discriminate].
      assert (dict_of_values t values d') as Hdv by now apply make_trunc_exact.
      exists t. split; [apply key_list_type_inv; now apply dict_of_values_length in Hdv|].
      left. exists values, text. repeat split; auto; apply Hdv.
    - destruct (file p) as [text|] eqn:Ef; [|discriminate].
      destruct (load_from_JSON text) as [d'|] eqn:El; [|discriminate]. cbn [bind] in E. injection E as <- <-.
      assert (load_trunc_from_JSON text None = Ok (Some d')) as Hl by (cbn [load_trunc_from_JSON]; now rewrite El).
      destruct (load_valid text d' Hl) as [Hd [t Hv]]. exists t. split.
      + apply key_list_type_inv. now apply exactly_valid_length.
      + right. exists p, text. repeat split; auto; apply Hv. }
  destruct st as [[s d]|] eqn:Est; [|discriminate]. cbn [bind fst snd]. intros H.
  destruct (Hst s d eq_refl) as [t [Ht Hsrc]]. clear Hst Est st.
  match type of H with bind ?x _ = _ => destruct x as [an'|] eqn:Ean end; [|discriminate]. cbn [bind] in H.
  unfold dispatch in H. rewrite Ht in H. cbn [bind] in H.
  destruct (ktype_eqb t (type_of_ansatz an')) eqn:Ek; cbn [negb bind] in H; [|discriminate].
  apply ktype_eqb_eq in Ek.
  match type of H with context [default_path ?k ?b ?c ?e ?f ?g] => destruct (default_path k b c e f g) as [path|] eqn:Ep end; [|discriminate].
  cbn [bind] in H. injection H as <- <-. exists t. cbn [gc_trunc]. split; [exact Hsrc|].
  unfold call_ok. cbn [gc_trunc gc_ansatz gc_kind gc_side gc_ground gc_remove_f].
  split; [reflexivity|]. split; [now subst t; destruct an'|]. repeat (split; [reflexivity|]).
  split; [apply remove_f_iff|]. split.
  - unfold ansatz_argument_ok. destruct (arg_ansatz a) as [nm|]; [|exact I].
    destruct (String.eqb nm "") eqn:En; [left; now apply String.eqb_eq|]. right. now apply ansatz_of_name_inv.
  - intros [-> Hk]. rewrite Hk in Ep. discriminate Ep.
Qed.

Lemma driver_complete file a t saved d an :
  source_ok file a t saved d -> ansatz_type an = t -> ansatz_argument_ok a an ->
  ~ (an = ZT /\ arg_code a = true) ->
  exists c, driver_main file a = Ok (saved, c) /\ call_ok a t d c.
Proof.
  intros Hsrc Han Harg Hzt.
  assert (key_list_type (List.length d) = Ok t /\ (forall k, In k (keys_of t) -> exists v, dict_value d k = Ok v)) as [Ht Hget].
  { destruct Hsrc as [(values & text & _ & _ & Hdv & _ & _)|(p & text & _ & _ & _ & Hl & Hv & _)].
    - split; [apply key_list_type_inv; now apply dict_of_values_length in Hdv|]. intros k. now apply (dict_of_values_get t values).
    - pose proof (proj1 (load_valid text d Hl)) as Hd.
      split; [apply key_list_type_inv; now apply exactly_valid_length|]. intros k. now apply valid_get. }
  assert (exists c, driver_main file a = Ok (saved, c) /\ gc_trunc c = d) as [c [Hc Hd]].
  { unfold driver_main.
    match goal with |- context [bind ?x ?f] => assert (x = Ok (saved, d)) as -> end.
    { destruct Hsrc as [(values & text & -> & -> & Hdv & Hs & ->)|(p & text & -> & -> & Hf & Hl & _ & ->)].
      - rewrite (proj1 (proj2 (make_trunc_exact values d t) Hdv)). cbn [bind]. rewrite Hs. reflexivity.
      - rewrite Hf. cbn [load_trunc_from_JSON] in Hl. destruct (load_from_JSON text) as [d'|]; [|discriminate].
        cbn [bind] in Hl |- *. now injection Hl as ->. }
    cbn [bind fst snd].
    assert (match arg_ansatz a with
           | Some name =>
               if String.eqb name "" then
                 bind (key_list_type (List.length d)) (fun t => Ok (ansatz_of_type t))
               else ansatz_of_name name
           | None => bind (key_list_type (List.length d)) (fun t => Ok (ansatz_of_type t))
           end = Ok an) as ->.
    { rewrite Ht. cbn [bind]. assert (ansatz_of_type t = an) as -> by (subst t; destruct an; reflexivity).
      unfold ansatz_argument_ok in Harg. destruct (arg_ansatz a) as [name|]; [|reflexivity].
      destruct Harg as [->| ->]; [reflexivity|]. destruct an; reflexivity. }
    cbn [bind]. unfold dispatch. rewrite Ht. cbn [bind].
    assert (ktype_eqb t (type_of_ansatz an) = true) as -> by (apply ktype_eqb_eq; subst t; destruct an; reflexivity).
    cbn [negb].
    match goal with |- context [default_path ?k ?b ?c ?e ?f ?g] => assert (exists path, default_path k b c e f g = Ok path) as [path ->] end.
    { destruct (arg_code a) eqn:Ec, an; try (eexists; reflexivity).
      - exfalso. now apply Hzt.
      - cbn [default_path]. subst t. unfold eT_python_path.
        destruct (Hget KH) as [h ->]; [cbn; tauto|]. destruct (Hget KP) as [p ->]; [cbn; tauto|].
        destruct (Hget KT) as [tt' ->]; [cbn; tauto|]. destruct (Hget KeT) as [e ->]; [cbn; tauto|].
        destruct (Hget KCC) as [z ->]; [cbn; tauto|]. cbn [bind]. eexists; reflexivity. }
    cbn [bind]. eexists. split; reflexivity. }
  exists c. split; [exact Hc|]. destruct (driver_sound file a saved c Hc) as [t' [Hs' Hok]].
  rewrite Hd in Hok, Hs'. assert (t' = t) as ->; [|exact Hok].
  assert (key_list_type (List.length d) = Ok t') as Ht'.
  { destruct Hs' as [(values & text & _ & _ & Hdv & _ & _)|(p & text & _ & _ & _ & Hl & Hv & _)].
    - apply key_list_type_inv; now apply dict_of_values_length in Hdv.
    - apply key_list_type_inv. apply exactly_valid_length; [exact (proj1 (load_valid text d Hl))|exact Hv]. }
  congruence.
Qed.

Lemma values_saved t values : List.length values = List.length (documented t) ->
  exists d text, dict_of_values t values d /\ save_to_JSON d = Ok text.
Proof.
  intros H. exists (combine (map (fun kt => DEnum (fst kt)) (documented t)) values).
  assert (dict_of_values t values (combine (map (fun kt => DEnum (fst kt)) (documented t)) values)) as Hdv by now split.
  destruct (dict_of_values_enum _ _ _ Hdv) as [He Hd]. destruct (save_ok _ He Hd) as [text Ht].
  exists text. now split.
Qed.

(** ** Default paths *)

Lemma str_Z_no_paren z : has_char ")" (str_Z z) = false.
Proof.
  destruct z as [|p|p]; cbn [str_Z].
  - reflexivity.
  - now apply str_nat_no_char.
  - cbn [String.append has_char]. now apply str_nat_no_char.
Qed.

Lemma str_Z_inj a b : str_Z a = str_Z b -> a = b.
Proof.
  assert (forall n s, str_nat n <> String "-" s) as Hneg.
  { intros n s E. pose proof (str_nat_digits n) as H. rewrite E in H. discriminate H. }
  intros H. destruct a as [|p|p], b as [|q|q]; cbn [str_Z] in H; try reflexivity.
  - apply str_nat_inj in H. rewrite Z2Nat.inj_0 in H. pose proof (Pos2Nat.is_pos q). unfold Z.to_nat in H. lia.
  - destruct (Hneg _ _ H).
  - apply str_nat_inj in H. unfold Z.to_nat in H. pose proof (Pos2Nat.is_pos p). lia.
  - apply str_nat_inj in H. unfold Z.to_nat in H. apply Pos2Nat.inj in H. now subst.
  - destruct (Hneg _ _ H).
  - symmetry in H. destruct (Hneg _ _ H).
  - symmetry in H. destruct (Hneg _ _ H).
  - cbn [String.append] in H. injection H as H. apply str_nat_inj, Pos2Nat.inj in H. now subst.
Qed.

Lemma split_paren a b r r' : (str_Z a ++ String ")" r)%string = (str_Z b ++ String ")" r')%string -> a = b /\ r = r'.
Proof.
  intros H.
  assert (forall s s' t t', has_char ")" s = false -> has_char ")" s' = false ->
     (s ++ String ")" t)%string = (s' ++ String ")" t')%string -> s = s' /\ t = t') as Hg.
  { clear. induction s as [|c s IH]; intros [|c' s'] t t' H1 H2 H; cbn [String.append has_char] in *.
    - injection H as ->. now split.
    - injection H as <- _. discriminate H2.
    - injection H as -> _. discriminate H1.
    - apply orb_false_iff in H1 as [_ H1]. apply orb_false_iff in H2 as [_ H2]. injection H as <- H.
      destruct (IH s' t t' H1 H2 H) as [<- <-]. now split. }
  apply Hg in H; [|apply str_Z_no_paren|apply str_Z_no_paren]. destruct H as [H ->]. split; [now apply str_Z_inj|reflexivity].
Qed.

Lemma dispatch_inv k a d gs rf s c : dispatch k a d gs rf s = Ok c ->
  gc_kind c = k /\ gc_ansatz c = a /\ gc_trunc c = d /\ gc_ground c = gs /\ gc_remove_f c = rf /\ gc_side c = s /\
  default_path k a d gs rf s = Ok (gc_path c).
Proof.
  unfold dispatch. destruct (key_list_type (List.length d)); [|discriminate]. cbn [bind].
  destruct (ktype_eqb a0 (type_of_ansatz a)); cbn [negb]; [|discriminate].
  destruct (default_path k a d gs rf s) as [path|]; [|discriminate]. cbn [bind]. intros H. injection H as <-.
  cbn. repeat split.
Qed.

Lemma eT_path_inv d s path : eT_python_path d s = Ok path ->
  exists h p t e z, dict_value d KH = Ok h /\ dict_value d KP = Ok p /\ dict_value d KT = Ok t /\
    dict_value d KeT = Ok e /\ dict_value d KCC = Ok z /\
    path = ("./eT_zhz_eqs_" ++ side_text "RHS" "LHS" s
      ++ "_H(" ++ str_Z h ++ ")_P(" ++ str_Z p ++ ")_T(" ++ str_Z t
      ++ ")_exp(" ++ str_Z e ++ ")_Z(" ++ str_Z z ++ ").py")%string.
Proof.
  unfold eT_python_path.
  destruct (dict_value d KH) as [h|]; [|discriminate]. destruct (dict_value d KP) as [p|]; [|discriminate].
  destruct (dict_value d KT) as [t|]; [|discriminate]. destruct (dict_value d KeT) as [e|]; [|discriminate].
  destruct (dict_value d KCC) as [z|]; [|discriminate]. cbn [bind]. intros H. injection H as <-.
  repeat eexists.
Qed.

Lemma eT_paths d s path d' s' path' :
  eT_python_path d s = Ok path -> eT_python_path d' s' = Ok path' ->
  (path = path' <-> s = s' /\ same_eT_values d d').
Proof.
  intros H H'. pose proof H as K. pose proof H' as K'. apply eT_path_inv in H as (h & p & t & e & z & Eh & Ep & Et & Ee & Ez & ->).
  apply eT_path_inv in H' as (h' & p' & t' & e' & z' & Eh' & Ep' & Et' & Ee' & Ez' & ->). split.
  - intros E. assert (s = s' /\ (str_Z h ++ ")_P(" ++ str_Z p ++ ")_T(" ++ str_Z t
      ++ ")_exp(" ++ str_Z e ++ ")_Z(" ++ str_Z z ++ ").py")%string = (str_Z h' ++ ")_P(" ++ str_Z p' ++ ")_T(" ++ str_Z t'
      ++ ")_exp(" ++ str_Z e' ++ ")_Z(" ++ str_Z z' ++ ").py")%string) as [-> E2].
    { destruct s, s'; cbn [side_text String.append] in E; try discriminate E; injection E as E; split; auto. }
    clear E. cbn [String.append] in E2.
    apply split_paren in E2 as [-> E2]. injection E2 as E2.
    apply split_paren in E2 as [-> E2]. injection E2 as E2.
    apply split_paren in E2 as [-> E2]. injection E2 as E2.
    apply split_paren in E2 as [-> E2]. injection E2 as E2.
    apply split_paren in E2 as [-> _]. split; [reflexivity|].
    intros k Hk. cbn in Hk. repeat destruct Hk as [<-|Hk]; try congruence. destruct Hk.
  - intros [-> Hs]. unfold eT_python_path in K, K'.
    rewrite (Hs KH), (Hs KP), (Hs KT), (Hs KeT), (Hs KCC) in K; try (cbn; tauto).
    exact (f_equal (fun r => match r with Ok x => x | Err _ => ""%string end) (eq_trans (eq_sym K) K')).
Qed.

Definition is_eT_python (k : kind) (a : ansatz) : bool :=
  match k, a with KPython, ETZT => true | _, _ => false end.

(** The fixed paths, decided over the finite table. *)
Definition fixed_targets : list (kind * ansatz * bool * bool * side) :=
  flat_map (fun ka => flat_map (fun gs => flat_map (fun rf => map (fun s => (ka, gs, rf, s)) [LHS; RHS]) [true; false]) [true; false])
    [(KLatex, FullCC); (KLatex, ZT); (KLatex, ETZT); (KPython, FullCC)].

Definition fixed_path (x : kind * ansatz * bool * bool * side) : string :=
  match x with (k, a, gs, rf, s) => match default_path k a [] gs rf s with Ok p => p | Err _ => "" end end.

Lemma NoDup_map_eq {A B} (f : A -> B) l : NoDup (map f l) ->
  forall x y, In x l -> In y l -> f x = f y -> x = y.
Proof.
  induction l as [|z l IH]; cbn [map]; intros H x y Hx Hy E; [destruct Hx|].
  inversion H as [|? ? Hni Hnd]; subst. destruct Hx as [<-|Hx]; destruct Hy as [<-|Hy]; [reflexivity| | |now apply IH].
  - destruct Hni. rewrite E. now apply in_map.
  - destruct Hni. rewrite <- E. now apply in_map.
Qed.

Lemma fixed_path_inj : forall x y, In x fixed_targets -> In y fixed_targets -> fixed_path x = fixed_path y -> x = y.
Proof.
  assert (NoDup (map fixed_path fixed_targets)) as H.
  { assert (dedup String.eqb (map fixed_path fixed_targets) = map fixed_path fixed_targets) as <- by (vm_compute; reflexivity).
    apply nodup_dedup. intros a b. apply String.eqb_eq. }
  intros x y. exact (NoDup_map_eq fixed_path fixed_targets H x y).
Qed.

Lemma default_path_fixed k a d gs rf s p : is_eT_python k a = false -> default_path k a d gs rf s = Ok p ->
  In (k, a, gs, rf, s) fixed_targets /\ p = fixed_path (k, a, gs, rf, s).
Proof.
  intros Hk H. split.
  - destruct k, a; try discriminate Hk; try discriminate H; destruct gs, rf, s; cbn; tauto.
  - destruct k, a; try discriminate Hk; try discriminate H; cbn [default_path] in H; injection H as <-; reflexivity.
Qed.

Lemma fixed_not_eT x d s path : In x fixed_targets -> eT_python_path d s = Ok path -> fixed_path x <> path.
Proof.
  intros Hx H. apply eT_path_inv in H as (?&?&?&?&?&_&_&_&_&_&->).
  unfold fixed_targets in Hx. cbn in Hx.
  repeat destruct Hx as [<-|Hx]; try (intros E; discriminate E). destruct Hx.
Qed.

Lemma paths_exact k a d gs rf s c k' a' d' gs' rf' s' c' :
  dispatch k a d gs rf s = Ok c -> dispatch k' a' d' gs' rf' s' = Ok c' ->
  (gc_path c = gc_path c' <-> same_target c c').
Proof.
  intros H H'. apply dispatch_inv in H as (E1 & E2 & E3 & E4 & E5 & E6 & E).
  apply dispatch_inv in H' as (E1' & E2' & E3' & E4' & E5' & E6' & E').
  unfold same_target. rewrite E1, E2, E3, E4, E5, E6, E1', E2', E3', E4', E5', E6'.
  change (match k, a with KPython, ETZT => true | _, _ => false end) with (is_eT_python k a).
  destruct (is_eT_python k a) eqn:Hk; destruct (is_eT_python k' a') eqn:Hk'.
  - destruct k, a; try discriminate Hk. destruct k', a'; try discriminate Hk'. cbn [default_path] in E, E'.
    rewrite (eT_paths _ _ _ _ _ _ E E'). intuition.
  - destruct k, a; try discriminate Hk. cbn [default_path] in E.
    destruct (default_path_fixed _ _ _ _ _ _ _ Hk' E') as [Hin ->].
    split; [intros Ep; symmetry in Ep; now apply (fixed_not_eT _ _ _ _ Hin E) in Ep|].
    intros [<- [<- _]]. discriminate Hk'.
  - destruct k', a'; try discriminate Hk'. cbn [default_path] in E'.
    destruct (default_path_fixed _ _ _ _ _ _ _ Hk E) as [Hin ->].
    split; [intros Ep; now apply (fixed_not_eT _ _ _ _ Hin E') in Ep|].
    intros [-> [-> _]]. discriminate Hk.
  - destruct (default_path_fixed _ _ _ _ _ _ _ Hk E) as [Hin ->].
    destruct (default_path_fixed _ _ _ _ _ _ _ Hk' E') as [Hin' ->]. split.
    + intros Ep. apply (fixed_path_inj _ _ Hin Hin') in Ep. injection Ep as -> -> -> -> ->. repeat split.
    + intros [-> [-> [-> [-> ->]]]]. reflexivity.
Qed.
