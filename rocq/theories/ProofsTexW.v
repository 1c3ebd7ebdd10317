(** What TeX reads in the LaTeX of the W operators. *)
From Coq Require Import Permutation Lia.
From Verif Require Import PyBase PyStr ProofsStr ProofsTrunc ModelHelper ModelTrunc ModelLatexW.
From Verif Require Import SpecPartitions SpecW SpecLatexW SpecTex SpecTexW ProofsTex ProofsLatexW.
Open Scope string_scope.

(** ** Pieces of text *)

Definition reads (st : state) (s : string) (st' : state) (l : list atom) : Prop :=
  exists ts, scan st s = (st', ts) /\ list_text ts l.

Lemma reads_app st a st1 l b st2 m :
  reads st a st1 l -> reads st1 b st2 m -> reads st (a ++ b) st2 (l ++ m)%list.
Proof.
  intros [ts [E H]] [us [F K]]. exists (ts ++ us)%list. split.
  - exact (scan_two _ _ _ _ _ _ _ E F).
  - exact (list_text_app _ _ _ _ H K).
Qed.

Lemma reads_nil st : reads st "" st [].
Proof. exists []. split; [reflexivity|constructor]. Qed.

Definition ch (c : ascii) : atom := Atom (One (Char c)) None None.
Definition cmd (s : string) : atom := Atom (One (Command s)) None None.
Definition digits (s : string) : list atom := map ch (chars s).
Definition num (n : nat) : field := Group (digits (str_nat n)).

Lemma list_text_chars l : list_text (map Char l) (map ch l).
Proof.
  induction l as [|c l IH]; [constructor|].
  change (map Char (c :: l)) with ([Char c] ++ map Char l)%list. cbn [map].
  apply one_more; [|exact IH]. apply no_script, one_token. exact I.
Qed.

Lemma digit_char_cases c : is_digit_char c = true ->
  In c ["0"; "1"; "2"; "3"; "4"; "5"; "6"; "7"; "8"; "9"]%char.
Proof.
  destruct c as [[] [] [] [] [] [] [] []]; intros H; vm_compute in H; try discriminate H; cbn; auto 20.
Qed.

Lemma digit_step st c : fresh st -> is_digit_char c = true -> step st c = (Middle, [Char c]).
Proof.
  intros Hs Hc. apply digit_char_cases in Hc.
  destruct Hs as [->|[->| ->]]; cbn in Hc; repeat destruct Hc as [<-|Hc]; try reflexivity; destruct Hc.
Qed.

Lemma scan_digits s : forall st, fresh st -> all_digits s = true -> s <> "" ->
  scan st s = (Middle, map Char (chars s)).
Proof.
  induction s as [|c s IH]; intros st Hst H Hne; [now elim Hne|].
  cbn [all_digits] in H. apply andb_true_iff in H as [Hc Hs].
  cbn [scan chars map]. rewrite (digit_step _ _ Hst Hc).
  destruct s as [|d s]; [reflexivity|].
  rewrite IH; [reflexivity|right; left; reflexivity|exact Hs|discriminate].
Qed.

Lemma str_nat_ne n : str_nat n <> "".
Proof. destruct (str_nat_head n) as [c [r ->]]. discriminate. Qed.

Lemma scan_number n st : fresh st -> scan st (str_nat n) = (Middle, map Char (chars (str_nat n))).
Proof. intros H. apply scan_digits; [exact H|apply str_nat_digits|apply str_nat_ne]. Qed.

Lemma middle_fresh : fresh Middle. Proof. right; left; reflexivity. Qed.

(** ** Numbers are read back *)

Lemma decimal_uint d : forall acc,
  decimal acc (digits (DecimalString.NilEmpty.string_of_uint d)) = Some (Nat.of_uint_acc d acc).
Proof.
  induction d as [|d IH|d IH|d IH|d IH|d IH|d IH|d IH|d IH|d IH|d IH]; intros acc; [reflexivity|..];
    unfold digits; cbn [DecimalString.NilEmpty.string_of_uint chars map Nat.of_uint_acc decimal ch];
    match goal with |- context [digit ?c] => let v := eval vm_compute in (digit c) in change (digit c) with v end;
    cbv beta iota; unfold digits in IH; rewrite IH; f_equal;
    rewrite Nat.tail_mul_spec; f_equal; lia.
Qed.

Lemma decimal_number n : decimal 0 (digits (str_nat n)) = Some n.
Proof.
  unfold str_nat. rewrite decimal_uint. f_equal. apply DecimalNat.Unsigned.of_to.
Qed.

Lemma number_num n : number (num n) = Some n.
Proof.
  pose proof (decimal_number n) as H. unfold num.
  destruct (str_nat_head n) as [c [r E]]. rewrite E in *. exact H.
Qed.

Lemma small_number k : k <= 9 -> exists c, str_nat k = String c "" /\ digit c = Some k.
Proof.
  intros H. do 10 (destruct k as [|k]; [eexists; split; vm_compute; reflexivity|]). lia.
Qed.

Lemma large_number k : 10 <= k -> exists c d r, str_nat k = String c (String d r).
Proof.
  intros H. pose proof (decimal_number k) as E. unfold digits in E.
  pose proof (str_nat_digits k) as D.
  destruct (str_nat k) as [|c [|d r]] eqn:Es.
  - now destruct (str_nat_ne k).
  - cbn [all_digits] in D. apply andb_true_iff in D as [D _]. apply digit_char_cases in D.
    cbn in D. repeat destruct D as [<-|D]; try (vm_compute in E; injection E as <-; lia). destruct D.
  - eauto.
Qed.

(** ** Factors *)

Definition bt_atom (t : nat * nat) : atom :=
  Atom (One (Command "bt"))
    (if Nat.eqb (fst t) 0 then None else Some (num (fst t)))
    (if Nat.eqb (fst t) 0 then Some (num (snd t)) else
     if Nat.eqb (snd t) 0 then None else Some (num (snd t))).

Definition factor_atoms (f : (nat * nat) * nat) : list atom :=
  let (t, k) := f in
  if Nat.eqb k 1 then [bt_atom t]
  else match str_nat k with
       | String c r => ch "(" :: bt_atom t :: Atom (One (Char ")")) (Some (One (Char c))) None :: digits r
       | EmptyString => []
       end.

Lemma amplitude_bt t : amplitude_read (bt_atom t) = Some t.
Proof.
  destruct t as [m n]. unfold bt_atom. cbn [fst snd].
  destruct (Nat.eqb_spec m 0) as [->|Hm]; cbn [amplitude_read script].
  - now rewrite number_num.
  - rewrite number_num. destruct (Nat.eqb_spec n 0) as [->|Hn]; cbn [script]; [reflexivity|].
    now rewrite number_num.
Qed.

Lemma field_num n : field_text (Open :: map Char (chars (str_nat n)) ++ [Close])%list (num n).
Proof. apply group, list_text_chars. Qed.

(** the text of an amplitude *)
Definition bt_text (t : nat * nat) : string :=
  if Nat.eqb (fst t) 0 then "\bt_{" ++ str_nat (snd t) ++ "}"
  else if Nat.eqb (snd t) 0 then "\bt^{" ++ str_nat (fst t) ++ "}"
  else "\bt^{" ++ str_nat (fst t) ++ "}_{" ++ str_nat (snd t) ++ "}".

Lemma scan_script st a n : forall ts, scan st a = (Middle, ts) ->
  scan st (a ++ str_nat n ++ "}") = (Middle, ts ++ map Char (chars (str_nat n)) ++ [Close])%list.
Proof.
  intros ts H. apply (scan_two _ _ _ _ _ _ _ H).
  apply scan_two with (st1 := Middle); [apply scan_number, middle_fresh|reflexivity].
Qed.

Lemma bt_reads t st : fresh st -> reads st (bt_text t) Middle [bt_atom t].
Proof.
  intros Hst. destruct t as [m n]. unfold bt_text, bt_atom. cbn [fst snd].
  destruct (Nat.eqb_spec m 0) as [->|Hm]; [|destruct (Nat.eqb_spec n 0) as [->|Hn]].
  - exists ([Command "bt"; Sub; Open] ++ map Char (chars (str_nat n)) ++ [Close])%list. split.
    + apply scan_script. destruct Hst as [->|[->| ->]]; reflexivity.
    + apply list_text_one.
      apply (sub_only [Command "bt"] _ (Open :: map Char (chars (str_nat n)) ++ [Close])%list);
        [apply one_token; exact I|apply field_num].
  - exists ([Command "bt"; Sup; Open] ++ map Char (chars (str_nat m)) ++ [Close])%list. split.
    + apply scan_script. destruct Hst as [->|[->| ->]]; reflexivity.
    + apply list_text_one.
      apply (sup_only [Command "bt"] _ (Open :: map Char (chars (str_nat m)) ++ [Close])%list);
        [apply one_token; exact I|apply field_num].
  - exists ([Command "bt"] ++ Sup :: (Open :: map Char (chars (str_nat m)) ++ [Close])
              ++ Sub :: (Open :: map Char (chars (str_nat n)) ++ [Close]))%list. split.
    + replace ("\bt^{" ++ str_nat m ++ "}_{" ++ str_nat n ++ "}")
        with (("\bt^{" ++ str_nat m ++ "}") ++ "_{" ++ str_nat n ++ "}")
        by (now rewrite !append_assoc).
      rewrite (scan_two _ _ _ Middle Middle
        ([Command "bt"; Sup; Open] ++ map Char (chars (str_nat m)) ++ [Close])
        ([Sub; Open] ++ map Char (chars (str_nat n)) ++ [Close])).
      * cbn [app]. rewrite <- !app_assoc. reflexivity.
      * apply scan_script. destruct Hst as [->|[->| ->]]; reflexivity.
      * apply scan_script. reflexivity.
    + apply list_text_one. apply sup_sub; [apply one_token; exact I|apply field_num|apply field_num].
Qed.

Lemma render_factor_text t k :
  render_excited_factor (t, k)
  = if Nat.eqb k 1 then bt_text t else "(" ++ bt_text t ++ ")^" ++ str_nat k.
Proof. destruct t as [m n]. reflexivity. Qed.

Lemma factor_reads f st : fresh st -> reads st (render_excited_factor f) Middle (factor_atoms f).
Proof.
  intros Hst. destruct f as [t k]. rewrite render_factor_text. unfold factor_atoms.
  destruct (Nat.eqb_spec k 1) as [->|Hk]; [apply bt_reads, Hst|].
  pose proof (str_nat_digits k) as D. destruct (str_nat_head k) as [c [r E]]. rewrite E in *.
  apply (reads_app _ "(" Middle [ch "("]).
  { exists [Char "("]. split; [destruct Hst as [->|[->| ->]]; reflexivity|].
    apply list_text_one, no_script, one_token. exact I. }
  apply (reads_app _ _ Middle [bt_atom t]); [apply bt_reads, middle_fresh|].
  exists ([Char ")"; Sup] ++ map Char (chars (String c r)))%list. split.
  - apply scan_two with (st1 := Middle); [reflexivity|].
    apply scan_digits; [apply middle_fresh|exact D|discriminate].
  - change ([Char ")"; Sup] ++ map Char (chars (String c r)))%list
      with (([Char ")"] ++ Sup :: [Char c]) ++ map Char (chars r))%list.
    apply one_more; [|apply list_text_chars].
    apply sup_only; apply one_token; exact I.
Qed.

Lemma factors_reads d : reads Middle (concat_str (map render_excited_factor d)) Middle (flat_map factor_atoms d).
Proof.
  induction d as [|f d IH]; [apply reads_nil|].
  cbn [map concat_str flat_map]. eapply reads_app; [apply factor_reads, middle_fresh|exact IH].
Qed.

Lemma factors_reads_fresh d st : fresh st -> d <> [] ->
  reads st (concat_str (map render_excited_factor d)) Middle (flat_map factor_atoms d).
Proof.
  intros Hst Hd. destruct d as [|f d]; [now elim Hd|].
  cbn [map concat_str flat_map]. eapply reads_app; [apply factor_reads, Hst|apply factors_reads].
Qed.

(** what a reader makes of the factors *)
Lemma factors_read_power t c l :
  factors_read (ch "(" :: bt_atom t :: Atom (One (Char ")")) (Some (One (Char c))) None :: l)
  = match digit c with Some k => option_map (cons (t, k)) (factors_read l) | None => None end.
Proof.
  cbn [factors_read]. unfold ch at 1. cbn [amplitude_read number]. rewrite amplitude_bt. reflexivity.
Qed.

Lemma factors_read_small d : Forall (fun f : (nat * nat) * nat => snd f <= 9) d ->
  factors_read (flat_map factor_atoms d) = Some d.
Proof.
  induction d as [|[t k] d IH]; intros H; [reflexivity|].
  inversion H as [|? ? Hk Hd]; subst. cbn [snd] in Hk. specialize (IH Hd).
  cbn [flat_map factor_atoms]. destruct (Nat.eqb_spec k 1) as [->|Hk1].
  - cbn [app factors_read]. rewrite amplitude_bt, IH. reflexivity.
  - destruct (small_number k Hk) as [c [E Ec]]. rewrite E.
    cbn [digits chars map app]. rewrite factors_read_power, Ec, IH. reflexivity.
Qed.

Lemma factors_read_digit c l : is_digit_char c = true -> factors_read (ch c :: l) = None.
Proof.
  intros H. apply digit_char_cases in H. cbn in H. repeat destruct H as [<-|H]; try reflexivity. destruct H.
Qed.

Lemma factors_read_large d : Exists (fun f : (nat * nat) * nat => 10 <= snd f) d ->
  factors_read (flat_map factor_atoms d) = None.
Proof.
  induction d as [|[t k] d IH]; intros H; [inversion H|].
  cbn [flat_map factor_atoms].
  destruct (le_lt_dec 10 k) as [Hk|Hk].
  - destruct (Nat.eqb_spec k 1) as [->|Hk1]; [lia|].
    pose proof (str_nat_digits k) as D. destruct (large_number k Hk) as [c [e [r E]]]. rewrite E in *.
    cbn [all_digits] in D. apply andb_true_iff in D as [_ D]. apply andb_true_iff in D as [D _].
    cbn [digits chars map app]. rewrite factors_read_power.
    rewrite (factors_read_digit e _ D). destruct (digit c); reflexivity.
  - assert (He : Exists (fun f : (nat * nat) * nat => 10 <= snd f) d).
    { inversion H as [? ? H1|? ? H1]; subst; [cbn in H1; lia|exact H1]. }
    specialize (IH He). destruct (Nat.eqb_spec k 1) as [->|Hk1].
    + cbn [app factors_read]. rewrite amplitude_bt, IH. reflexivity.
    + destruct (small_number k ltac:(lia)) as [c [E Ec]]. rewrite E.
      cbn [digits chars map app]. rewrite factors_read_power, Ec, IH. reflexivity.
Qed.

(** ** Products *)

Fixpoint glue (sep : list atom) (l : list (list atom)) : list atom :=
  match l with
  | [] => []
  | [x] => x
  | x :: r => (x ++ sep ++ glue sep r)%list
  end.

Definition den_atoms (l : list nat) : list atom :=
  glue [ch "*"] (map (fun k => digits (str_nat k) ++ [ch "!"])%list l).

Definition prefactor_atoms (l : list nat) : list atom :=
  match l with
  | [] => []
  | _ => [cmd "frac"; Atom (Group [ch "1"]) None None; Atom (Group (den_atoms l)) None None]
  end.

Definition product_atoms (d : list ((nat * nat) * nat)) : list atom :=
  (prefactor_atoms (generate_w_prefactor d) ++ flat_map factor_atoms d)%list.

Lemma reads_char c st : fresh st -> (forall st, fresh st -> step st c = (Middle, [Char c])) ->
  reads st (String c "") Middle [ch c].
Proof.
  intros Hst H. exists [Char c]. split; [cbn [scan]; rewrite (H _ Hst); reflexivity|].
  apply list_text_one, no_script, one_token. exact I.
Qed.

Lemma number_reads n st : fresh st -> reads st (str_nat n) Middle (digits (str_nat n)).
Proof. intros H. exists (map Char (chars (str_nat n))). split; [apply scan_number, H|apply list_text_chars]. Qed.

Lemma den_reads l : reads Middle (join "*" (map (fun k => str_nat k ++ "!") l)) Middle (den_atoms l).
Proof.
  unfold den_atoms. induction l as [|k l IH]; [apply reads_nil|].
  assert (Hk : reads Middle (str_nat k ++ "!") Middle (digits (str_nat k) ++ [ch "!"])%list).
  { eapply reads_app; [apply number_reads, middle_fresh|].
    apply reads_char; [apply middle_fresh|]. intros st [->|[->| ->]]; reflexivity. }
  destruct l as [|k' l]; [exact Hk|].
  cbn [map join glue] in *. eapply reads_app; [exact Hk|].
  eapply reads_app; [|exact IH].
  apply reads_char; [apply middle_fresh|]. intros st [->|[->| ->]]; reflexivity.
Qed.

Lemma prefactor_reads l st : fresh st -> l <> [] ->
  reads st (render_w_prefactor l) Middle (prefactor_atoms l).
Proof.
  intros Hst Hl. destruct l as [|k l]; [now elim Hl|].
  unfold render_w_prefactor, prefactor_atoms.
  destruct (den_reads (k :: l)) as [ts [E H]].
  exists ([Command "frac"] ++ ([Open; Char "1"; Close] ++ (Open :: ts ++ [Close])))%list. split.
  - replace ([Command "frac"] ++ [Open; Char "1"; Close] ++ Open :: ts ++ [Close])%list
      with ([Command "frac"; Open; Char "1"; Close; Open] ++ ts ++ [Close])%list by reflexivity.
    apply scan_two with (st1 := Middle); [destruct Hst as [->|[->| ->]]; reflexivity|].
    apply scan_two with (st1 := Middle); [exact E|reflexivity].
  - apply one_more; [apply no_script, one_token; exact I|].
    apply one_more.
    + apply no_script. apply (group [Char "1"]). apply (list_text_chars ["1"%char]).
    + apply list_text_one, no_script, group. exact H.
Qed.

Lemma product_reads d st : fresh st -> d <> [] ->
  reads st (render_excited_product d) Middle (product_atoms d).
Proof.
  intros Hst Hd. unfold render_excited_product, product_atoms.
  destruct (generate_w_prefactor d) as [|k l] eqn:E.
  - apply factors_reads_fresh; assumption.
  - eapply reads_app; [apply prefactor_reads; [exact Hst|discriminate]|apply factors_reads].
Qed.

Lemma factorials_read_digits s : forall acc rest, all_digits s = true ->
  factorials_read acc (digits s ++ ch "!" :: rest)%list
  = match decimal acc (digits s) with
    | Some k => factorials_read k (ch "!" :: rest)
    | None => None
    end.
Proof.
  induction s as [|c s IH]; intros acc rest H; [reflexivity|].
  cbn [all_digits] in H. apply andb_true_iff in H as [Hc Hs].
  assert (E : forall l, factorials_read acc (ch c :: l)
          = match digit c with Some d => factorials_read (10 * acc + d) l | None => None end).
  { intros l. apply digit_char_cases in Hc. cbn in Hc.
    repeat destruct Hc as [<-|Hc]; try reflexivity. destruct Hc. }
  assert (F : forall l, decimal acc (ch c :: l)
          = match digit c with Some d => decimal (10 * acc + d) l | None => None end) by reflexivity.
  change (digits (String c s)) with (ch c :: digits s). cbn [app]. rewrite E, F.
  destruct (digit c) as [d|]; [|reflexivity].
  apply IH. exact Hs.
Qed.

Lemma factorials_read_next acc r :
  factorials_read acc (ch "!" :: ch "*" :: r) = option_map (cons acc) (factorials_read 0 r).
Proof. reflexivity. Qed.

Lemma factorials_read_den l : l <> [] -> factorials_read 0 (den_atoms l) = Some l.
Proof.
  intros Hl. unfold den_atoms. induction l as [|k l IH]; [now elim Hl|]. clear Hl.
  destruct l as [|k' l].
  - cbn [map glue]. rewrite factorials_read_digits by apply str_nat_digits.
    rewrite decimal_number. reflexivity.
  - specialize (IH ltac:(discriminate)). cbn [map] in *.
    change (glue [ch "*"] ((digits (str_nat k) ++ [ch "!"])%list
              :: (digits (str_nat k') ++ [ch "!"])%list :: map (fun k => (digits (str_nat k) ++ [ch "!"])%list) l))
      with ((digits (str_nat k) ++ [ch "!"]) ++ [ch "*"]
              ++ glue [ch "*"] ((digits (str_nat k') ++ [ch "!"])%list
                                  :: map (fun k => (digits (str_nat k) ++ [ch "!"])%list) l))%list.
    revert IH. generalize (glue [ch "*"] ((digits (str_nat k') ++ [ch "!"])%list
                                  :: map (fun k => (digits (str_nat k) ++ [ch "!"])%list) l)).
    intros r IH. rewrite <- app_assoc. cbn [app].
    rewrite factorials_read_digits by apply str_nat_digits.
    rewrite decimal_number.
    rewrite factorials_read_next, IH. reflexivity.
Qed.

Lemma factor_atoms_head f : exists a l, factor_atoms f = a :: l /\ (a = bt_atom (fst f) \/ a = ch "(").
Proof.
  destruct f as [t k]. unfold factor_atoms. destruct (Nat.eqb k 1); [eauto|].
  destruct (str_nat_head k) as [c [r ->]]. eauto.
Qed.

Lemma product_read_factors d : d <> [] ->
  product_read (product_atoms d)
  = option_map (pair (generate_w_prefactor d)) (factors_read (flat_map factor_atoms d)).
Proof.
  intros Hd. unfold product_atoms. destruct (generate_w_prefactor d) as [|k l] eqn:E.
  - cbn [prefactor_atoms app]. destruct d as [|f d]; [now elim Hd|].
    destruct (factor_atoms_head f) as [a [q [F H]]]. cbn [flat_map]. rewrite F. cbn [app].
    destruct H as [->| ->]; reflexivity.
  - cbn [prefactor_atoms app].
    assert (P : forall den r, product_read (cmd "frac" :: Atom (Group [ch "1"]) None None :: Atom (Group den) None None :: r)
                = match factorials_read 0 den, factors_read r with Some d, Some f => Some (d, f) | _, _ => None end)
      by reflexivity.
    rewrite P. rewrite (factorials_read_den (k :: l)) by discriminate.
    destruct (factors_read _); reflexivity.
Qed.

Lemma product_read_small d : d <> [] -> Forall (fun f : (nat * nat) * nat => snd f <= 9) d ->
  product_read (product_atoms d) = Some (generate_w_prefactor d, d).
Proof. intros Hd H. rewrite (product_read_factors d Hd), (factors_read_small d H). reflexivity. Qed.

Lemma product_read_large d : Exists (fun f : (nat * nat) * nat => 10 <= snd f) d ->
  product_read (product_atoms d) = None.
Proof.
  intros H. rewrite product_read_factors; [|intros ->; inversion H].
  rewrite (factors_read_large d H). reflexivity.
Qed.

(** ** Sums *)

Lemma separated_app sep x r : forallb (fun a => negb (sep a)) x = true ->
  separated sep (x ++ r) = match separated sep r with y :: ys => (x ++ y) :: ys | [] => [x] end%list.
Proof.
  induction x as [|a x IH]; intros H; cbn [app].
  - destruct (separated sep r) as [|y ys] eqn:E; [|reflexivity].
    destruct r as [|b r]; [discriminate|]. cbn in E. destruct (sep b); [discriminate|].
    destruct (separated sep r); discriminate.
  - cbn [forallb] in H. apply andb_true_iff in H as [Ha Hx].
    cbn [separated]. apply negb_true_iff in Ha. rewrite Ha, (IH Hx).
    destruct (separated sep r); reflexivity.
Qed.

Lemma separated_glue sep s pieces : sep s = true ->
  Forall (fun x => forallb (fun a => negb (sep a)) x = true) pieces -> pieces <> [] ->
  separated sep (glue [s] pieces) = pieces.
Proof.
  intros Hs H Hne. induction H as [|x l Hx Hl IH]; [now elim Hne|]. clear Hne.
  destruct l as [|y l].
  - cbn [glue]. rewrite <- (app_nil_r x) at 1. rewrite (separated_app _ _ _ Hx). cbn.
    now rewrite app_nil_r.
  - change (glue [s] (x :: y :: l)) with (x ++ [s] ++ glue [s] (y :: l))%list.
    rewrite (separated_app _ _ _ Hx). cbn [app separated]. rewrite Hs, IH by discriminate.
    now rewrite app_nil_r.
Qed.

Definition no_atom (p : atom -> bool) (l : list atom) : Prop := forallb (fun a => negb (p a)) l = true.

Lemma no_atom_app p a b : no_atom p a -> no_atom p b -> no_atom p (a ++ b).
Proof. unfold no_atom. intros. rewrite forallb_app. now apply andb_true_iff. Qed.

(** a top-level "+" or "\\" *)
Definition top (a : atom) : bool :=
  is_char "+" a || (is_command "\" a || (is_command "begin" a || is_command "end" a)).

Lemma no_top_weaken p l : (forall a, p a = true -> top a = true) -> no_atom top l -> no_atom p l.
Proof.
  intros H. unfold no_atom. rewrite !forallb_forall. intros K a Ha. specialize (K a Ha).
  apply negb_true_iff in K. apply negb_true_iff. destruct (p a) eqn:E; [|reflexivity].
  rewrite (H a E) in K. discriminate.
Qed.
Lemma plus_top a : is_char "+" a = true -> top a = true.
Proof. unfold top. intros ->. reflexivity. Qed.
Lemma row_top a : is_command "\" a = true -> top a = true.
Proof. unfold top. intros ->. rewrite !orb_true_r. reflexivity. Qed.
Lemma begin_top a : is_command "begin" a = true -> top a = true.
Proof. unfold top. intros ->. cbn. now rewrite !orb_true_r. Qed.
Lemma end_top a : is_command "end" a = true -> top a = true.
Proof. unfold top. intros ->. now rewrite !orb_true_r. Qed.

Lemma digits_no_top s : all_digits s = true -> no_atom top (digits s).
Proof.
  induction s as [|c s IH]; intros H; [reflexivity|].
  cbn [all_digits] in H. apply andb_true_iff in H as [Hc Hs].
  change (digits (String c s)) with ([ch c] ++ digits s)%list. apply no_atom_app; [|apply IH, Hs].
  apply digit_char_cases in Hc. cbn in Hc. repeat destruct Hc as [<-|Hc]; try reflexivity. destruct Hc.
Qed.

Lemma bt_no_top t : no_atom top [bt_atom t].
Proof. destruct t as [[|m] [|n]]; reflexivity. Qed.

Lemma factor_no_top f : no_atom top (factor_atoms f).
Proof.
  destruct f as [t k]. unfold factor_atoms. destruct (Nat.eqb k 1).
  - apply bt_no_top.
  - pose proof (str_nat_digits k) as D. destruct (str_nat k) as [|c r]; [reflexivity|].
    cbn [all_digits] in D. apply andb_true_iff in D as [_ D].
    change (ch "(" :: bt_atom t :: Atom (One (Char ")")) (Some (One (Char c))) None :: digits r)
      with ([ch "("] ++ [bt_atom t] ++ [Atom (One (Char ")")) (Some (One (Char c))) None] ++ digits r)%list.
    apply no_atom_app; [reflexivity|]. apply no_atom_app; [apply bt_no_top|].
    apply no_atom_app; [reflexivity|apply digits_no_top, D].
Qed.

Lemma product_no_top d : no_atom top (product_atoms d).
Proof.
  unfold product_atoms. apply no_atom_app.
  - destruct (generate_w_prefactor d); reflexivity.
  - induction d as [|f d IH]; [reflexivity|]. cbn [flat_map]. apply no_atom_app; [apply factor_no_top|exact IH].
Qed.

Definition sum_atoms (ps : list (list ((nat * nat) * nat))) : list atom :=
  glue [ch "+"] (map product_atoms ps).

Lemma sum_reads ps : forall st, fresh st -> Forall (fun d => d <> []) ps -> ps <> [] ->
  reads st (join " + " (map render_excited_product ps)) Middle (sum_atoms ps).
Proof.
  unfold sum_atoms. induction ps as [|d ps IH]; intros st Hst H Hne; [now elim Hne|].
  inversion H as [|? ? Hd Hps]; subst. destruct ps as [|d' ps].
  - cbn [map join glue]. apply product_reads; assumption.
  - cbn [map join glue] in *. eapply reads_app; [apply product_reads; assumption|].
    eapply reads_app with (st1 := Skipping); [|apply IH; [right; right; reflexivity|exact Hps|discriminate]].
    exists [Char "+"]. split; [reflexivity|]. apply (list_text_chars ["+"%char]).
Qed.

Lemma sum_read_every ps : ps <> [] ->
  sum_read (sum_atoms ps) = every product_read (map product_atoms ps).
Proof.
  intros H. unfold sum_read, sum_atoms. rewrite separated_glue; [reflexivity|reflexivity| |].
  - apply Forall_map, Forall_forall. intros d _. apply (no_top_weaken _ _ plus_top), product_no_top.
  - destruct ps; [now elim H|discriminate].
Qed.

Lemma every_some {A B} (f : A -> option B) (g : A -> B) l :
  Forall (fun x => f x = Some (g x)) l -> every f l = Some (map g l).
Proof. induction 1 as [|x l Hx Hl IH]; [reflexivity|]. cbn [every map]. now rewrite Hx, IH. Qed.

Lemma every_none {A B} (f : A -> option B) l : Exists (fun x => f x = None) l -> every f l = None.
Proof.
  induction 1 as [x l Hx|x l _ IH]; cbn [every]; [now rewrite Hx|]. rewrite IH. destruct (f x); reflexivity.
Qed.

Lemma every_map {A B C} (f : B -> option C) (h : A -> B) l : every f (map h l) = every (fun x => f (h x)) l.
Proof. induction l as [|x l IH]; [reflexivity|]. cbn [map every]. now rewrite IH. Qed.

Definition printed (d : list ((nat * nat) * nat)) : list nat * list ((nat * nat) * nat) :=
  (generate_w_prefactor d, d).

Definition small (d : list ((nat * nat) * nat)) : Prop := Forall (fun f => snd f <= 9) d.
Definition large (d : list ((nat * nat) * nat)) : Prop := Exists (fun f => 10 <= snd f) d.

Lemma sum_read_small ps : ps <> [] -> Forall (fun d => d <> []) ps -> Forall small ps ->
  sum_read (sum_atoms ps) = Some (map printed ps).
Proof.
  intros Hne H Hs. rewrite (sum_read_every ps Hne), every_map. apply every_some.
  rewrite Forall_forall in *. intros d Hd. apply product_read_small; [apply H, Hd|apply Hs, Hd].
Qed.

Lemma sum_read_large ps : Exists large ps -> sum_read (sum_atoms ps) = None.
Proof.
  intros H. rewrite sum_read_every; [|intros ->; inversion H]. rewrite every_map. apply every_none.
  apply Exists_exists in H. destruct H as [d [Hd Hl]]. apply Exists_exists. exists d.
  split; [exact Hd|]. apply product_read_large, Hl.
Qed.

Lemma glue_no_top p s l : no_atom p s -> Forall (no_atom p) l -> no_atom p (glue s l).
Proof.
  intros Hs H. induction H as [|x l Hx Hl IH]; [reflexivity|]. destruct l as [|y l]; [exact Hx|].
  change (glue s (x :: y :: l)) with (x ++ s ++ glue s (y :: l))%list.
  apply no_atom_app; [exact Hx|]. apply no_atom_app; assumption.
Qed.

Lemma sum_no_command c ps : (forall a, is_command c a = true -> top a = true) -> no_atom (is_command c) (sum_atoms ps).
Proof.
  intros Hc. apply glue_no_top; [reflexivity|]. apply Forall_map, Forall_forall. intros d _.
  apply (no_top_weaken _ _ Hc), product_no_top.
Qed.

Lemma sum_no_row ps : no_atom (is_command "\") (sum_atoms ps).
Proof.
  apply glue_no_top; [reflexivity|]. apply Forall_map, Forall_forall. intros d _.
  apply (no_top_weaken _ _ row_top), product_no_top.
Qed.

(** ** Right hand sides *)

Definition sym_atoms (ps : list (list ((nat * nat) * nat))) : list atom :=
  ([cmd "hat"; Atom (Group [ch "S"]) None None; ch "("] ++ sum_atoms ps ++ [ch ")"])%list.

Lemma right_side_sym ps :
  right_side_read (sym_atoms ps) = option_map Symmetrised (sum_read (sum_atoms ps)).
Proof.
  assert (P : forall r, right_side_read (cmd "hat" :: Atom (Group [ch "S"]) None None :: ch "(" :: r)
              = match rev r with
                | Atom (One (Char ")")) None None :: body => option_map Symmetrised (sum_read (rev body))
                | _ => None
                end) by reflexivity.
  unfold sym_atoms. cbn [app]. rewrite P, rev_app_distr. cbn [rev app].
  change (option_map Symmetrised (sum_read (rev (rev (sum_atoms ps)))) = option_map Symmetrised (sum_read (sum_atoms ps))).
  now rewrite rev_involutive.
Qed.

Lemma sum_atoms_head ps : ps <> [] -> Forall (fun d => d <> []) ps ->
  exists a l, sum_atoms ps = a :: l /\ (a = cmd "frac" \/ a = ch "(" \/ exists t, a = bt_atom t).
Proof.
  intros Hne H. destruct ps as [|d ps]; [now elim Hne|]. inversion H as [|? ? Hd _]; subst.
  assert (E : exists a l, product_atoms d = a :: l /\ (a = cmd "frac" \/ a = ch "(" \/ exists t, a = bt_atom t)).
  { unfold product_atoms. destruct (generate_w_prefactor d) as [|k r].
    - destruct d as [|f d]; [now elim Hd|]. cbn [prefactor_atoms app flat_map].
      destruct (factor_atoms_head f) as [a [l [-> Ha]]]. exists a. eexists. split; [reflexivity|].
      destruct Ha as [->| ->]; eauto.
    - cbn [prefactor_atoms app]. eauto. }
  destruct E as [a [l [E Ha]]]. unfold sum_atoms. cbn [map]. destruct (map product_atoms ps) as [|y ys]; cbn [glue].
  - rewrite E. eauto.
  - rewrite E. cbn [app]. eauto.
Qed.

Lemma right_side_sum ps : ps <> [] -> Forall (fun d => d <> []) ps ->
  right_side_read (sum_atoms ps) = option_map Sum (sum_read (sum_atoms ps)).
Proof.
  intros Hne H. destruct (sum_atoms_head ps Hne H) as [a [l [-> [->|[->|[t ->]]]]]]; reflexivity.
Qed.

Lemma sym_reads ps st : fresh st -> ps <> [] -> Forall (fun d => d <> []) ps ->
  reads st ("\hat{S}(" ++ join " + " (map render_excited_product ps) ++ ")") Middle (sym_atoms ps).
Proof.
  intros Hst Hne H. unfold sym_atoms. apply reads_app with (st1 := Middle).
  - exists ([Command "hat"] ++ [Open; Char "S"; Close] ++ [Char "("])%list.
    split; [destruct Hst as [->|[->| ->]]; reflexivity|].
    apply one_more; [apply no_script, one_token; exact I|].
    apply one_more; [apply no_script, (group [Char "S"]), (list_text_chars ["S"%char])|].
    apply (list_text_chars ["("%char]).
  - eapply reads_app; [apply sum_reads; [apply middle_fresh|exact H|exact Hne]|].
    apply reads_char; [apply middle_fresh|]. intros st' [->|[->| ->]]; reflexivity.
Qed.
