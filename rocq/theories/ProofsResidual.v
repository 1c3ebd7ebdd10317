(** Proofs about the residual model: the text round trip, the term list, the
    prefactor values and the generated functions. *)
From Verif Require Import PyBase PyBaseFacts PyStr ProofsStr ModelHelper ModelW ModelDt ModelResidual.
From Verif Require Import SpecPartitions SpecW SpecDt SpecResidual.

Lemma op_m_h m n : op_m (residual_h_operator m n) = m.
Proof. unfold residual_h_operator. destruct m, n; reflexivity. Qed.
Lemma op_n_h m n : op_n (residual_h_operator m n) = n.
Proof. unfold residual_h_operator. destruct m, n; reflexivity. Qed.

Open Scope string_scope.

(** ** Prefactor text *)

Definition ptext (a t : nat) : string := "(" ++ str_nat a ++ "/" ++ str_nat t ++ "!)".

Ltac nochar := repeat (rewrite ?has_char_app; cbn [String.append has_char]);
  rewrite ?str_nat_no_char by reflexivity; reflexivity.

Ltac delchar :=
  repeat first
    [ rewrite del_app
    | rewrite (del_none _ (str_nat _)) by (apply str_nat_no_char; reflexivity)
    | progress cbn [del_char Ascii.eqb Bool.eqb String.append] ].

Lemma extract_ptext_gen a t suffix :
  suffix = "" \/ suffix = "*(1/2)" ->
  extract_numerator_denominator (ptext a t ++ suffix) = Ok (a, t).
Proof.
  intros Hs.
  assert (forall s, s = ptext a t ->
            match split_char "/" (del_char ")" (del_char "(" s)) with
            | [numer; denom] =>
                let denom := hd "" (split_char "!" denom) in
                do n <- py_int numer; do d <- py_int denom; Ok (n, d)
            | _ => Err ValueErr
            end = Ok (a, t)) as Hcore.
  { intros s ->. unfold ptext.
    delchar.
    rewrite split_app by (apply str_nat_no_char; reflexivity).
    rewrite (split_none "/") by nochar.
    rewrite split_app by (apply str_nat_no_char; reflexivity). cbn [hd bind].
    now rewrite !py_int_str_nat. }
  unfold extract_numerator_denominator.
  assert (has_char "*" (ptext a t) = false) as Hstar by (unfold ptext; nochar).
  destruct Hs as [->| ->].
  - rewrite append_nil_r, Hstar. now apply Hcore.
  - rewrite has_char_app, Hstar. change (has_char "*" "*(1/2)") with true. cbn [orb].
    rewrite split_app by exact Hstar. cbn [hd]. now apply Hcore.
Qed.

Lemma extract_ptext a t : extract_numerator_denominator (ptext a t) = Ok (a, t).
Proof. rewrite <- (append_nil_r (ptext a t)). apply extract_ptext_gen. now left. Qed.

Lemma extract_ptext_half a t : extract_numerator_denominator (ptext a t ++ "*(1/2)") = Ok (a, t).
Proof. apply extract_ptext_gen. now right. Qed.

Lemma extract_twice a r : extract_numerator_denominator ("(" ++ str_nat a ++ "/(2*" ++ r) = Ok (a, 2).
Proof.
  unfold extract_numerator_denominator.
  assert (has_char "*" ("(" ++ str_nat a ++ "/(2*" ++ r) = true) as ->.
  { rewrite !has_char_app. cbn [has_char]. rewrite !orb_true_r. reflexivity. }
  replace ("(" ++ str_nat a ++ "/(2*" ++ r) with (("(" ++ str_nat a ++ "/(2") ++ String "*" r)
    by (rewrite !append_assoc; reflexivity).
  rewrite split_app by nochar. cbn [hd].
  delchar.
  rewrite split_app by (apply str_nat_no_char; reflexivity).
  change (split_char "/" "2") with ["2"]. cbn [hd split_char Ascii.eqb Bool.eqb bind].
  rewrite py_int_str_nat. reflexivity.
Qed.

Lemma prefix_has c sub s : String.prefix sub s = true -> has_char c sub = true -> has_char c s = true.
Proof.
  revert s. induction sub as [|x sub IH]; intros s Hp Hc; [discriminate|].
  destruct s as [|y s]; [discriminate|]. cbn [String.prefix] in Hp.
  destruct (ascii_dec x y) as [->|]; [|discriminate].
  cbn [has_char] in *. apply orb_true_iff in Hc as [Hc|Hc]; [now rewrite Hc|].
  rewrite (IH s Hp Hc). apply orb_true_r.
Qed.

Lemma contains_has c sub s : contains sub s = true -> has_char c sub = true -> has_char c s = true.
Proof.
  intros H Hc. induction s as [|y s IH]; cbn [contains] in H.
  - rewrite orb_false_r in H. eapply prefix_has; eassumption.
  - apply orb_true_iff in H as [H|H]; [eapply prefix_has; eassumption|].
    cbn [has_char]. rewrite (IH H). apply orb_true_r.
Qed.

Lemma ptext_no_star a t sub : has_char "*" sub = true -> contains sub (ptext a t) = false.
Proof.
  intros H. destruct (contains sub (ptext a t)) eqn:E; [|reflexivity].
  pose proof (contains_has "*" _ _ E H) as H'. unfold ptext in H'.
  rewrite !has_char_app in H'. rewrite !str_nat_no_char in H' by reflexivity. discriminate.
Qed.

Lemma ptext_neq a t s : s = "" \/ s = "*(1/2)" -> String.eqb (ptext a t) s = false.
Proof. intros [->| ->]; reflexivity. Qed.

Lemma ptext_half_neq a t : String.eqb (ptext a t ++ "*(1/2)") "*(1/2)" = false.
Proof. reflexivity. Qed.

Definition simplified_plain_value (a t : nat) : string :=
  if Nat.eqb t a then if Nat.eqb t 1 || Nat.eqb t 2 then "" else ptext a t else ptext a t.

Lemma simplified_plain a t : simplified_prefactor (ptext a t) = Ok (simplified_plain_value a t).
Proof.
  unfold simplified_prefactor. rewrite extract_ptext. cbn [bind fst snd].
  rewrite ptext_neq by now right. rewrite ptext_no_star by reflexivity.
  unfold simplified_plain_value. destruct (Nat.eqb t a); [|reflexivity].
  destruct (Nat.eqb t 1 || Nat.eqb t 2); reflexivity.
Qed.

Lemma simplified_half a t :
  simplified_prefactor (ptext a t ++ "*(1/2)") =
  if Nat.eqb t a then
    if Nat.eqb t 1 || Nat.eqb t 2 then Ok "(1/2)"
    else Ok ("(" ++ str_nat a ++ "/(2*" ++ str_nat t ++ "))")
  else if Nat.even a then Err TypeErr
  else Ok (sslice 0 3 (ptext a t ++ "*(1/2)") ++ "(2*" ++ sdrop 3 (ptext a t) ++ ")").
Proof.
  unfold simplified_prefactor. rewrite extract_ptext_half. cbn [bind fst snd].
  rewrite ptext_half_neq.
  assert (contains "*(1/2)" (ptext a t ++ "*(1/2)") = true) as -> by now apply contains_app_r.
  change 6 with (String.length "*(1/2)"). rewrite sdrop_end_app.
  destruct (Nat.eqb t a); [destruct (Nat.eqb t 1 || Nat.eqb t 2); reflexivity|].
  destruct (Nat.even a); reflexivity.
Qed.

(** The number printed for the term of h^m_n at order p. *)
Definition pre_numerator (p m n : nat) : nat :=
  let i := p - m in let t := p - m + n in
  if Nat.eqb i 1 || Nat.eqb n 1 then t
  else if Nat.ltb 1 n && Nat.ltb 1 i then list_sum (range 0 t) else 1.

Definition pt_of (p m n : nat) : p_term :=
  let t := p - m + n in
  let a := pre_numerator p m n in
  if Nat.eqb t 0 then (if Nat.eqb m 2 then PFrac 1 2 else POne)
  else if Nat.eqb m 2 then
    if Nat.eqb t a then if Nat.eqb t 1 || Nat.eqb t 2 then PFrac 1 2 else PTwice a 2
    else PTwice a 2
  else if Nat.eqb t a then if Nat.eqb t 1 || Nat.eqb t 2 then POne else PFrac a (factorial t)
  else PFrac a (factorial t).

Lemma construct_prefactor_text p m n :
  m <= p -> p - m + n <> 0 ->
  construct_prefactor (residual_h_operator m n) p true =
  simplified_prefactor (if Nat.eqb m 2 then ptext (pre_numerator p m n) (p - m + n) ++ "*(1/2)"
                        else ptext (pre_numerator p m n) (p - m + n)).
Proof.
  intros Hm Ht. unfold construct_prefactor. rewrite op_m_h, op_n_h.
  destruct (Nat.ltb_spec p m); [lia|]. destruct (Nat.eqb_spec (p - m + n) 0) as [|_]; [lia|].
  assert ((if Nat.eqb (p - m) 1 || Nat.eqb n 1 then "(" ++ str_nat (p - m + n) ++ "/" ++ str_nat (p - m + n) ++ "!)"
           else if Nat.ltb 1 n && Nat.ltb 1 (p - m)
             then "(" ++ str_nat (list_sum (range 0 (p - m + n))) ++ "/" ++ str_nat (p - m + n) ++ "!)"
           else if Nat.eqb n 0 || Nat.eqb (p - m) 0 then "(1/" ++ str_nat (p - m + n) ++ "!)"
           else "") = ptext (pre_numerator p m n) (p - m + n)) as ->.
  { unfold pre_numerator, ptext.
    destruct (Nat.eqb_spec (p - m) 1); cbn [orb]; [reflexivity|].
    destruct (Nat.eqb_spec n 1); [reflexivity|].
    destruct (Nat.ltb_spec 1 n); destruct (Nat.ltb_spec 1 (p - m)); cbn [andb]; try reflexivity.
    - destruct (Nat.eqb_spec n 0); [reflexivity|]. destruct (Nat.eqb_spec (p - m) 0); [reflexivity|lia].
    - destruct (Nat.eqb_spec n 0); [reflexivity|]. lia.
    - destruct (Nat.eqb_spec n 0); [reflexivity|]. lia. }
  destruct (Nat.eqb m 2); reflexivity.
Qed.

Lemma p_term_ptext a t : generate_p_term (ptext a t) = Ok (PFrac a (factorial t)).
Proof.
  unfold generate_p_term. rewrite ptext_neq by now left.
  assert (String.eqb (ptext a t) "(1/2) * " = false) as ->.
  { destruct (String.eqb_spec (ptext a t) "(1/2) * ") as [E|]; [|reflexivity].
    pose proof (f_equal (has_char "*") E) as H. unfold ptext in H.
    rewrite !has_char_app in H. rewrite !str_nat_no_char in H by reflexivity. discriminate. }
  rewrite extract_ptext. cbn [bind fst snd]. rewrite ptext_no_star by reflexivity. reflexivity.
Qed.

Lemma p_term_twice a r :
  generate_p_term ("(" ++ str_nat a ++ "/(2*" ++ r) = Ok (PTwice a (factorial 2)).
Proof.
  unfold generate_p_term.
  assert (String.eqb ("(" ++ str_nat a ++ "/(2*" ++ r) "" = false) as -> by reflexivity.
  assert (String.eqb ("(" ++ str_nat a ++ "/(2*" ++ r) "(1/2) * " = false) as ->.
  { destruct (String.eqb_spec ("(" ++ str_nat a ++ "/(2*" ++ r) "(1/2) * ") as [E|]; [|reflexivity].
    pose proof (f_equal (count_char "(") E) as H.
    rewrite !count_char_app in H. cbn [count_char Ascii.eqb Bool.eqb] in H. lia. }
  rewrite extract_twice. cbn [bind fst snd].
  assert (contains "/(2*" ("(" ++ str_nat a ++ "/(2*" ++ r) = true) as ->; [|reflexivity].
  do 2 apply contains_app_r. cbn [String.append]. cbn [contains String.prefix].
  repeat (destruct (ascii_dec _ _); [|congruence]). destruct r; reflexivity.
Qed.

Lemma sslice_0_3 a b c r :
  sslice 0 3 (String a (String b (String c r))) = String a (String b (String c "")).
Proof. destruct r; reflexivity. Qed.

Lemma pre_numerator_cases p m n :
  m <> 2 \/ n <= 1 \/ p <= 3 ->
  m = 2 -> p - m + n <> 0 -> p - m + n <> pre_numerator p m n -> pre_numerator p m n = 1.
Proof.
  intros H -> Ht. unfold pre_numerator.
  destruct (Nat.eqb_spec (p - 2) 1); cbn [orb]; [congruence|].
  destruct (Nat.eqb_spec n 1); [congruence|].
  destruct (Nat.ltb_spec 1 n); destruct (Nat.ltb_spec 1 (p - 2)); cbn [andb]; try reflexivity.
  lia.
Qed.

Lemma prefactor_step p m n :
  m <= p -> m <> 2 \/ n <= 1 \/ p <= 3 ->
  exists s, construct_prefactor (residual_h_operator m n) p true = Ok s /\
            generate_p_term s = Ok (pt_of p m n).
Proof.
  intros Hm Hc. unfold pt_of.
  destruct (Nat.eqb_spec (p - m + n) 0) as [E|E].
  - unfold construct_prefactor. rewrite op_m_h, op_n_h, E.
    destruct (Nat.ltb_spec p m); [lia|]. cbn [Nat.eqb].
    destruct (Nat.eqb m 2); eexists; split; reflexivity.
  - rewrite construct_prefactor_text by assumption.
    destruct (Nat.eqb_spec m 2) as [E2|E2].
    + rewrite simplified_half.
      destruct (Nat.eqb_spec (p - m + n) (pre_numerator p m n)) as [Ea|Ea].
      * destruct (Nat.eqb (p - m + n) 1 || Nat.eqb (p - m + n) 2); eexists; (split; [reflexivity|]).
        -- reflexivity.
        -- apply p_term_twice.
      * rewrite (pre_numerator_cases p m n Hc E2 E Ea). cbn [Nat.even].
        eexists. split; [reflexivity|].
        change (ptext 1 (p - m + n) ++ "*(1/2)")
          with (String "(" (String "1" (String "/" ((str_nat (p - m + n) ++ "!)") ++ "*(1/2)")))).
        rewrite sslice_0_3.
        change (sdrop 3 (ptext 1 (p - m + n))) with (str_nat (p - m + n) ++ "!)").
        change (("(1/" ++ "(2*" ++ (str_nat (p - m + n) ++ "!)") ++ ")"))
          with ("(" ++ str_nat 1 ++ "/(2*" ++ ((str_nat (p - m + n) ++ "!)") ++ ")")).
        apply p_term_twice.
    + rewrite simplified_plain. unfold simplified_plain_value.
      destruct (Nat.eqb_spec (p - m + n) (pre_numerator p m n)) as [Ea|Ea].
      * destruct (Nat.eqb (p - m + n) 1 || Nat.eqb (p - m + n) 2); eexists; (split; [reflexivity|]).
        -- reflexivity.
        -- apply p_term_ptext.
      * eexists. split; [reflexivity|]. apply p_term_ptext.
Qed.

(** ** Label text *)

Definition labels (x : string) (l : list nat) : string :=
  concat_str (map (fun a => x ++ str_nat a ++ ",") l).

Lemma labels_comma x l : l <> [] -> exists s, labels x l = s ++ ",".
Proof.
  intros Hl. destruct (exists_last Hl) as [l' [a ->]]. unfold labels.
  rewrite map_app, concat_str_app. cbn [map]. unfold concat_str at 2. cbn [fold_right].
  rewrite append_nil_r. exists (concat_str (map (fun b => x ++ str_nat b ++ ",") l') ++ (x ++ str_nat a)).
  rewrite !append_assoc. reflexivity.
Qed.

Lemma count_labels c x l :
  is_digit c = false -> c <> ","%char ->
  count_char c (labels x l) = List.length l * count_char c x.
Proof.
  intros Hd Hc. unfold labels, concat_str. induction l as [|a l IH]; [reflexivity|].
  cbn [map fold_right List.length]. rewrite !count_char_app, IH.
  rewrite (count_no_char c (str_nat a)) by now apply str_nat_no_char.
  cbn [count_char]. destruct (Ascii.eqb_spec c ","); [contradiction|]. lia.
Qed.

Lemma has_zero_labels x l :
  has_char "0" x = false -> (forall a, In a l -> has_char "0" (str_nat a) = false) ->
  has_char "0" (labels x l) = false.
Proof.
  intros Hx Hl. unfold labels, concat_str. induction l as [|a l IH]; [reflexivity|].
  cbn [map fold_right]. rewrite !has_char_app, Hx, (Hl a) by now left.
  rewrite IH by (intros; apply Hl; now right). reflexivity.
Qed.

Lemma small_no_zero a : 1 <= a <= 9 -> has_char "0" (str_nat a) = false.
Proof. intros H. do 10 (destruct a as [|a]; [first [lia|reflexivity]|]). lia. Qed.

(** Text with its trailing comma replaced by a bracket. *)
Definition bracketed (s : string) : string := sdrop_end 1 s ++ "}".

Lemma count_bracketed c s s' :
  s = s' ++ "," -> c <> ","%char -> c <> "}"%char -> count_char c (bracketed s) = count_char c s.
Proof.
  intros -> Hc Hb. unfold bracketed. change 1 with (String.length ",") at 1. rewrite sdrop_end_app.
  rewrite !count_char_app. cbn [count_char].
  destruct (Ascii.eqb_spec c ","); [contradiction|]. destruct (Ascii.eqb_spec c "}"); [contradiction|]. lia.
Qed.

Lemma has_bracketed c s s' :
  s = s' ++ "," -> has_char c s = false -> c <> "}"%char -> has_char c (bracketed s) = false.
Proof.
  intros -> Hc Hb. unfold bracketed. change 1 with (String.length ",") at 1. rewrite sdrop_end_app.
  rewrite has_char_app in *. apply orb_false_iff in Hc as [Hc _]. rewrite Hc. cbn [has_char orb].
  destruct (Ascii.eqb_spec c "}"); [contradiction|]. reflexivity.
Qed.

Lemma upper_h p m n : m <= p ->
  construct_upper_h_label (residual_h_operator m n) p =
  if Nat.eqb m 0 then "" else bracketed ("^{" ++ labels "i_" (range 1 (m + 1))).
Proof.
  intros Hm. unfold construct_upper_h_label. rewrite op_m_h.
  destruct (Nat.ltb_spec p m); [lia|]. rewrite orb_false_r. reflexivity.
Qed.

Lemma lower_h p m n : m <= p ->
  construct_lower_h_label (residual_h_operator m n) p =
  if Nat.eqb m 0 && Nat.eqb n 0 then "_0"
  else if Nat.eqb n 0 then "" else bracketed ("_{" ++ labels "k_" (range 1 (n + 1))).
Proof.
  intros Hm. unfold construct_lower_h_label. rewrite op_m_h, op_n_h.
  destruct (Nat.ltb_spec p m); [lia|]. rewrite orb_false_r. reflexivity.
Qed.

Lemma range_nonempty a b : a < b -> range a b <> [].
Proof. intros H E. apply (f_equal (@List.length nat)) in E. rewrite length_range in E. cbn in E. lia. Qed.

Lemma brace_labels b x l : l <> [] -> exists s', b ++ labels x l = s' ++ ",".
Proof. intros H. destruct (labels_comma x l H) as [s ->]. exists (b ++ s). now rewrite append_assoc. Qed.

Lemma h_term_ok p m n :
  m <= p -> m <= 9 -> n <= 9 ->
  let h := "h" ++ construct_upper_h_label (residual_h_operator m n) p
               ++ construct_lower_h_label (residual_h_operator m n) p in
  generate_h_term h = (m, n) /\ String.eqb h "h" = false.
Proof.
  intros Hm H9 Hn9. cbv zeta. rewrite upper_h, lower_h by exact Hm.
  destruct (Nat.eqb_spec m 0) as [->|Em].
  - destruct (Nat.eqb_spec n 0) as [->|En]; [split; reflexivity|]. cbn [andb].
    assert (range 1 (n + 1) <> []) as Hr by (apply range_nonempty; lia).
    destruct (brace_labels "_{" "k_" _ Hr) as [s' Es].
    split.
    + unfold generate_h_term.
      assert (has_char "0" ("h" ++ "" ++ bracketed ("_{" ++ labels "k_" (range 1 (n + 1)))) = false) as ->.
      { rewrite !has_char_app. cbn [has_char Ascii.eqb Bool.eqb orb].
        apply (has_bracketed _ _ _ Es); [|discriminate].
        rewrite has_char_app. cbn [has_char Ascii.eqb Bool.eqb orb].
        apply has_zero_labels; [reflexivity|]. intros a Ha. apply in_range in Ha. apply small_no_zero. lia. }
      rewrite !count_char_app. cbn [count_char Ascii.eqb Bool.eqb].
      rewrite !(count_bracketed _ _ _ Es) by discriminate.
      rewrite !count_char_app, !count_labels by (reflexivity || discriminate).
      rewrite length_range. cbn [count_char Ascii.eqb Bool.eqb]. f_equal; lia.
    + unfold bracketed. rewrite Es. change 1 with (String.length ",") at 1. rewrite sdrop_end_app.
      destruct s' as [|? ?]; reflexivity.
  - cbn [andb].
    assert (range 1 (m + 1) <> []) as Hr by (apply range_nonempty; lia).
    destruct (brace_labels "^{" "i_" _ Hr) as [s' Es].
    destruct (Nat.eqb_spec n 0) as [->|En].
    + rewrite append_nil_r. split.
      * unfold generate_h_term.
        assert (has_char "0" ("h" ++ bracketed ("^{" ++ labels "i_" (range 1 (m + 1)))) = false) as ->.
        { rewrite !has_char_app. cbn [has_char Ascii.eqb Bool.eqb orb].
          apply (has_bracketed _ _ _ Es); [|discriminate].
          rewrite has_char_app. cbn [has_char Ascii.eqb Bool.eqb orb].
          apply has_zero_labels; [reflexivity|]. intros a Ha. apply in_range in Ha. apply small_no_zero. lia. }
        rewrite !count_char_app. cbn [count_char Ascii.eqb Bool.eqb].
        rewrite !(count_bracketed _ _ _ Es) by discriminate.
        rewrite !count_char_app, !count_labels by (reflexivity || discriminate).
        rewrite length_range. cbn [count_char Ascii.eqb Bool.eqb]. f_equal; lia.
      * unfold bracketed. rewrite Es. change 1 with (String.length ",") at 1. rewrite sdrop_end_app.
        destruct s' as [|? ?]; reflexivity.
    + assert (range 1 (n + 1) <> []) as Hr2 by (apply range_nonempty; lia).
      destruct (brace_labels "_{" "k_" _ Hr2) as [s2 Es2].
      split.
      * unfold generate_h_term.
        assert (has_char "0" ("h" ++ bracketed ("^{" ++ labels "i_" (range 1 (m + 1)))
                                  ++ bracketed ("_{" ++ labels "k_" (range 1 (n + 1)))) = false) as ->.
        { rewrite !has_char_app. cbn [has_char Ascii.eqb Bool.eqb orb]. apply orb_false_iff. split.
          - apply (has_bracketed _ _ _ Es); [|discriminate].
            rewrite has_char_app. cbn [has_char Ascii.eqb Bool.eqb orb].
            apply has_zero_labels; [reflexivity|]. intros a Ha. apply in_range in Ha. apply small_no_zero. lia.
          - apply (has_bracketed _ _ _ Es2); [|discriminate].
            rewrite has_char_app. cbn [has_char Ascii.eqb Bool.eqb orb].
            apply has_zero_labels; [reflexivity|]. intros a Ha. apply in_range in Ha. apply small_no_zero. lia. }
        rewrite !count_char_app. cbn [count_char Ascii.eqb Bool.eqb].
        rewrite !(count_bracketed _ _ _ Es), !(count_bracketed _ _ _ Es2) by discriminate.
        rewrite !count_char_app, !count_labels by (reflexivity || discriminate).
        rewrite !length_range. cbn [count_char Ascii.eqb Bool.eqb]. f_equal; lia.
      * unfold bracketed at 1. rewrite Es. change 1 with (String.length ",") at 1. rewrite sdrop_end_app.
        destruct s' as [|? ?]; reflexivity.
Qed.

Lemma w_term_ok p m n :
  m <= p ->
  exists wl, construct_upper_w_label (residual_h_operator m n) p = Ok wl /\
             generate_w_term ("w" ++ wl) = (p - m, n, p - m + n).
Proof.
  intros Hm. unfold construct_upper_w_label. rewrite op_m_h, op_n_h.
  destruct (Nat.ltb_spec p m); [lia|]. rewrite orb_false_r.
  destruct (Nat.eqb_spec m p) as [->|E].
  - destruct (Nat.eqb_spec n 0) as [->|En]; cbn [andb].
    + exists "". split; [reflexivity|]. rewrite Nat.sub_diag. reflexivity.
    + fold (labels "i_" (range (p + 1) (p + 1))). fold (labels "k_" (range 1 (n + 1))).
      assert (range (p + 1) (p + 1) = []) as -> by (unfold range; rewrite Nat.sub_diag; reflexivity).
      change (labels "i_" []) with "".
      assert (range 1 (n + 1) <> []) as Hr by (apply range_nonempty; lia).
      destruct (brace_labels "^{" "k_" _ Hr) as [s' Es].
      change ("^{" ++ "" ++ labels "k_" (range 1 (n + 1))) with ("^{" ++ labels "k_" (range 1 (n + 1))).
      assert (String.eqb ("^{" ++ labels "k_" (range 1 (n + 1))) "^{" = false) as ->.
      { destruct (String.eqb_spec ("^{" ++ labels "k_" (range 1 (n + 1))) "^{") as [E|]; [|reflexivity].
        apply (f_equal (count_char "k")) in E. rewrite count_char_app, count_labels in E by (reflexivity || discriminate).
        rewrite length_range in E. cbn [count_char Ascii.eqb Bool.eqb] in E. lia. }
      eexists. split; [reflexivity|]. fold (bracketed ("^{" ++ labels "k_" (range 1 (n + 1)))).
      unfold generate_w_term. 
      match goal with |- context [String.eqb ("w" ++ ?x) ""] =>
        replace (String.eqb ("w" ++ x) "") with false by reflexivity end.
      rewrite !count_char_app. rewrite !(count_bracketed _ _ _ Es) by discriminate.
      rewrite !count_char_app, !count_labels by (reflexivity || discriminate).
      rewrite length_range. cbn [count_char Ascii.eqb Bool.eqb].
      replace (p - p) with 0 by lia. f_equal; [f_equal|]; lia.
  - cbn [andb].
    fold (labels "i_" (range (m + 1) (p + 1))). fold (labels "k_" (range 1 (n + 1))).
    assert (exists s', "^{" ++ labels "i_" (range (m + 1) (p + 1)) ++ labels "k_" (range 1 (n + 1)) = s' ++ ",") as [s' Es].
    { destruct (Nat.eq_dec n 0) as [->|En].
      - change (labels "k_" (range 1 (0 + 1))) with "". rewrite append_nil_r.
        apply brace_labels. apply range_nonempty. lia.
      - destruct (labels_comma "k_" (range 1 (n + 1))) as [s ->]; [apply range_nonempty; lia|].
        exists ("^{" ++ labels "i_" (range (m + 1) (p + 1)) ++ s). now rewrite !append_assoc. }
    assert (String.eqb ("^{" ++ labels "i_" (range (m + 1) (p + 1)) ++ labels "k_" (range 1 (n + 1))) "^{" = false) as ->.
    { match goal with |- String.eqb ?a ?b = false => destruct (String.eqb_spec a b) as [E'|]; [|reflexivity] end.
      apply (f_equal (count_char "i")) in E'. rewrite !count_char_app, !count_labels in E' by (reflexivity || discriminate).
      rewrite !length_range in E'. cbn [count_char Ascii.eqb Bool.eqb] in E'. lia. }
    eexists. split; [reflexivity|].
    fold (bracketed ("^{" ++ labels "i_" (range (m + 1) (p + 1)) ++ labels "k_" (range 1 (n + 1)))).
    unfold generate_w_term.
    match goal with |- context [String.eqb ("w" ++ ?x) ""] =>
      replace (String.eqb ("w" ++ x) "") with false by reflexivity end.
    rewrite !count_char_app. rewrite !(count_bracketed _ _ _ Es) by discriminate.
    rewrite !count_char_app, !count_labels by (reflexivity || discriminate).
    rewrite !length_range. cbn [count_char Ascii.eqb Bool.eqb].
    f_equal; [f_equal|]; lia.
Qed.

(** ** The term list *)

Lemma residual_step_ok p m n :
  m <= p -> m <= 9 -> n <= 9 -> m <> 2 \/ n <= 1 \/ p <= 3 ->
  exists s, residual_step p (residual_h_operator m n)
            = Ok (Some (s, mkRterm (pt_of p m n) m n (p - m) n (p - m + n))).
Proof.
  intros Hm H9 Hn9 Hc. unfold residual_step.
  destruct (w_term_ok p m n Hm) as [wl [Ew Hw]]. rewrite Ew. cbn [bind].
  destruct (prefactor_step p m n Hm Hc) as [s [Es Hs]]. rewrite Es. cbn [bind].
  destruct (h_term_ok p m n Hm H9 Hn9) as [Hh Hn].
  rewrite Hn, Hs. cbn [bind]. rewrite Hh, Hw. cbn [fst snd].
  eexists. reflexivity.
Qed.

Lemma residual_step_skip p m n :
  p < m -> residual_step p (residual_h_operator m n) = Ok None.
Proof.
  intros Hm. unfold residual_step, construct_upper_w_label, construct_prefactor,
    construct_upper_h_label, construct_lower_h_label. rewrite op_m_h, op_n_h.
  destruct (Nat.ltb_spec p m); [|lia]. rewrite !orb_true_r. cbn [bind].
  destruct (Nat.eqb_spec m 0); [lia|]. reflexivity.
Qed.

Definition term_of (p : nat) (mn : nat * nat) : rterm :=
  mkRterm (pt_of p (fst mn) (snd mn)) (fst mn) (snd mn) (p - fst mn) (snd mn) (p - fst mn + snd mn).

Definition op_of (mn : nat * nat) : operator := residual_h_operator (fst mn) (snd mn).

Lemma residual_loop_ok p pairs :
  (forall mn, In mn pairs -> fst mn <= 9 /\ snd mn <= 9 /\ (fst mn <> 2 \/ snd mn <= 1 \/ p <= 3)) ->
  exists l, residual_loop p (map op_of pairs) = Ok l /\
    map snd l = map (term_of p) (filter (fun mn => Nat.leb (fst mn) p) pairs).
Proof.
  induction pairs as [|[m n] pairs IH]; intros H; [exists []; split; reflexivity|].
  destruct IH as [l [El Hl]]; [intros; apply H; now right|].
  cbn [map residual_loop filter]. unfold op_of at 1. cbn [fst snd].
  destruct (H (m, n)) as [Ha [Hb Hc]]; [now left|]. cbn [fst snd] in *.
  destruct (Nat.leb_spec m p).
  - destruct (residual_step_ok p m n) as [s Es]; try assumption.
    rewrite Es. cbn [bind]. rewrite El. cbn [bind]. eexists. split; [reflexivity|].
    cbn [map snd]. now rewrite Hl.
  - rewrite residual_step_skip by assumption. cbn [bind]. rewrite El. cbn [bind].
    eexists. split; [reflexivity|]. exact Hl.
Qed.

Definition ham_pairs (rank : nat) : list (nat * nat) :=
  flat_map (fun m => map (pair m) (range 0 (rank + 1 - m))) (range 0 (rank + 1)).

Lemma hamiltonian_pairs rank : residual_hamiltonian rank = map op_of (ham_pairs rank).
Proof.
  unfold residual_hamiltonian, ham_pairs. generalize (range 0 (rank + 1)). intros l.
  induction l as [|m l IH]; [reflexivity|]. cbn [flat_map]. rewrite map_app, map_map, IH. reflexivity.
Qed.

Lemma in_ham_pairs rank m n : In (m, n) (ham_pairs rank) <-> m + n <= rank.
Proof.
  unfold ham_pairs. rewrite in_flat_map. split.
  - intros [x [Hx H]]. apply in_range in Hx. apply in_map_iff in H as [y [E Hy]].
    injection E as -> ->. apply in_range in Hy. lia.
  - intros H. exists m. split; [apply in_range; lia|]. apply in_map_iff. exists n.
    split; [reflexivity|]. apply in_range. lia.
Qed.

Lemma NoDup_range a b : NoDup (range a b).
Proof. apply seq_NoDup. Qed.

Lemma nodup_ham_pairs rank : NoDup (ham_pairs rank).
Proof.
  unfold ham_pairs. apply NoDup_flat_map.
  - apply NoDup_range.
  - intros m Hm. apply FinFun.Injective_map_NoDup; [intros x y E; now injection E|apply NoDup_range].
  - intros x y z Hx Hy H1 H2. apply in_map_iff in H1 as [? [<- _]].
    apply in_map_iff in H2 as [? [E _]]. injection E as E _. congruence.
Qed.

Lemma residual_terms rank p :
  rank <= 3 \/ (rank <= 9 /\ p <= 3) ->
  exists ss ts, generate_residual_string_list (residual_hamiltonian rank) p = Ok (ss, ts) /\
    ts = map (term_of p) (filter (fun mn => Nat.leb (fst mn) p) (ham_pairs rank)).
Proof.
  intros H. unfold generate_residual_string_list. rewrite hamiltonian_pairs.
  destruct (residual_loop_ok p (ham_pairs rank)) as [l [El Hl]].
  - intros [m n] Hin. apply in_ham_pairs in Hin. cbn [fst snd]. lia.
  - rewrite El. cbn [bind]. do 2 eexists. split; [reflexivity|]. exact Hl.
Qed.

(** The list of residual terms, exactly. *)
Lemma residual_terms_exact rank p :
  rank <= 3 \/ (rank <= 9 /\ p <= 3) ->
  exists ss ts, generate_residual_string_list (residual_hamiltonian rank) p = Ok (ss, ts) /\
    NoDup (map shape_of ts) /\
    forall m n w, In (m, n, w) (map shape_of ts) <->
      (m + n <= rank /\ m <= p /\ w = (p - m, n, p - m + n)).
Proof.
  intros H. destruct (residual_terms rank p H) as [ss [ts [E Hts]]].
  exists ss, ts. split; [exact E|]. rewrite Hts, map_map. split.
  - apply NoDup_map_inj; [apply NoDup_filter, nodup_ham_pairs|].
    intros [a b] [c d] _ _ E'. unfold shape_of, term_of in E'.
    cbn [fst snd rt_h_i rt_h_k rt_w_i rt_w_k rt_w_order] in E'. congruence.
  - intros m n w. rewrite in_map_iff. split.
    + intros [[a b] [E' Hin]]. apply filter_In in Hin as [Hin Hle]. cbn [fst] in Hle.
      apply Nat.leb_le in Hle. apply in_ham_pairs in Hin. unfold shape_of, term_of in E'.
      cbn [fst snd rt_h_i rt_h_k rt_w_i rt_w_k rt_w_order] in E'.
      injection E' as -> -> <-. repeat split; assumption.
    + intros [Hr [Hm ->]]. exists (m, n). split; [reflexivity|]. apply filter_In.
      split; [now apply in_ham_pairs|]. cbn [fst]. now apply Nat.leb_le.
Qed.

(** ** Prefactor values *)

Lemma fact_spec_factorial n : fact_spec n = factorial n.
Proof. induction n as [|n IH]; [reflexivity|]. cbn [fact_spec factorial]. now rewrite IH. Qed.

Lemma factorial_pos n : factorial n <> 0.
Proof. induction n as [|n IH]; [discriminate|]. cbn [factorial]. lia. Qed.

Lemma sum_range t : 2 * list_sum (range 0 t) = t * (t - 1).
Proof.
  unfold range. rewrite Nat.sub_0_r. induction t as [|t IH]; [reflexivity|].
  rewrite seq_S, Nat.add_0_l. unfold list_sum in *. rewrite fold_right_app. cbn [fold_right].
  assert (forall l a, fold_right Nat.add a l = fold_right Nat.add 0 l + a) as Hf.
  { induction l as [|x l IHl]; intros a; cbn [fold_right]; [lia|]. rewrite IHl. lia. }
  rewrite Hf. destruct t as [|t]; [reflexivity|].
  replace (S (S t) - 1) with (S t) by lia. replace (S t - 1) with t in IH by lia.
  set (x := fold_right Nat.add 0 (seq 0 (S t))) in *. clearbody x. nia.
Qed.

Lemma pt_value p m n :
  m + n <= 2 -> m <= p ->
  (residual_coefficient p m n (fst (p_value (pt_of p m n))) (snd (p_value (pt_of p m n)))
   <-> ~ (m = 2 /\ 5 <= p)).
Proof.
  intros Hr Hm. unfold residual_coefficient.
  rewrite (fact_spec_factorial (p - m)), (fact_spec_factorial n), (fact_spec_factorial m).
  assert (m = 2 /\ n = 0 \/ m <> 2 /\ n = 0 /\ m <= 1 \/ n = 1 /\ m <= 1 \/ n = 2 /\ m = 0)
    as [[-> ->]|[[H2 [-> Hm1]]|[[-> Hm1]|[-> ->]]]] by lia.
  - (* h^2 *)
    destruct p as [|[|p]]; [lia|lia|]. replace (S (S p) - 2) with p by lia.
    unfold pt_of, pre_numerator. replace (S (S p) - 2) with p by lia. rewrite Nat.add_0_r.
    destruct p as [|[|[|p]]].
    + split; [intros _ [_ H]; lia|]. intros _. split; [discriminate|reflexivity].
    + split; [intros _ [_ H]; lia|]. intros _. split; [discriminate|reflexivity].
    + split; [intros _ [_ H]; lia|]. intros _. split; [discriminate|reflexivity].
    + split; [|intros H; exfalso; apply H; split; [reflexivity|lia]]. intros [_ H]. exfalso.
      pose proof (factorial_pos p). cbn -[Nat.mul factorial] in H. cbn [factorial] in H. nia.
  - (* n = 0, m <= 1 *)
    split; [intros _ [H _]; lia|]. intros _. unfold pt_of, pre_numerator.
    destruct (Nat.eqb_spec m 2); [lia|]. rewrite Nat.add_0_r.
    set (i := p - m) in *. clearbody i. cbn [Nat.ltb Nat.leb andb Nat.eqb]. rewrite orb_false_r.
    assert (factorial m = 1) as Em by (destruct m as [|[|]]; [reflexivity|reflexivity|lia]).
    rewrite Em.
    destruct (Nat.eqb_spec i 0) as [->|Hi]; [split; [discriminate|reflexivity]|].
    destruct (Nat.eqb_spec i 1) as [->|Hi1]; [split; [discriminate|reflexivity]|].
    destruct (Nat.eqb_spec i 1); [lia|]. cbn [p_value fst snd].
    split; [apply factorial_pos|]. cbn [factorial]. lia.
  - (* n = 1 *)
    split; [intros _ [H _]; lia|]. intros _. unfold pt_of, pre_numerator.
    destruct (Nat.eqb_spec m 2); [lia|].
    set (i := p - m) in *. clearbody i. rewrite Nat.add_1_r. cbn [Nat.eqb]. rewrite orb_true_r.
    assert (factorial m = 1) as Em by (destruct m as [|[|]]; [reflexivity|reflexivity|lia]).
    rewrite Em. rewrite Nat.eqb_refl.
    destruct i as [|[|i]]; [split; [discriminate|reflexivity]|split; [discriminate|reflexivity]|].
    cbn [Nat.eqb orb p_value fst snd]. split; [apply factorial_pos|].
    change (factorial (S (S (S i)))) with (S (S (S i)) * factorial (S (S i))).
    change (factorial 1) with 1. lia.
  - (* n = 2, m = 0 *)
    split; [intros _ [H _]; lia|]. intros _. unfold pt_of, pre_numerator. rewrite Nat.sub_0_r.
    destruct p as [|[|p]]; [split; [discriminate|reflexivity]|split; [discriminate|reflexivity]|].
    replace (S (S p) + 2) with (S (S (S (S p)))) by lia.
    cbn [Nat.eqb orb andb]. change (Nat.ltb 1 2 && Nat.ltb 1 (S (S p))) with true. cbv iota.
    assert (2 * list_sum (range 0 (S (S (S (S p))))) = S (S (S (S p))) * S (S (S p))) as Hs
      by (rewrite sum_range; f_equal; lia).
    set (a := list_sum (range 0 (S (S (S (S p)))))) in *. clearbody a.
    match goal with |- context [if ?b then PFrac a ?f else PFrac a ?f] =>
      replace (if b then PFrac a f else PFrac a f) with (PFrac a f) by (destruct b; reflexivity) end.
    cbn [p_value fst snd]. split; [apply factorial_pos|].
    change (factorial (S (S (S (S p))))) with (S (S (S (S p))) * (S (S (S p)) * factorial (S (S p)))).
    change (factorial 2) with 2. change (factorial 0) with 1. nia.
Qed.

Lemma residual_prefactors rank p :
  rank <= 2 ->
  exists ss ts, generate_residual_string_list (residual_hamiltonian rank) p = Ok (ss, ts) /\
    forall t, In t ts ->
      (residual_coefficient p (rt_h_i t) (rt_h_k t) (fst (p_value (rt_pref t))) (snd (p_value (rt_pref t)))
       <-> ~ (rt_h_i t = 2 /\ 5 <= p)).
Proof.
  intros H. destruct (residual_terms rank p) as [ss [ts [E Hts]]]; [lia|].
  exists ss, ts. split; [exact E|]. intros t Ht. rewrite Hts in Ht.
  apply in_map_iff in Ht as [[m n] [<- Hin]]. apply filter_In in Hin as [Hin Hle].
  cbn [fst] in Hle. apply Nat.leb_le in Hle. apply in_ham_pairs in Hin.
  cbn [term_of rt_h_i rt_h_k rt_pref fst snd]. apply pt_value; lia.
Qed.

(** ** Where generation fails *)

Lemma residual_loop_err p hs h e :
  In h hs -> residual_step p h = Err e -> exists e', residual_loop p hs = Err e'.
Proof.
  intros Hin He. induction hs as [|x hs IH]; [destruct Hin|]. cbn [residual_loop].
  destruct (residual_step p x) as [y|ex] eqn:Ex; [|eexists; reflexivity].
  cbn [bind]. destruct Hin as [->|Hin]; [congruence|].
  destruct (IH Hin) as [e' ->]. eexists. reflexivity.
Qed.

Lemma str_nat_two_digits a : 10 <= a -> exists c d r, str_nat a = String c (String d r).
Proof.
  intros Ha. unfold str_nat.
  destruct (Nat.to_uint a) as [|u|u|u|u|u|u|u|u|u|u] eqn:E;
  [ apply (f_equal Nat.of_uint) in E; rewrite DecimalNat.Unsigned.of_to in E; cbn in E; lia |..];
  destruct u; cbn [DecimalString.NilEmpty.string_of_uint];
    try (do 3 eexists; reflexivity);
    apply (f_equal Nat.of_uint) in E; rewrite DecimalNat.Unsigned.of_to in E; cbn in E; lia.
Qed.

Lemma has_char_del c d s : has_char c s = false -> has_char c (del_char d s) = false.
Proof.
  induction s as [|x s IH]; [reflexivity|]. cbn [has_char del_char].
  intros H. apply orb_false_iff in H as [H1 H2].
  destruct (Ascii.eqb d x); [now apply IH|]. cbn [has_char]. rewrite H1. now apply IH.
Qed.

Lemma step_h22_fails p : 4 <= p -> exists e, residual_step p (residual_h_operator 2 2) = Err e.
Proof.
  intros Hp. unfold residual_step.
  destruct (w_term_ok p 2 2) as [wl [Ew Hw]]; [lia|]. rewrite Ew. cbn [bind].
  rewrite construct_prefactor_text by lia. cbn [Nat.eqb]. rewrite simplified_half.
  unfold pre_numerator.
  replace (p - 2 + 2) with p by lia.
  destruct (Nat.eqb_spec (p - 2) 1); [lia|]. cbn [Nat.eqb orb].
  destruct (Nat.ltb_spec 1 (p - 2)); [|lia]. change (Nat.ltb 1 2) with true. cbn [andb].
  pose proof (sum_range p) as Hs. set (a := list_sum (range 0 p)) in *. clearbody a.
  destruct (Nat.eqb_spec p a) as [E|_]; [nia|].
  destruct (Nat.even a) eqn:Eev; [eexists; reflexivity|]. cbn [bind].
  assert (10 <= a) as Ha.
  { destruct (Nat.eq_dec p 4) as [->|]; [assert (a = 6) by lia; subst a; discriminate|]. nia. }
  destruct (h_term_ok p 2 2) as [_ Hn]; [lia|lia|lia|]. rewrite Hn.
  destruct (str_nat_two_digits a Ha) as [c [d [r Er]]].
  assert (has_char "/" (String c (String d "")) = false /\ has_char "*" (String c (String d "")) = false) as [Hslash Hstar].
  { pose proof (str_nat_no_char "/" a eq_refl) as H1. pose proof (str_nat_no_char "*" a eq_refl) as H2.
    rewrite Er in H1, H2. cbn [has_char] in *.
    apply orb_false_iff in H1 as [-> H1]. apply orb_false_iff in H1 as [-> _].
    apply orb_false_iff in H2 as [-> H2]. apply orb_false_iff in H2 as [-> _]. split; reflexivity. }
  unfold ptext at 1. rewrite Er. cbn [String.append]. rewrite sslice_0_3.
  set (rest := sdrop 3 (ptext a p) ++ ")"). clearbody rest.
  assert (extract_numerator_denominator (String "(" (String c (String d "")) ++ "(2*" ++ rest) = Err ValueErr) as Hex.
  { unfold extract_numerator_denominator.
    assert (has_char "*" (String "(" (String c (String d "")) ++ "(2*" ++ rest) = true) as ->.
    { rewrite has_char_app. cbn [String.append has_char]. cbn [Ascii.eqb Bool.eqb]. rewrite !orb_true_r. reflexivity. }
    change (String "(" (String c (String d "")) ++ "(2*" ++ rest)
      with ((String "(" (String c (String d "(2"))) ++ String "*" rest).
    rewrite split_app.
    2:{ cbn [has_char] in *. apply orb_false_iff in Hstar as [-> H1]. apply orb_false_iff in H1 as [-> _]. reflexivity. }
    cbn [hd]. rewrite split_none; [reflexivity|].
    cbn [has_char] in Hslash. apply orb_false_iff in Hslash as [H1 H2]. apply orb_false_iff in H2 as [H2 _].
    do 2 apply has_char_del. cbn [has_char]. rewrite H1, H2. reflexivity. }
  unfold generate_p_term.
  set (full := String "(" (String c (String d "")) ++ String "(" (String "2" (String "*" rest))).
  change (extract_numerator_denominator full = Err ValueErr) in Hex.
  change (String.eqb full "") with false. cbv iota.
  destruct (String.eqb_spec full "(1/2) * ") as [E|_].
  { exfalso. unfold full in E. cbn [String.append] in E. injection E as _ E _. subst d.
    cbn [has_char Ascii.eqb Bool.eqb] in Hslash. rewrite orb_true_r in Hslash. discriminate. }
  rewrite Hex. eexists. reflexivity.
Qed.

Lemma residual_rank4_fails rank p :
  4 <= rank -> 4 <= p ->
  exists e, generate_residual_string_list (residual_hamiltonian rank) p = Err e.
Proof.
  intros Hr Hp. destruct (step_h22_fails p Hp) as [e He].
  unfold generate_residual_string_list. rewrite hamiltonian_pairs.
  destruct (residual_loop_err p (map op_of (ham_pairs rank)) (residual_h_operator 2 2) e) as [e' ->].
  - apply in_map_iff. exists (2, 2). split; [reflexivity|]. apply in_ham_pairs. lia.
  - exact He.
  - eexists. reflexivity.
Qed.

(** ** The generated functions *)

(** Every h array of the list is known to h_dict, when the function could be
    written. *)
Lemma rterm_eqb_einsum t t' a :
  rterm_eqb t t' = true -> residual_terms_einsum t' = Ok a -> exists b, residual_terms_einsum t = Ok b.
Proof.
  unfold rterm_eqb. intros H. repeat (apply andb_true_iff in H as [H ?]).
  repeat match goal with H : Nat.eqb _ _ = true |- _ => apply Nat.eqb_eq in H end.
  unfold residual_terms_einsum.
  replace (rt_h_i t) with (rt_h_i t') by congruence.
  replace (rt_h_k t) with (rt_h_k t') by congruence.
  replace (rt_w_order t) with (rt_w_order t') by congruence.
  destruct (h_dict _ _); cbn [bind]; [|discriminate].
  destruct (Nat.eqb (rt_w_order t') 0); [intros; eexists; reflexivity|].
  destruct (w_dict _); cbn [bind]; [intros; eexists; reflexivity|discriminate].
Qed.

Lemma mapM_in {A B} (f : A -> res B) l ys x :
  mapM f l = Ok ys -> In x l -> exists y, f x = Ok y /\ In y ys.
Proof.
  revert ys. induction l as [|a l IH]; intros ys H Hin; [destruct Hin|].
  cbn [mapM] in H. destruct (f a) as [y|] eqn:Ea; cbn [bind] in H; [|discriminate].
  destruct (mapM f l) as [ys'|] eqn:El; cbn [bind] in H; [|discriminate].
  injection H as <-. destruct Hin as [->|Hin]; [exists y; split; [exact Ea|now left]|].
  destruct (IH ys' eq_refl Hin) as [y' [E Hy]]. exists y'. split; [exact E|now right].
Qed.

Lemma statements_known all printed l b :
  (forall t, In t printed -> exists a, residual_terms_einsum t = Ok a) ->
  incl l all ->
  residual_statements all printed l = Ok b ->
  forall t, In t l -> exists a, residual_terms_einsum t = Ok a.
Proof.
  revert printed b. induction l as [|x l IH]; intros printed b Hp Hincl H t Hin; [destruct Hin|].
  assert (incl l all) as Hincl' by (intros ? ?; apply Hincl; now right).
  cbn [residual_statements] in H.
  destruct (existsb (rterm_eqb x) printed) eqn:Ex.
  - destruct Hin as [<-|Hin]; [|eapply (IH printed b); eassumption].
    apply existsb_exists in Ex as [t' [Ht' Et']]. destruct (Hp t' Ht') as [a Ea].
    eapply rterm_eqb_einsum; eassumption.
  - destruct (Nat.eqb (rt_w_order x) 0 || Nat.eqb (rt_w_order x) 1).
    + destruct (residual_terms_einsum x) as [a|] eqn:Ea; cbn [bind] in H; [|discriminate].
      destruct (residual_statements all (printed ++ [x])%list l) as [b'|] eqn:El; cbn [bind] in H; [|discriminate].
      destruct Hin as [<-|Hin]; [eexists; exact Ea|].
      eapply (IH _ b'); [|exact Hincl'|exact El|exact Hin].
      intros t' Ht'. apply in_app_iff in Ht' as [Ht'|[<-|[]]]; [now apply Hp|eexists; exact Ea].
    + destruct (is_quadratic x) eqn:Eq.
      * destruct (mapM quad_item (filter is_quadratic all)) as [items|] eqn:Em; cbn [bind] in H; [|discriminate].
        destruct (residual_statements all (printed ++ filter is_quadratic all)%list l) as [b'|] eqn:El; cbn [bind] in H; [|discriminate].
        assert (forall t, In t (filter is_quadratic all) -> exists a, residual_terms_einsum t = Ok a) as Hq.
        { intros t' Ht'. destruct (mapM_in _ _ _ _ Em Ht') as [y [Ey _]]. unfold quad_item in Ey.
          destruct (residual_terms_einsum t'); [eexists; reflexivity|discriminate]. }
        assert (forall t, In t l -> exists a, residual_terms_einsum t = Ok a) as Hl.
        { eapply (IH _ b'); [|exact Hincl'|exact El]. intros t' Ht'. apply in_app_iff in Ht' as [Ht'|Ht']; auto. }
        destruct Hin as [<-|Hin]; [|now apply Hl].
        apply Hq. apply filter_In. split; [apply Hincl; now left|exact Eq].
      * destruct (w_dict (rt_w_order x)) as [w|]; cbn [bind] in H; [|discriminate].
        destruct (mapM residual_terms_einsum (same_w_order_term_list x all)) as [items|] eqn:Em; cbn [bind] in H; [|discriminate].
        destruct (residual_statements all (printed ++ same_w_order_term_list x all)%list l) as [b'|] eqn:El; cbn [bind] in H; [|discriminate].
        assert (forall t, In t (same_w_order_term_list x all) -> exists a, residual_terms_einsum t = Ok a) as Hq.
        { intros t' Ht'. destruct (mapM_in _ _ _ _ Em Ht') as [y [Ey _]]. eexists; exact Ey. }
        assert (forall t, In t l -> exists a, residual_terms_einsum t = Ok a) as Hl.
        { eapply (IH _ b'); [|exact Hincl'|exact El].
          intros t' Ht'. apply in_app_iff in Ht' as [Ht'|Ht']; auto. }
        destruct Hin as [<-|Hin]; [|now apply Hl].
        apply Hq. apply filter_In. split; [apply Hincl; now left|apply Nat.eqb_refl].
Qed.

Lemma written_known terms p f :
  write_residual_function terms p = Ok f ->
  forall t, In t terms -> exists a, residual_terms_einsum t = Ok a.
Proof.
  intros H. unfold write_residual_function in H.
  destruct (mapM w_dict _); cbn [bind] in H; [|discriminate].
  destruct (if Nat.leb p 1 then _ else _); cbn [bind] in H; [|discriminate].
  destruct (residual_statements terms [] terms) eqn:E; cbn [bind] in H; [|discriminate].
  eapply statements_known; [|apply incl_refl|exact E]. intros t [].
Qed.

Lemma residual_loop_in p hs l h y :
  residual_loop p hs = Ok l -> In h hs -> residual_step p h = Ok (Some y) -> In y l.
Proof.
  revert l. induction hs as [|x hs IH]; intros l H Hin Hs; [destruct Hin|].
  cbn [residual_loop] in H. destruct (residual_step p x) as [z|] eqn:Ex; cbn [bind] in H; [|discriminate].
  destruct (residual_loop p hs) as [rest|] eqn:Er; cbn [bind] in H; [|discriminate].
  injection H as <-. destruct Hin as [->|Hin].
  - rewrite Hs in Ex. injection Ex as <-. now left.
  - pose proof (IH rest eq_refl Hin Hs). destruct z; [now right|assumption].
Qed.

(** A Hamiltonian of rank three or more has operators without an array name:
    no residual module can be generated. *)
Lemma residual_rank3_fails rank p :
  3 <= rank -> exists e, (do st <- generate_residual_string_list (residual_hamiltonian rank) p;
                          write_residual_function (snd st) p) = Err e.
Proof.
  intros Hr. destruct (generate_residual_string_list (residual_hamiltonian rank) p) as [[ss ts]|e] eqn:E;
    [|eexists; reflexivity]. cbn [bind snd].
  destruct (write_residual_function ts p) as [f|e] eqn:Ef; [|eexists; reflexivity].
  exfalso. unfold generate_residual_string_list in E.
  destruct (residual_loop p (residual_hamiltonian rank)) as [l|] eqn:El; cbn [bind] in E; [|discriminate].
  injection E as _ <-.
  destruct (residual_step_ok p 0 3) as [s Es]; [lia|lia|lia|lia|].
  assert (In (residual_h_operator 0 3) (residual_hamiltonian rank)) as Hin.
  { rewrite hamiltonian_pairs. apply in_map_iff. exists (0, 3). split; [reflexivity|]. apply in_ham_pairs. lia. }
  pose proof (residual_loop_in _ _ _ _ _ El Hin Es) as Hy.
  destruct (written_known _ _ _ Ef _ (in_map snd _ _ Hy)) as [a Ha]. discriminate Ha.
Qed.

Lemma mapM_err {A B} (f : A -> res B) l x e :
  In x l -> f x = Err e -> exists e', mapM f l = Err e'.
Proof.
  intros Hin He. destruct (mapM f l) as [ys|e'] eqn:E; [|eexists; reflexivity].
  destruct (mapM_in _ _ _ _ E Hin) as [y [Ey _]]. congruence.
Qed.

Lemma residual_file_rank3_fails rank mo :
  3 <= rank -> exists e, generate_residual_equations_file mo rank = Err e.
Proof.
  intros Hr. unfold generate_residual_equations_file, generate_residual_data.
  destruct (mapM (generate_residual_string_list (residual_hamiltonian rank)) (range 0 (mo + 1))) as [l|] eqn:El;
    [|eexists; reflexivity]. cbn [bind snd].
  replace (mo + 1) with (S mo) in El |- * by lia.
  assert (range 0 (S mo) = 0 :: range 1 (S mo)) as Er
    by (unfold range; cbn [Nat.sub seq]; now rewrite Nat.sub_0_r).
  rewrite Er in El |- *. clear Er.
  cbn [mapM] in El |- *.
  destruct (generate_residual_string_list (residual_hamiltonian rank) 0) as [st|] eqn:E0; cbn [bind] in El; [|discriminate].
  destruct (mapM _ (range 1 (S mo))) as [l'|]; cbn [bind] in El; [|discriminate].
  injection El as <-. cbn [map py_nth nth_error bind].
  destruct (residual_rank3_fails rank 0 Hr) as [e He]. rewrite E0 in He. cbn [bind] in He.
  unfold py_nth at 1. cbn [nth_error bind]. rewrite He. eexists. reflexivity.
Qed.

Lemma residual_order7_fails terms p :
  7 <= p -> exists e, write_residual_function terms p = Err e.
Proof.
  intros Hp. unfold write_residual_function.
  destruct (mapM_err w_dict (range 1 (p + 3)) 9 KeyErr) as [e ->]; [apply in_range; lia|reflexivity|].
  eexists. reflexivity.
Qed.

(** ** What the generated functions add *)

Fixpoint bool_lists (n : nat) : list (list bool) :=
  match n with
  | 0 => [[]]
  | S k => flat_map (fun l => [true :: l; false :: l]) (bool_lists k)
  end.

Lemma in_bool_lists n l : List.length l = n -> In l (bool_lists n).
Proof.
  revert l. induction n as [|n IH]; intros l H.
  - destruct l; [now left|discriminate].
  - destruct l as [|b l]; [discriminate|]. injection H as H. cbn [bool_lists].
    apply in_flat_map. exists l. split; [now apply IH|]. destruct b; cbn; tauto.
Qed.

(** The W operators a statement list asks for. *)
Definition stmt_keys (s : rstmt) : list nat :=
  match s with
  | SAdd _ => []
  | SQuad items => flat_map (fun q => match q with QIf k _ => [k] | QElse _ => [] end) items
  | SIfW k _ => [k]
  end.

Lemma run_qitems_ext avail avail' items prev :
  (forall k, In k (flat_map (fun q => match q with QIf k _ => [k] | QElse _ => [] end) items) -> avail k = avail' k) ->
  run_qitems avail prev items = run_qitems avail' prev items.
Proof.
  revert prev. induction items as [|[k a|a] items IH]; intros prev H; [reflexivity|..]; cbn [run_qitems].
  - rewrite (H k) by (cbn [flat_map app]; now left).
    rewrite (IH (Some (avail' k))) by (intros; apply H; cbn [flat_map app]; now right). reflexivity.
  - destruct prev; [|reflexivity]. rewrite (IH None) by (intros; apply H; assumption). reflexivity.
Qed.

Lemma run_rstmts_ext q avail avail' body :
  (forall k, In k (flat_map stmt_keys body) -> avail k = avail' k) ->
  run_rstmts q avail body = run_rstmts q avail' body.
Proof.
  induction body as [|s body IH]; intros H; [reflexivity|].
  assert (run_rstmts q avail body = run_rstmts q avail' body) as E
    by (apply IH; intros; apply H; cbn [flat_map]; apply in_app_iff; now right).
  destruct s as [a|items|k l]; cbn [run_rstmts]; rewrite E; [reflexivity|..].
  - rewrite (run_qitems_ext avail avail' items None); [reflexivity|].
    intros k Hk. apply H. cbn [flat_map stmt_keys]. apply in_app_iff. now left.
  - rewrite (H k) by (cbn [flat_map stmt_keys app]; now left). reflexivity.
Qed.

(** Permutations by counting. *)
Fixpoint remove1 {A} (eqb : A -> A -> bool) (x : A) (l : list A) : option (list A) :=
  match l with
  | [] => None
  | y :: r => if eqb x y then Some r
              else match remove1 eqb x r with Some r' => Some (y :: r') | None => None end
  end.
Fixpoint permb {A} (eqb : A -> A -> bool) (l l' : list A) : bool :=
  match l with
  | [] => match l' with [] => true | _ => false end
  | x :: r => match remove1 eqb x l' with Some r' => permb eqb r r' | None => false end
  end.

Lemma remove1_perm {A} (eqb : A -> A -> bool) (Heq : forall x y, eqb x y = true -> x = y) x l r :
  remove1 eqb x l = Some r -> Permutation l (x :: r).
Proof.
  revert r. induction l as [|y l IH]; intros r H; [discriminate|]. cbn [remove1] in H.
  destruct (eqb x y) eqn:E; [injection H as <-; apply Heq in E as ->; reflexivity|].
  destruct (remove1 eqb x l) as [r'|]; [|discriminate]. injection H as <-.
  rewrite (IH r' eq_refl). apply perm_swap.
Qed.

Lemma permb_perm {A} (eqb : A -> A -> bool) (Heq : forall x y, eqb x y = true -> x = y) l l' :
  permb eqb l l' = true -> Permutation l l'.
Proof.
  revert l'. induction l as [|x l IH]; intros l' H; cbn [permb] in H.
  - destruct l'; [reflexivity|discriminate].
  - destruct (remove1 eqb x l') as [r|] eqn:E; [|discriminate].
    rewrite (remove1_perm eqb Heq x l' r E). apply perm_skip. now apply IH.
Qed.

Definition key_eqb (a b : string * option string) : bool :=
  String.eqb (fst a) (fst b) &&
  match snd a, snd b with
  | None, None => true
  | Some x, Some y => String.eqb x y
  | _, _ => false
  end.

Lemma key_eqb_eq a b : key_eqb a b = true -> a = b.
Proof.
  destruct a as [a [x|]], b as [b [y|]]; unfold key_eqb; cbn [fst snd]; intros H;
    apply andb_true_iff in H as [H1 H2]; apply String.eqb_eq in H1 as ->; try discriminate.
  - apply String.eqb_eq in H2 as ->. reflexivity.
  - reflexivity.
Qed.

(** What the function of order p adds, including the misplaced else of h^2 at
    orders two and three. *)
Definition actually_active (quadratic : bool) (avail : nat -> bool) (p m n : nat) : bool :=
  if Nat.eqb m 2 && (Nat.eqb p 2 || Nat.eqb p 3) then quadratic && negb (avail (p + 2))
  else term_active quadratic avail p m n.

(** einsum labels, decided. *)
Fixpoint nodupb (l : list ascii) : bool :=
  match l with [] => true | x :: r => negb (existsb (Ascii.eqb x) r) && nodupb r end.

Lemma nodupb_ok l : nodupb l = true -> NoDup l.
Proof.
  induction l as [|x l IH]; intros H; [constructor|]. cbn [nodupb] in H.
  apply andb_true_iff in H as [H1 H2]. constructor; [|now apply IH].
  intros Hin. apply negb_true_iff in H1. rewrite <- not_true_iff_false in H1. apply H1.
  apply existsb_exists. exists x. split; [exact Hin|apply Ascii.eqb_refl].
Qed.

Definition asciis_eqb := list_eqb Ascii.eqb.
Lemma asciis_eqb_eq x y : asciis_eqb x y = true -> x = y.
Proof. apply list_eqb_eq. intros; apply Ascii.eqb_eq. Qed.

Definition labels_okb (p m n : nat) (hd wd od : list ascii) : bool :=
  match hd, wd with
  | a :: c :: hr, c' :: b :: wr =>
      let K := firstn n hr in let I1 := skipn n hr in let I2 := skipn n wr in
      Ascii.eqb c c' && asciis_eqb wr (K ++ I2)%list && asciis_eqb od (a :: b :: (I1 ++ I2)%list)
      && nodupb (a :: b :: c :: (K ++ I1 ++ I2))%list
      && Nat.eqb (List.length K) n && Nat.eqb (List.length I1) m && Nat.eqb (List.length I2) (p - m)
  | _, _ => false
  end.

Lemma labels_okb_ok p m n hd wd od : labels_okb p m n hd wd od = true -> contraction_labels p m n hd wd od.
Proof.
  unfold labels_okb. destruct hd as [|a [|c hr]]; try discriminate.
  destruct wd as [|c' [|b wr]]; try discriminate. cbv zeta. intros H.
  repeat (apply andb_true_iff in H as [H ?]).
  apply Ascii.eqb_eq in H as <-.
  repeat match goal with
         | H : Nat.eqb _ _ = true |- _ => apply Nat.eqb_eq in H
         | H : asciis_eqb _ _ = true |- _ => apply asciis_eqb_eq in H
         | H : nodupb _ = true |- _ => apply nodupb_ok in H
         end.
  exists a, b, c, (firstn n hr), (skipn n hr), (skipn n wr).
  split; [now rewrite firstn_skipn|]. split; [congruence|]. split; [assumption|].
  split; [assumption|]. split; [assumption|]. split; assumption.
Qed.

(** All additions occurring in a body. *)
Definition stmt_adds (s : rstmt) : list radd :=
  match s with
  | SAdd a => [a]
  | SQuad items => map (fun q => match q with QIf _ a => a | QElse a => a end) items
  | SIfW _ l => l
  end.

Lemma run_qitems_in avail prev items l a :
  run_qitems avail prev items = Ok l -> In a l ->
  In a (map (fun q => match q with QIf _ a => a | QElse a => a end) items).
Proof.
  revert prev l. induction items as [|[k x|x] items IH]; intros prev l H Hin; cbn [run_qitems] in H.
  - injection H as <-. destruct Hin.
  - destruct (run_qitems avail (Some (avail k)) items) as [rest|] eqn:E; cbn [bind] in H; [|discriminate].
    injection H as <-. cbn [map]. destruct (avail k); [destruct Hin as [->|Hin]; [now left|]|];
      right; eapply IH; eassumption.
  - destruct prev as [taken|]; [|discriminate].
    destruct (run_qitems avail None items) as [rest|] eqn:E; cbn [bind] in H; [|discriminate].
    injection H as <-. cbn [map]. destruct taken; [|destruct Hin as [->|Hin]; [now left|]];
      right; eapply IH; eassumption.
Qed.

Lemma run_rstmts_in q avail body l a :
  run_rstmts q avail body = Ok l -> In a l -> In a (flat_map stmt_adds body).
Proof.
  revert l. induction body as [|s body IH]; intros l H Hin.
  - injection H as <-. destruct Hin.
  - cbn [flat_map]. apply in_app_iff. destruct s as [x|items|k adds]; cbn [run_rstmts] in H.
    + destruct (run_rstmts q avail body) as [rest|]; cbn [bind] in H; [|discriminate].
      injection H as <-. destruct Hin as [->|Hin]; [left; now left|right; now apply (IH rest)].
    + destruct (run_qitems avail None items) as [here|] eqn:E; cbn [bind] in H; [|discriminate].
      destruct (run_rstmts q avail body) as [rest|]; cbn [bind] in H; [|discriminate].
      injection H as <-. destruct q; [apply in_app_iff in Hin as [Hin|Hin]|].
      * left. eapply run_qitems_in; eassumption.
      * right. now apply (IH rest).
      * right. now apply (IH rest).
    + destruct (run_rstmts q avail body) as [rest|]; cbn [bind] in H; [|discriminate].
      injection H as <-. destruct (avail k); [apply in_app_iff in Hin as [Hin|Hin]|].
      * left. exact Hin.
      * right. now apply (IH rest).
      * right. now apply (IH rest).
Qed.

(** An addition is the term of h^m_n at order p, with the labels right. *)
Definition add_okb (p m n : nat) (a : radd) : bool :=
  key_eqb (radd_key a) (residual_key p (m, n)) &&
  match a with
  | RPlain _ _ => Nat.eqb (p - m + n) 0
  | REinsum _ hd wd od _ _ => labels_okb p m n (chars hd) (chars wd) (chars od)
  end.

(** The same without the labels, which are too short from order five on. *)
Definition add_shortb (p m n : nat) (a : radd) : bool :=
  key_eqb (radd_key a) (residual_key p (m, n)) &&
  match a with
  | RPlain _ _ => Nat.eqb (p - m + n) 0
  | REinsum _ hd wd od _ _ => Nat.ltb (String.length wd) (2 + (p - m + n)) && Nat.ltb (String.length od) (2 + p)
  end.

Definition body_check (r p : nat) : bool :=
  match (do st <- generate_residual_string_list (residual_hamiltonian r) p;
         write_residual_function (snd st) p) with
  | Err _ => false
  | Ok f =>
      Nat.eqb (List.length (rf_w_names f)) (p + 2)
      && String.eqb (rf_assert f) (rank_name (Nat.max 1 p))
      && forallb (fun k => Nat.leb 1 k && Nat.leb k (p + 2)) (flat_map stmt_keys (rf_body f))
      && forallb (fun a => existsb (fun mn => if Nat.leb p 4 then add_okb p (fst mn) (snd mn) a
                                              else add_shortb p (fst mn) (snd mn) a)
                                   (residual_pairs r p)) (flat_map stmt_adds (rf_body f))
      && forallb (fun q => forallb (fun bs =>
           let avail := fun k => nth (k - 1) bs false in
           match run_rstmts q avail (rf_body f) with
           | Err _ => false
           | Ok adds => permb key_eqb (map radd_key adds)
                          (map (residual_key p)
                             (filter (fun mn => actually_active q avail p (fst mn) (snd mn)) (residual_pairs r p)))
           end) (bool_lists (p + 2))) [true; false]
  end.

Lemma body_check_all : forallb (fun r => forallb (body_check r) (seq 0 7)) (seq 0 3) = true.
Proof. vm_compute. reflexivity. Qed.

Lemma body_checked r p : r <= 2 -> p <= 6 -> body_check r p = true.
Proof.
  intros Hr Hp. pose proof body_check_all as H. rewrite forallb_forall in H.
  specialize (H r ltac:(apply in_seq; lia)). rewrite forallb_forall in H. apply H. apply in_seq. lia.
Qed.

Lemma in_residual_pairs r p m n : In (m, n) (residual_pairs r p) <-> m + n <= r /\ m <= p.
Proof.
  unfold residual_pairs. rewrite filter_In, in_prod_iff, !in_seq. cbn [fst snd].
  rewrite andb_true_iff, !Nat.leb_le. lia.
Qed.

Lemma nth_firstn_bool k n (l : list bool) : k < n -> nth k (firstn n l) false = nth k l false.
Proof.
  revert k l. induction n as [|n IH]; intros k l H; [lia|].
  destruct l as [|b l]; [destruct k; reflexivity|]. destruct k as [|k]; [reflexivity|].
  cbn [firstn nth]. apply IH. lia.
Qed.

Lemma filter_ext_pairs {A} (f g : A -> bool) l : (forall x, In x l -> f x = g x) -> filter f l = filter g l.
Proof.
  induction l as [|x l IH]; intros H; [reflexivity|]. cbn [filter].
  rewrite (H x) by now left. rewrite IH by (intros; apply H; now right). reflexivity.
Qed.

Lemma residual_run r p trunc w_args :
  r <= 2 -> p <= 6 -> p + 2 <= List.length w_args -> has_rank trunc (Nat.max 1 p) ->
  exists adds, run_residual r p trunc w_args = Ok adds /\
    Permutation (map radd_key adds)
      (map (residual_key p)
         (filter (fun mn => actually_active (trunc "quadratic"%string) (fun k => nth (k - 1) w_args false) p (fst mn) (snd mn))
                 (residual_pairs r p))) /\
    forall a, In a adds -> exists m n, m + n <= r /\ m <= p /\
      (if Nat.leb p 4 then add_okb p m n a else add_shortb p m n a) = true.
Proof.
  intros Hr Hp Hlen Hrank. pose proof (body_checked r p Hr Hp) as H. unfold body_check in H.
  unfold run_residual.
  destruct (generate_residual_string_list (residual_hamiltonian r) p) as [st|]; [|discriminate].
  cbn [bind] in *. destruct (write_residual_function (snd st) p) as [f|]; [|discriminate]. cbn [bind].
  repeat (apply andb_true_iff in H as [H ?]).
  rename H into Hn, H3 into Ha, H2 into Hk, H1 into Hadds, H0 into Hruns.
  apply Nat.eqb_eq in Hn. apply String.eqb_eq in Ha. rewrite forallb_forall in Hk, Hadds, Hruns.
  unfold run_residual_fun. rewrite Hn, Ha, Hrank.
  destruct (Nat.ltb_spec (List.length w_args) (p + 2)); [lia|]. cbn [negb].
  set (q := trunc "quadratic"%string) in *.
  specialize (Hruns q ltac:(destruct q; cbn; tauto)). rewrite forallb_forall in Hruns.
  specialize (Hruns (firstn (p + 2) w_args) ltac:(apply in_bool_lists; rewrite firstn_length; lia)).
  cbv zeta in Hruns.
  rewrite (run_rstmts_ext q _ (fun k => nth (k - 1) (firstn (p + 2) w_args) false)).
  2:{ intros k Hin. specialize (Hk k Hin). apply andb_true_iff in Hk as [H1 H2].
      apply Nat.leb_le in H1. apply Nat.leb_le in H2. symmetry. apply nth_firstn_bool. lia. }
  destruct (run_rstmts q _ (rf_body f)) as [adds|] eqn:E; [|discriminate].
  exists adds. split; [reflexivity|]. split.
  - apply permb_perm in Hruns; [|exact key_eqb_eq].
    erewrite filter_ext_pairs; [exact Hruns|]. intros [m n] Hin. apply in_residual_pairs in Hin.
    cbn [fst snd]. unfold actually_active, term_active, w_available.
    destruct (Nat.eqb m 2 && _).
    + now rewrite nth_firstn_bool by lia.
    + destruct (Nat.leb_spec (p - m + n) 1); [reflexivity|]. now rewrite nth_firstn_bool by lia.
  - intros a Hin. pose proof (run_rstmts_in _ _ _ _ _ E Hin) as Hin'. specialize (Hadds a Hin').
    apply existsb_exists in Hadds as [[m n] [Hmn Hok]]. apply in_residual_pairs in Hmn as [H1 H2].
    exists m, n. split; [exact H1|]. split; [exact H2|]. exact Hok.
Qed.

Lemma residual_each_term_once r p trunc w_args :
  r <= 2 -> p <= 6 -> p + 2 <= List.length w_args -> has_rank trunc (Nat.max 1 p) ->
  r <= 1 \/ (p <> 2 /\ p <> 3) ->
  exists adds, run_residual r p trunc w_args = Ok adds /\
    Permutation (map radd_key adds)
      (map (residual_key p)
         (filter (fun mn => term_active (trunc "quadratic"%string) (fun k => nth (k - 1) w_args false) p (fst mn) (snd mn))
                 (residual_pairs r p))).
Proof.
  intros Hr Hp Hl Ht Hc. destruct (residual_run r p trunc w_args Hr Hp Hl Ht) as [adds [E [HP _]]].
  exists adds. split; [exact E|]. erewrite filter_ext_pairs; [exact HP|].
  intros [m n] Hin. apply in_residual_pairs in Hin. cbn [fst snd]. unfold actually_active.
  destruct (Nat.eqb_spec m 2); destruct (Nat.eqb_spec p 2); destruct (Nat.eqb_spec p 3); cbn [andb orb];
    try reflexivity; lia.
Qed.

(** Order two and three: the h^2 term is dropped whenever W of order p + 2 is
    there. *)
Lemma residual_h2_lost p trunc w_args :
  p = 2 \/ p = 3 -> p + 2 <= List.length w_args -> has_rank trunc (Nat.max 1 p) ->
  exists adds, run_residual 2 p trunc w_args = Ok adds /\
    (In (residual_key p (2, 0)) (map radd_key adds) <->
     trunc "quadratic"%string = true /\ nth (p + 1) w_args false = false).
Proof.
  intros Hp Hl Ht. destruct (residual_run 2 p trunc w_args) as [adds [E [HP _]]]; [lia|lia|lia|exact Ht|].
  exists adds. split; [exact E|].
  transitivity (In (residual_key p (2, 0)) (map (residual_key p)
         (filter (fun mn => actually_active (trunc "quadratic"%string) (fun k => nth (k - 1) w_args false) p (fst mn) (snd mn))
                 (residual_pairs 2 p)))).
  { split; apply Permutation_in; [exact HP|now symmetry]. }
  rewrite in_map_iff. split.
  - intros [[m n] [Ek Hin]]. apply filter_In in Hin as [Hin Ha]. apply in_residual_pairs in Hin as [H1 H2].
    assert (m = 2 /\ n = 0) as [-> ->].
    { clear - Ek H1. unfold residual_key in Ek. apply (f_equal fst) in Ek. cbn [fst snd] in Ek.
      assert (m <= 2) as Hm by lia. assert (n <= 2) as Hn by lia.
      do 3 (destruct m as [|m]; [do 3 (destruct n as [|n]; [first [discriminate Ek|lia|split; lia]|]); lia|]). lia. }
    unfold actually_active in Ha. cbn [fst snd] in Ha.
    assert ((Nat.eqb p 2 || Nat.eqb p 3)%bool = true) as Ep by (destruct Hp as [->| ->]; reflexivity).
    rewrite Ep in Ha. cbn [Nat.eqb andb] in Ha. apply andb_true_iff in Ha as [H3 H4].
    split; [exact H3|]. apply negb_true_iff in H4. now replace (p + 1) with (p + 2 - 1) by lia.
  - intros [H1 H2]. exists (2, 0). split; [reflexivity|]. apply filter_In.
    split; [apply in_residual_pairs; lia|]. unfold actually_active. cbn [fst snd].
    assert ((Nat.eqb p 2 || Nat.eqb p 3)%bool = true) as Ep by (destruct Hp as [->| ->]; reflexivity).
    rewrite Ep, H1. replace (p + 2 - 1) with (p + 1) by lia. rewrite H2. reflexivity.
Qed.

Lemma residual_labels_ok r p trunc w_args adds :
  r <= 2 -> p <= 4 -> p + 2 <= List.length w_args -> has_rank trunc (Nat.max 1 p) ->
  run_residual r p trunc w_args = Ok adds ->
  forall a, In a adds -> exists m n, m + n <= r /\ m <= p /\ radd_key a = residual_key p (m, n) /\
    match a with
    | RPlain _ _ => p = m /\ n = 0
    | REinsum _ hd wd od _ _ => contraction_labels p m n (chars hd) (chars wd) (chars od)
    end.
Proof.
  intros Hr Hp Hl Ht E a Hin.
  destruct (residual_run r p trunc w_args Hr ltac:(lia) Hl Ht) as [adds' [E' [_ H]]].
  rewrite E in E'. injection E' as <-. destruct (H a Hin) as [m [n [H1 [H2 H3]]]].
  exists m, n. split; [exact H1|]. split; [exact H2|].
  destruct (Nat.leb_spec p 4); [|lia]. unfold add_okb in H3. apply andb_true_iff in H3 as [H3 H4].
  split; [now apply key_eqb_eq|]. destruct a.
  - apply Nat.eqb_eq in H4. lia.
  - now apply labels_okb_ok.
Qed.

Lemma residual_labels_short r p trunc w_args adds :
  r <= 2 -> 5 <= p <= 6 -> p + 2 <= List.length w_args -> has_rank trunc (Nat.max 1 p) ->
  run_residual r p trunc w_args = Ok adds ->
  forall a, In a adds -> exists m n, m + n <= r /\ m <= p /\ radd_key a = residual_key p (m, n) /\
    match a with
    | RPlain _ _ => False
    | REinsum _ hd wd od _ _ => String.length wd < 2 + (p - m + n) /\ String.length od < 2 + p
    end.
Proof.
  intros Hr Hp Hl Ht E a Hin.
  destruct (residual_run r p trunc w_args Hr ltac:(lia) Hl Ht) as [adds' [E' [_ H]]].
  rewrite E in E'. injection E' as <-. destruct (H a Hin) as [m [n [H1 [H2 H3]]]].
  exists m, n. split; [exact H1|]. split; [exact H2|].
  destruct (Nat.leb_spec p 4); [lia|]. unfold add_shortb in H3. apply andb_true_iff in H3 as [H3 H4].
  split; [now apply key_eqb_eq|]. destruct a.
  - apply Nat.eqb_eq in H4. lia.
  - apply andb_true_iff in H4 as [H4 H5]. apply Nat.ltb_lt in H4. apply Nat.ltb_lt in H5. split; assumption.
Qed.

Lemma labels_lengths p m n hd wd od : contraction_labels p m n hd wd od ->
  List.length wd = 2 + (n + (p - m)) /\ List.length od = 2 + (m + (p - m)).
Proof.
  intros (a & b & c & K & I1 & I2 & -> & -> & -> & _ & E1 & E2 & E3). cbn [List.length]. rewrite !app_length. lia.
Qed.
Lemma length_chars s : List.length (chars s) = String.length s.
Proof. induction s as [|c s IH]; [reflexivity|]. cbn. now rewrite <- IH. Qed.

Lemma residual_labels_exact r p trunc w_args adds :
  r <= 2 -> p <= 6 -> p + 2 <= List.length w_args -> has_rank trunc (Nat.max 1 p) ->
  run_residual r p trunc w_args = Ok adds ->
  forall a, In a adds -> exists m n, m + n <= r /\ m <= p /\ radd_key a = residual_key p (m, n) /\
    match a with
    | RPlain _ _ => p = m /\ n = 0
    | REinsum _ hd wd od _ _ => contraction_labels p m n (chars hd) (chars wd) (chars od) <-> p <= 4
    end.
Proof.
  intros Hr Hp Hl Ht E a Hin. destruct (le_lt_dec p 4) as [H4|H4].
  - destruct (residual_labels_ok r p trunc w_args adds Hr H4 Hl Ht E a Hin) as (m & n & H1 & H2 & H3 & H). exists m, n.
    split; [exact H1|]. split; [exact H2|]. split; [exact H3|]. destruct a; [exact H|]. split; [intros; exact H4|intros; exact H].
  - destruct (residual_labels_short r p trunc w_args adds Hr ltac:(lia) Hl Ht E a Hin) as (m & n & H1 & H2 & H3 & H). exists m, n.
    split; [exact H1|]. split; [exact H2|]. split; [exact H3|]. destruct a as [|pf hd wd od h w]; [destruct H|]. split; [|intros; lia]. intros L.
    apply labels_lengths in L. rewrite !length_chars in L. lia.
Qed.

Lemma residual_sum_exact r p trunc w_args :
  r <= 2 -> p <= 6 -> p + 2 <= List.length w_args -> has_rank trunc (Nat.max 1 p) ->
  exists adds, run_residual r p trunc w_args = Ok adds /\
    Permutation (map radd_key adds)
      (map (residual_key p)
         (filter (fun mn => if Nat.eqb (fst mn) 2 && (Nat.eqb p 2 || Nat.eqb p 3)
                            then trunc "quadratic"%string && negb (nth (p + 1) w_args false)
                            else term_active (trunc "quadratic"%string) (fun k => nth (k - 1) w_args false) p (fst mn) (snd mn))
                 (residual_pairs r p))).
Proof.
  intros Hr Hp Hl Ht. destruct (residual_run r p trunc w_args Hr Hp Hl Ht) as [adds [E [HP _]]]. exists adds. split; [exact E|].
  erewrite filter_ext_pairs; [exact HP|]. intros [m n] _. cbn [fst snd]. unfold actually_active. now replace (p + 2 - 1) with (p + 1) by lia.
Qed.

Lemma residual_rank10_wrong :
  In (residual_h_operator 0 10) (residual_hamiltonian 10) /\
  exists s t, residual_step 0 (residual_h_operator 0 10) = Ok (Some (s, t)) /\ rt_h_k t = 0.
Proof.
  split.
  - rewrite hamiltonian_pairs. apply in_map_iff. exists (0, 10). split; [reflexivity|].
    apply in_ham_pairs. lia.
  - eexists _, (mkRterm (PFrac 1 (factorial 10)) 0 0 0 10 10). split; [|reflexivity].
    lazy -[factorial]. reflexivity.
Qed.
