(** Contractions with the same place: the printed prefactor is read back, the
    requested contractions of small truncations are listed, and the call of a
    contraction determines it. *)
From Coq Require Import List Arith NArith Lia Bool Ascii String Permutation.
From Verif Require Import PyBase PyBaseFacts PyStr ModelFullCC ModelFullCCPy SpecFullCC SpecPrefactor SpecFullCCPy SpecFullCCText
  SpecFullCCPlaces SpecFullCCComplete ProofsStr ProofsFullCC ProofsFullCCPy ProofsFullCCPlaces.
Import ListNotations.
Local Open Scope string_scope.

(** ** The text of a prefactor determines its factors *)
Lemma tail_eq c a b : String c a = String c b -> a = b.
Proof. intros E. exact (f_equal (fun s => match s with String _ r => r | _ => EmptyString end) E). Qed.
Lemma until_char c a b x y : has_char c a = false -> has_char c b = false -> a ++ String c x = b ++ String c y -> a = b /\ x = y.
Proof.
  revert b. induction a as [|d a IH]; intros [|e b] A B E; cbn in *.
  - injection E as <-. auto.
  - injection E as -> _. now rewrite Ascii.eqb_refl in B.
  - injection E as -> _. now rewrite Ascii.eqb_refl in A.
  - injection E as -> E. apply orb_false_iff in A as [_ A], B as [_ B]. destruct (IH b A B E) as [-> ->]. auto.
Qed.
Lemma number_until a b x y : str_nat a ++ String ")" x = str_nat b ++ String ")" y -> a = b /\ x = y.
Proof.
  intros E. apply until_char in E as [E ->]; try (apply str_nat_no_char; reflexivity). split; [now apply str_nat_inj|reflexivity].
Qed.
Definition one_factor (n : nat) : string := "factorial(" ++ str_nat n ++ ")".
Lemma one_factor_until a b x y : one_factor a ++ x = one_factor b ++ y -> a = b /\ x = y.
Proof.
  unfold one_factor. rewrite !append_assoc. cbn [append]. intros E. do 10 apply tail_eq in E. now apply number_until.
Qed.
Lemma factors_until l : forall l' x y, l <> [] -> l' <> [] ->
  String.concat " * " (map one_factor l) ++ String ")" x = String.concat " * " (map one_factor l') ++ String ")" y -> l = l' /\ x = y.
Proof.
  assert (C : forall a b r, String.concat " * " (map one_factor (a :: b :: r)) = one_factor a ++ " * " ++ String.concat " * " (map one_factor (b :: r))) by reflexivity.
  induction l as [|a [|b l] IH]; intros [|a' [|b' l']] x y N N'; try congruence; rewrite ?C; rewrite ?append_assoc; intros E.
  - cbn [map String.concat] in E. apply one_factor_until in E as [-> E]. apply tail_eq in E as ->. auto.
  - cbn [map String.concat] in E. apply one_factor_until in E as [_ E]. discriminate E.
  - cbn [map String.concat] in E. apply one_factor_until in E as [_ E]. discriminate E.
  - apply one_factor_until in E as [-> E]. cbn [append] in E. do 3 apply tail_eq in E.
    apply IH in E as [E ->]; [|discriminate|discriminate]. now rewrite E.
Qed.
Lemma factorials_until l l' x y : factorials_text l ++ x = factorials_text l' ++ y -> l = l' /\ x = y.
Proof.
  unfold factorials_text. fold one_factor. destruct l as [|a l], l' as [|b l']; cbn [append]; intros E.
  - apply tail_eq in E as ->. auto.
  - discriminate E.
  - discriminate E.
  - apply tail_eq in E. rewrite !append_assoc in E. cbn [append] in E. apply (factors_until (a :: l) (b :: l')) in E; [exact E|discriminate|discriminate].
Qed.
Lemma prefactor_text_inj num den num' den' : prefactor_text num den = prefactor_text num' den' -> num = num' /\ den = den'.
Proof.
  assert (X : forall a b, prefactor_text a b = "" -> a = [] /\ b = []).
  { intros [|x a] [|y b]; cbn; try discriminate; auto. }
  assert (Y : forall a b, prefactor_text a b <> "" -> prefactor_text a b = factorials_text a ++ "/" ++ factorials_text b ++ " * ").
  { intros [|x a] [|y b]; try reflexivity. now intros N. }
  intros E. destruct (string_dec (prefactor_text num den) "") as [N|N].
  - pose proof N as N'. rewrite E in N'. apply X in N as [-> ->]. apply X in N' as [-> ->]. auto.
  - pose proof N as N'. rewrite E in N'. rewrite (Y _ _ N), (Y _ _ N') in E. apply factorials_until in E as [-> E].
    cbn [append] in E. apply tail_eq in E. apply factorials_until in E as [-> _]. auto.
Qed.

(** Equal texts give an equation of numbers. *)
Lemma fact_product_pos l : fact_product l <> 0.
Proof. unfold fact_product. induction l as [|a l IH]; cbn [fold_right]; [discriminate|]. pose proof (fact_neq_0 a). lia. Qed.
Lemma right_prefactor_value hm hn us hm' hn' us' p : right_prefactor hm hn us p -> right_prefactor hm' hn' us' p ->
  exists x x', different_connected us x /\ different_connected us' x' /\
    fact x * (fact hm' * fact hn' * fact (List.length us')) = fact x' * (fact hm * fact hn * fact (List.length us)).
Proof.
  intros (x & num & den & -> & _ & D & E) (x' & num' & den' & T & _ & D' & E'). apply prefactor_text_inj in T as [<- <-].
  exists x, x'. split; [exact D|]. split; [exact D'|].
  pose proof (fact_product_pos num) as P. pose proof (fact_product_pos den) as Q.
  set (A := fact hm * fact hn * fact (List.length us)) in *. set (A' := fact hm' * fact hn' * fact (List.length us')) in *.
  set (u := fact_product num) in *. set (v := fact_product den) in *.
  assert (Z : u * v * (fact x * A') = u * v * (fact x' * A)).
  { transitivity ((fact x * v) * (u * A')); [lia|]. rewrite <- E, E'. lia. }
  apply Nat.mul_cancel_l in Z; [exact Z|]. lia.
Qed.
