(** Facts about PyStr: reading back text built from numerals. *)
From Verif Require Import PyBase PyStr.
From Coq Require Import DecimalString DecimalFacts DecimalNat.

Definition is_digit (c : ascii) : bool :=
  existsb (Ascii.eqb c) (chars "0123456789").

Lemma has_char_app c a b : has_char c (a ++ b)%string = has_char c a || has_char c b.
Proof. induction a as [|d a IH]; cbn [String.append has_char]; [reflexivity|]. now rewrite IH, orb_assoc. Qed.

Lemma count_char_app c a b : count_char c (a ++ b)%string = count_char c a + count_char c b.
Proof. induction a as [|d a IH]; cbn [String.append count_char]; [reflexivity|]. rewrite IH. lia. Qed.

Lemma count_no_char c s : has_char c s = false -> count_char c s = 0.
Proof.
  induction s as [|d s IH]; cbn [has_char count_char]; [reflexivity|].
  intros H. apply orb_false_iff in H as [H1 H2]. rewrite H1. now rewrite IH.
Qed.

Lemma uint_no_char c d : is_digit c = false -> has_char c (NilEmpty.string_of_uint d) = false.
Proof.
  intros H. unfold is_digit in H. cbn [chars existsb] in H.
  repeat match type of H with _ || _ = false => apply orb_false_iff in H as [? H] end.
  induction d as [|d IH|d IH|d IH|d IH|d IH|d IH|d IH|d IH|d IH|d IH];
    cbn [NilEmpty.string_of_uint has_char]; rewrite ?IH, ?orb_false_r; auto.
Qed.

Lemma str_nat_no_char c n : is_digit c = false -> has_char c (str_nat n) = false.
Proof. apply uint_no_char. Qed.

Lemma py_int_str_nat n : py_int (str_nat n) = Ok n.
Proof.
  unfold py_int, str_nat.
  assert (Nat.to_uint n <> Decimal.Nil) as Hn.
  { intros E. pose proof (f_equal Nat.of_uint E) as E'. rewrite Unsigned.of_to in E'. subst n. discriminate E. }
  replace (NilEmpty.string_of_uint (Nat.to_uint n)) with (NilZero.string_of_uint (Nat.to_uint n)).
  - rewrite NilZero.usu by exact Hn. now rewrite Unsigned.of_to.
  - unfold NilZero.string_of_uint. destruct (Nat.to_uint n); [congruence|..]; reflexivity.
Qed.

Lemma split_none c s : has_char c s = false -> split_char c s = [s].
Proof.
  induction s as [|d s IH]; cbn [has_char split_char]; [reflexivity|].
  intros H. apply orb_false_iff in H as [H1 H2]. rewrite H1, IH by exact H2. reflexivity.
Qed.

Lemma split_app c s r : has_char c s = false -> split_char c (s ++ String c r)%string = s :: split_char c r.
Proof.
  induction s as [|d s IH]; cbn [has_char split_char String.append].
  - intros _. now rewrite Ascii.eqb_refl.
  - intros H. apply orb_false_iff in H as [H1 H2]. rewrite H1, IH by exact H2. reflexivity.
Qed.

Lemma del_app c a b : del_char c (a ++ b)%string = (del_char c a ++ del_char c b)%string.
Proof.
  induction a as [|d a IH]; cbn [String.append del_char]; [reflexivity|].
  rewrite IH. destruct (Ascii.eqb c d); reflexivity.
Qed.

Lemma del_none c s : has_char c s = false -> del_char c s = s.
Proof.
  induction s as [|d s IH]; cbn [has_char del_char]; [reflexivity|].
  intros H. apply orb_false_iff in H as [H1 H2]. now rewrite H1, IH.
Qed.

Lemma append_assoc a b c : ((a ++ b) ++ c = a ++ (b ++ c))%string.
Proof. induction a as [|d a IH]; cbn [String.append]; [reflexivity|]. now rewrite IH. Qed.

Lemma append_nil_r a : (a ++ "" = a)%string.
Proof. induction a as [|d a IH]; cbn [String.append]; [reflexivity|]. now rewrite IH. Qed.

Lemma contains_app_r sub a b : contains sub b = true -> contains sub (a ++ b)%string = true.
Proof.
  intros H. induction a as [|d a IH]; cbn [String.append]; [exact H|].
  cbn [contains]. rewrite IH. apply orb_true_r.
Qed.

Lemma contains_no_first c sub s : has_char c s = false -> contains (String c sub) s = false.
Proof.
  induction s as [|d s IH]; intros H; [reflexivity|].
  cbn [has_char] in H. apply orb_false_iff in H as [H1 H2].
  cbn [contains String.prefix]. destruct (ascii_dec c d) as [->|]; [now rewrite Ascii.eqb_refl in H1|].
  cbn [orb]. now apply IH.
Qed.

Lemma chars_app a b : chars (a ++ b)%string = chars a ++ chars b.
Proof. induction a as [|d a IH]; cbn [String.append chars app]; [reflexivity|]. now rewrite IH. Qed.

Lemma of_chars_chars s : of_chars (chars s) = s.
Proof. induction s as [|d s IH]; cbn [chars of_chars]; [reflexivity|]. now rewrite IH. Qed.

Lemma chars_of_chars l : chars (of_chars l) = l.
Proof. induction l as [|d l IH]; cbn [chars of_chars]; [reflexivity|]. now rewrite IH. Qed.

Lemma sdrop_end_app a b : sdrop_end (String.length b) (a ++ b)%string = a.
Proof.
  unfold sdrop_end. rewrite chars_app, rev_app_distr.
  replace (String.length b) with (List.length (rev (chars b))).
  - rewrite skipn_app, skipn_all, Nat.sub_diag. cbn [skipn app]. now rewrite rev_involutive, of_chars_chars.
  - rewrite rev_length. induction b; cbn; congruence.
Qed.

Lemma concat_str_app a b : concat_str (a ++ b)%list = (concat_str a ++ concat_str b)%string.
Proof.
  unfold concat_str. induction a as [|x a IH]; cbn [app fold_right]; [reflexivity|].
  now rewrite IH, append_assoc.
Qed.

Lemma str_nat_inj a b : str_nat a = str_nat b -> a = b.
Proof. intros H. apply (f_equal py_int) in H. rewrite !py_int_str_nat in H. congruence. Qed.
