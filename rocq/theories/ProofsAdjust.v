(** Proofs for C129. *)
From Coq Require Import List Arith Lia Factorial.
From Verif Require Import PyBase ModelZhz ModelEt ModelEtPy ModelAdjust SpecAdjust ProofsZhzLatex.
Import ListNotations.

Lemma factorial_fact n : factorial n = fact n.
Proof. induction n as [|n IH]; [reflexivity|]. cbn [factorial fact]. rewrite IH. lia. Qed.
Lemma factorial_if_fact n : factorial_if n = fact n.
Proof. unfold factorial_if. destruct (Nat.ltb_spec 1 n); [apply factorial_fact|]. destruct n as [|[|n]]; [reflexivity|reflexivity|lia]. Qed.
Lemma factor_if_pos n : 0 < n -> factor_if n = n.
Proof. unfold factor_if. intros. destruct (Nat.ltb_spec 1 n); lia. Qed.
Lemma comb_pos a b : 0 < comb (a + b) a.
Proof. pose proof (comb_fact a b) as E. pose proof (lt_O_fact (a + b)). destruct (comb (a + b) a); lia. Qed.

(** Three kinds of indices: two binomial coefficients. *)
Lemma three_kinds a b c :
  comb (a + b + c) a * comb (b + c) b * (fact a * fact b * fact c) = fact (a + b + c).
Proof.
  pose proof (comb_fact a (b + c)) as E1. pose proof (comb_fact b c) as E2. replace (a + (b + c)) with (a + b + c) in E1 by lia.
  rewrite <- E1, <- E2. ring.
Qed.

Lemma small_fact n : n <= 1 -> fact n = 1.
Proof. destruct n as [|[|n]]; [reflexivity|reflexivity|lia]. Qed.

Lemma adjustment_h_value m a b t : m = a + b + list_sum t ->
  exists x, adjustment_h m a b t = Ok x /\ x * (fact a * fact b) = fact m.
Proof.
  intros ->. unfold adjustment_h. destruct (Nat.ltb_spec 1 (a + b + list_sum t)) as [L|L].
  - unfold comb_minus. destruct (Nat.ltb_spec (a + b + list_sum t) a); [lia|]. replace (a + b + list_sum t - a) with (b + list_sum t) by lia.
    eexists. split; [reflexivity|]. rewrite factorial_if_fact, !factor_if_pos.
    + rewrite <- (three_kinds a b (list_sum t)). ring.
    + apply comb_pos.
    + replace (a + b + list_sum t) with (a + (b + list_sum t)) by lia. apply comb_pos.
  - exists 1. split; [reflexivity|]. rewrite !small_fact by lia. reflexivity.
Qed.

Lemma h_numerator_value m a b t : m = a + b + list_sum t ->
  exists x, eT_h_numerator m a b = Ok x /\ x * (fact a * fact b * fact (list_sum t)) = fact m.
Proof.
  intros ->. unfold eT_h_numerator. destruct (Nat.ltb_spec 1 (a + b + list_sum t)) as [L|L].
  - unfold comb_minus. destruct (Nat.ltb_spec (a + b + list_sum t) a); [lia|]. replace (a + b + list_sum t - a) with (b + list_sum t) by lia.
    eexists. split; [reflexivity|]. rewrite !factor_if_pos.
    + rewrite <- (three_kinds a b (list_sum t)). ring.
    + apply comb_pos.
    + replace (a + b + list_sum t) with (a + (b + list_sum t)) by lia. apply comb_pos.
  - exists 1. split; [reflexivity|]. rewrite !small_fact by lia. reflexivity.
Qed.

Lemma adjustment_z_value z : ez_m z = ez_m_lhs z + ez_m_h z + list_sum (ez_m_t z) ->
  exists x, adjustment_z z = Ok x /\ x * fact (ez_m_lhs z) = fact (ez_m z).
Proof.
  intros E. unfold adjustment_z. rewrite E. set (a := ez_m_lhs z). set (b := ez_m_h z). set (t := list_sum (ez_m_t z)).
  destruct (Nat.ltb_spec 1 (a + b + t)) as [L|L].
  - unfold comb_minus. destruct (Nat.ltb_spec (a + b + t) a); [lia|]. destruct (Nat.ltb_spec (a + b + t) (a + b)); [lia|]. cbn [bind].
    replace (a + b + t - a) with (b + t) by lia. replace (a + b + t - (a + b)) with t by lia. rewrite comb_full. cbn [Nat.eqb].
    eexists. split; [reflexivity|]. rewrite !factorial_if_fact, !factor_if_pos.
    + rewrite <- (three_kinds a b t). ring.
    + apply comb_pos.
    + replace (a + b + t) with (a + (b + t)) by lia. apply comb_pos.
  - exists 1. split; [reflexivity|]. rewrite !small_fact by lia. reflexivity.
Qed.

Lemma z_numerator_value z : ez_m z = ez_m_lhs z + ez_m_h z + list_sum (ez_m_t z) ->
  exists x, eT_z_numerator z = Ok x /\ x * (fact (ez_m_lhs z) * fact (list_sum (ez_m_t z))) = fact (ez_m z).
Proof.
  intros E. unfold eT_z_numerator. rewrite E. set (a := ez_m_lhs z). set (b := ez_m_h z). set (t := list_sum (ez_m_t z)).
  destruct (Nat.ltb_spec 1 (a + b + t)) as [L|L].
  - unfold comb_minus. destruct (Nat.ltb_spec (a + b + t) a); [lia|]. destruct (Nat.ltb_spec (a + b + t) (a + b)); [lia|]. cbn [bind].
    replace (a + b + t - a) with (b + t) by lia. replace (a + b + t - (a + b)) with t by lia. rewrite comb_full. cbn [Nat.eqb].
    eexists. split; [reflexivity|]. rewrite !factorial_if_fact, !factor_if_pos.
    + rewrite <- (three_kinds a b t). ring.
    + apply comb_pos.
    + replace (a + b + t) with (a + (b + t)) by lia. apply comb_pos.
  - exists 1. split; [reflexivity|]. rewrite !small_fact by lia. reflexivity.
Qed.

Lemma adjustment_value h z : indices_placed h z -> ez_n z <= 1 ->
  exists a b, compute_prefactor_adjustment h z = Ok (a, b) /\ a * placed_orders h z = b.
Proof.
  intros (E1 & E2 & E3 & E4) L. unfold compute_prefactor_adjustment, placed_orders.
  destruct (adjustment_h_value _ _ _ _ E1) as (x1 & -> & F1), (adjustment_h_value _ _ _ _ E2) as (x2 & -> & F2), (adjustment_z_value z E3) as (x3 & -> & F3).
  cbn [bind]. eexists _, _. split; [reflexivity|]. unfold adjustment_z_lower. destruct (Nat.ltb_spec 1 (ez_n z)); [lia|].
  rewrite !factorial_if_fact, <- F1, <- F2, <- F3, (small_fact (ez_n z)) by lia. ring.
Qed.

Lemma linear_product ts : linear_amplitudes ts -> product_of (map (fun t => factorial_if (et_m t) * factorial_if (et_n t)) ts) = 1.
Proof.
  unfold product_of. induction 1 as [|t ts [A B] _ IH]; [reflexivity|]. cbn [map fold_right]. rewrite IH, !factorial_if_fact, !small_fact by lia. reflexivity.
Qed.

Lemma against_code ts h z : indices_placed h z -> ez_n z <= 1 -> linear_amplitudes ts ->
  exists a b num den, compute_prefactor_adjustment h z = Ok (a, b) /\ build_eT_zhz_python_prefactor ts h z = Ok (num, den) /\
    0 < b /\ 0 < den /\ a * den = num * b * amplitude_orders h z.
Proof.
  intros P L Lt. destruct (adjustment_value h z P L) as (a & b & C & V). destruct P as (E1 & E2 & E3 & E4).
  destruct (h_numerator_value _ _ _ _ E1) as (x1 & G1 & F1), (h_numerator_value _ _ _ _ E2) as (x2 & G2 & F2), (z_numerator_value z E3) as (x3 & G3 & F3).
  unfold build_eT_zhz_python_prefactor. rewrite G1, G2, G3. cbn [bind]. rewrite (linear_product ts Lt), !factorial_if_fact, (small_fact (ez_n z)) by lia.
  unfold eT_z_lower_numerator. destruct (Nat.ltb_spec 1 (ez_n z)); [lia|].
  do 4 eexists. split; [exact C|]. split; [reflexivity|].
  pose proof (lt_O_fact (eh_m h)). pose proof (lt_O_fact (eh_n h)). pose proof (lt_O_fact (ez_m z)).
  assert (B : b = fact (eh_m h) * fact (eh_n h) * fact (ez_m z)).
  { unfold compute_prefactor_adjustment in C. destruct (adjustment_h_value _ _ _ _ E1) as (y1 & K1 & _), (adjustment_h_value _ _ _ _ E2) as (y2 & K2 & _), (adjustment_z_value z E3) as (y3 & K3 & _).
    rewrite K1, K2, K3 in C. cbn [bind] in C. injection C as _ <-. rewrite !factorial_if_fact, (small_fact (ez_n z)) by lia. ring. }
  split; [rewrite B; nia|]. split; [nia|].
  assert (Q : 0 < placed_orders h z).
  { unfold placed_orders. pose proof (lt_O_fact (eh_m_lhs h)). pose proof (lt_O_fact (eh_m_r h)). pose proof (lt_O_fact (eh_n_lhs h)).
    pose proof (lt_O_fact (eh_n_r h)). pose proof (lt_O_fact (ez_m_lhs z)). repeat apply Nat.mul_pos_pos; assumption. }
  apply (Nat.mul_cancel_r _ _ (placed_orders h z)); [lia|].
  transitivity (b * (fact (eh_m h) * fact (eh_n h) * fact (ez_m z))); [rewrite <- V at 1; ring|].
  replace (x1 * x2 * x3 * 1 * b * amplitude_orders h z * placed_orders h z) with
    (b * ((x1 * (fact (eh_m_lhs h) * fact (eh_m_r h) * fact (list_sum (eh_m_t h)))) * (x2 * (fact (eh_n_lhs h) * fact (eh_n_r h) * fact (list_sum (eh_n_t h))))
      * (x3 * (fact (ez_m_lhs z) * fact (list_sum (ez_m_t z)))))) by (unfold amplitude_orders, placed_orders; ring).
  now rewrite F1, F2, F3.
Qed.
