(** Proofs about the LaTeX of the z t symmetrised equations. *)
From Coq Require Import Lia Permutation Factorial.
From Verif Require Import PyBase PyStr PyBaseFacts ModelHelper ModelW ModelLatexW ModelFullCC ModelFullCCPy ModelFullCCLatex ModelZhz
  ProofsHelper ProofsW ProofsStr ProofsFullCC ProofsFullCCLabels ProofsFullCCBuckets ProofsFullCCLatexText ProofsFullCCLatex ProofsFullCCLatexFile
  SpecFullCC SpecFullCCPy SpecLatexW SpecFullCCLatex SpecZhz ProofsZhz.
Open Scope string_scope.

Notation sl := ProofsFullCCLabels.slice.

(** ** Letters *)
Definition letters_of (c : pairing nat) : pairing (list ascii) :=
  let I := letters_from inner_letters in
  let O := letters_from outer_letters in
  mkpairing
    (O (c_lp c) (c_pl c))
    (O (c_lp c + c_pl c) (c_ph c))
    (O (c_lp c + c_pl c + c_ph c + c_hp c) (c_pr c))
    (O 0 (c_lp c))
    (I 0 (c_lh c))
    (I (c_lh c) (c_lr c))
    (O (c_lp c + c_pl c + c_ph c) (c_hp c))
    (I (c_lh c + c_lr c) (c_hl c))
    (I (c_lh c + c_lr c + c_hl c + c_rl c + c_rh c) (c_hr c))
    (O (c_lp c + c_pl c + c_ph c + c_hp c + c_pr c) (c_rp c))
    (I (c_lh c + c_lr c + c_hl c) (c_rl c))
    (I (c_lh c + c_lr c + c_hl c + c_rl c) (c_rh c)).

Lemma letters_lettered c : inner c <= 5 -> outer c <= 7 -> lettered c (letters_of c).
Proof.
  intros HI HO. unfold inner, outer in *. unfold lettered, letters_of. 
  cbn [c_pl c_ph c_pr c_lp c_lh c_lr c_hp c_hl c_hr c_rp c_rl c_rh].
  change letters_from with (@sl ascii).
  assert (LI : List.length inner_letters = 5) by reflexivity. assert (LO : List.length outer_letters = 7) by reflexivity.
  rewrite !slice_length by (rewrite ?LI, ?LO; lia). do 12 (split; [reflexivity|]). split.
  - unfold inner.
    pose proof (@slice_app ascii inner_letters 0 (c_lh c) (c_lr c + c_hl c + c_rl c + c_rh c + c_hr c)) as E.
    pose proof (@slice_app ascii inner_letters (c_lh c) (c_lr c) (c_hl c + c_rl c + c_rh c + c_hr c)) as E1.
    pose proof (@slice_app ascii inner_letters (c_lh c + c_lr c) (c_hl c) (c_rl c + c_rh c + c_hr c)) as E2.
    pose proof (@slice_app ascii inner_letters (c_lh c + c_lr c + c_hl c) (c_rl c) (c_rh c + c_hr c)) as E3.
    pose proof (@slice_app ascii inner_letters (c_lh c + c_lr c + c_hl c + c_rl c) (c_rh c) (c_hr c)) as E4.
    rewrite E4, E3. replace (c_rl c + (c_rh c + c_hr c))%nat with (c_rl c + c_rh c + c_hr c)%nat by lia. rewrite E2.
    replace (c_hl c + (c_rl c + c_rh c + c_hr c))%nat with (c_hl c + c_rl c + c_rh c + c_hr c)%nat by lia. rewrite E1.
    replace (c_lr c + (c_hl c + c_rl c + c_rh c + c_hr c))%nat with (c_lr c + c_hl c + c_rl c + c_rh c + c_hr c)%nat by lia.
    cbn [Nat.add] in E. rewrite E. f_equal. lia.
  - unfold outer.
    pose proof (@slice_app ascii outer_letters 0 (c_lp c) (c_pl c + c_ph c + c_hp c + c_pr c + c_rp c)) as E.
    pose proof (@slice_app ascii outer_letters (c_lp c) (c_pl c) (c_ph c + c_hp c + c_pr c + c_rp c)) as E1.
    pose proof (@slice_app ascii outer_letters (c_lp c + c_pl c) (c_ph c) (c_hp c + c_pr c + c_rp c)) as E2.
    pose proof (@slice_app ascii outer_letters (c_lp c + c_pl c + c_ph c) (c_hp c) (c_pr c + c_rp c)) as E3.
    pose proof (@slice_app ascii outer_letters (c_lp c + c_pl c + c_ph c + c_hp c) (c_pr c) (c_rp c)) as E4.
    rewrite E4, E3. replace (c_hp c + (c_pr c + c_rp c))%nat with (c_hp c + c_pr c + c_rp c)%nat by lia. rewrite E2.
    replace (c_ph c + (c_hp c + c_pr c + c_rp c))%nat with (c_ph c + c_hp c + c_pr c + c_rp c)%nat by lia. rewrite E1.
    replace (c_pl c + (c_ph c + c_hp c + c_pr c + c_rp c))%nat with (c_pl c + c_ph c + c_hp c + c_pr c + c_rp c)%nat by lia.
    cbn [Nat.add] in E. rewrite E. f_equal. lia.
Qed.

Lemma take_inner o k : take_at z_summation_indices o k = string_of_list_ascii (letters_from inner_letters o k).
Proof. unfold take_at. now rewrite sslice_of_chars. Qed.
Lemma take_outer o k : take_at z_unlinked_indices o k = string_of_list_ascii (letters_from outer_letters o k).
Proof. unfold take_at. now rewrite sslice_of_chars. Qed.

(** ** Operators *)
Lemma index_plain n b x y z :
  render_parts "" b (if Nat.ltb 0 n then Some (string_of_list_ascii x, string_of_list_ascii y, string_of_list_ascii z) else None)
  = match n with 0 => "" | _ => string_of_list_ascii x ++ (b ++ "{" ++ string_of_list_ascii y ++ "}") ++ "\red{" ++ string_of_list_ascii z ++ "}" end.
Proof. destruct n; [reflexivity|]. cbn [Nat.ltb Nat.leb render_parts String.eqb]. rewrite !append_assoc. reflexivity. Qed.
Lemma index_marked n a b x y z : a <> "" ->
  render_parts a b (if Nat.ltb 0 n then Some (string_of_list_ascii x, string_of_list_ascii y, string_of_list_ascii z) else None)
  = match n with 0 => "" | _ => (a ++ "{" ++ string_of_list_ascii x ++ "}") ++ (b ++ "{" ++ string_of_list_ascii y ++ "}") ++ "\red{" ++ string_of_list_ascii z ++ "}" end.
Proof.
  intros Ha. destruct n; [reflexivity|]. cbn [Nat.ltb Nat.leb render_parts].
  destruct (String.eqb_spec a ""); [contradiction|]. rewrite !append_assoc. reflexivity.
Qed.

Lemma op_text name a b r m n (up down : zlab) u d : r = (m + n)%nat ->
  render_parts a b up = u -> render_parts a b down = d ->
  render_op name a b (if Nat.eqb r 0 then None else Some (up, down)) = operator_text false name m n u d.
Proof.
  intros -> <- <-. unfold operator_text. destruct (m + n)%nat; [reflexivity|].
  cbn [Nat.eqb render_op]. unfold braces_text. cbn [andb]. rewrite !append_assoc. cbn [append]. rewrite ?append_assoc. reflexivity.
Qed.

Section Operators.
  Variable c : pairing nat.
  Variable k : kind.
  Hypothesis Fk : fits_kind k c.

  Definition zl_ := mkz (l_up c + l_down c) (l_up c) (l_down c) (c_lp c) (c_pl c) (c_lh c) (c_hl c) (c_lr c) (c_rl c).
  Definition zr_ := mkz (r_up c + r_down c) (r_up c) (r_down c) (c_rp c) (c_pr c) (c_rh c) (c_hr c) (c_rl c) (c_lr c).
  Definition h_ := mkhz (h_up c + h_down c) (h_up c) (h_down c) (c_hp c) (c_ph c) (c_hl c) (c_lh c) (c_hr c) (c_rh c).

  Lemma left_ok : render_left_z (left_z_labels zl_) = left_text false c (letters_of c).
  Proof.
    unfold render_left_z, left_z_labels, zl_, left_text.
    cbn [z_rank z_m z_n z_m_lhs z_n_lhs z_m_h z_n_h z_m_x z_n_x]. rewrite !take_inner, !take_outer.
    apply op_text; [reflexivity| |]; rewrite index_plain; reflexivity.
  Qed.

  Lemma hz_labels_form a s u :
    hz_labels h_ a s u =
    if Nat.eqb (hz_rank h_) 0 then None
    else Some (if Nat.ltb 0 (h_up c)
               then Some (take_at z_summation_indices a (c_hl c), take_at z_summation_indices (s + c_rh c) (c_hr c),
                          take_at z_unlinked_indices (u + c_ph c) (c_hp c)) else None,
               if Nat.ltb 0 (h_down c)
               then Some (take_at z_summation_indices 0 (c_lh c), take_at z_summation_indices s (c_rh c),
                          take_at z_unlinked_indices u (c_ph c)) else None).
  Proof.
    unfold hz_labels, h_. cbn [hz_rank hz_m hz_n hz_m_lhs hz_n_lhs hz_m_l hz_n_l hz_m_r hz_n_r].
    destruct (Nat.eqb _ 0); [reflexivity|]. destruct (Nat.ltb_spec 0 (h_down c)) as [L|L]; [reflexivity|].
    unfold h_down in L. replace (c_rh c) with 0 by lia. replace (c_ph c) with 0 by lia. rewrite !Nat.add_0_r. reflexivity.
  Qed.

  Lemma h_ok a s u : a = (c_lh c + c_lr c)%nat -> s = (c_lh c + c_lr c + c_hl c + c_rl c)%nat -> u = (c_lp c + c_pl c)%nat ->
    render_hz (hz_labels h_ a s u) = h_text false c (letters_of c).
  Proof.
    intros -> -> ->. rewrite hz_labels_form. unfold render_hz, h_text. rewrite !take_inner, !take_outer.
    cbn [hz_rank h_]. apply op_text; [reflexivity| |]; rewrite index_marked by discriminate; reflexivity.
  Qed.

  Lemma right_ok o :
    o = mkro (c_lh c) (c_lh c + c_lr c + c_hl c) (c_lh c + c_lr c + c_hl c + c_rl c + c_rh c) (c_lh c + c_lr c + c_hl c + c_rl c)
          (c_lp c + c_pl c + c_ph c + c_hp c) ->
    render_right_z (right_z_labels zr_ o) = right_text false c (letters_of c).
  Proof.
    intros ->. unfold right_z_labels, zr_, render_right_z, right_text.
    cbn [z_rank z_m z_n z_m_lhs z_n_lhs z_m_h z_n_h z_m_x z_n_x ro_left_lower ro_left_upper ro_h_lower ro_h_upper ro_unlinked].
    assert (E : forall X Y : option (zlab * zlab), X = Y -> render_op "\bz" "\magenta" "\blue" X = render_op "\bz" "\magenta" "\blue" Y) by (intros; now subst).
    erewrite E.
    2:{ instantiate (1 := if Nat.eqb (r_up c + r_down c) 0 then None else Some (
           if Nat.ltb 0 (r_up c) then Some (take_at z_summation_indices (c_lh c + c_lr c + c_hl c) (c_rl c),
                 take_at z_summation_indices (c_lh c + c_lr c + c_hl c + c_rl c) (c_rh c),
                 take_at z_unlinked_indices (c_lp c + c_pl c + c_ph c + c_hp c + c_pr c) (c_rp c)) else None,
           if Nat.ltb 0 (r_down c) then Some (take_at z_summation_indices (c_lh c) (c_lr c),
                  take_at z_summation_indices (c_lh c + c_lr c + c_hl c + c_rl c + c_rh c) (c_hr c),
                  take_at z_unlinked_indices (c_lp c + c_pl c + c_ph c + c_hp c) (c_pr c)) else None)).
        destruct (Nat.eqb _ 0); [reflexivity|]. destruct (Nat.ltb_spec 0 (r_down c)) as [L|L]; [reflexivity|].
        unfold r_down in L. replace (c_pr c) with 0 by lia. rewrite !Nat.add_0_r. reflexivity. }
    rewrite !take_inner, !take_outer.
    apply op_text; [reflexivity| |]; rewrite index_marked by discriminate; reflexivity.
  Qed.
End Operators.

(** ** Prefactor *)
Lemma comb_over n : comb n (S n) = 0 /\ forall k, n < k -> comb n k = 0.
Proof.
  assert (G : forall k, n < k -> comb n k = 0).
  { induction n as [|n IH]; intros k Hk; destruct k; try lia; [reflexivity|]. cbn [comb]. rewrite !IH by lia. reflexivity. }
  split; [apply G; lia|exact G].
Qed.
Lemma comb_full n : comb n n = 1.
Proof. induction n as [|n IH]; [reflexivity|]. cbn [comb]. rewrite IH. now rewrite (proj1 (comb_over n)). Qed.
Lemma comb_fact a b : (comb (a + b) a * (fact a * fact b))%nat = fact (a + b).
Proof.
  remember (a + b)%nat as n eqn:E. revert a b E. induction n as [|n IH]; intros a b E.
  - assert (a = 0) by lia. assert (b = 0) by lia. now subst.
  - destruct a as [|a].
    + cbn [comb]. cbn [Nat.add] in E. subst b. cbn [fact]. lia.
    + destruct b as [|b].
      * replace (S a) with (S n) by lia. rewrite comb_full. cbn [fact]. lia.
      * cbn [comb]. rewrite Nat.mul_add_distr_r.
        assert (E1 : (comb n a * (fact a * fact (S b)))%nat = fact n) by (apply IH; lia).
        assert (E2 : (comb n (S a) * (fact (S a) * fact b))%nat = fact n) by (apply IH; lia).
        assert (F1 : (comb n a * (fact (S a) * fact (S b)) = S a * fact n)%nat).
        { rewrite <- E1. change (fact (S a)) with (S a * fact a)%nat. ring. }
        assert (F2 : (comb n (S a) * (fact (S a) * fact (S b)) = S b * fact n)%nat).
        { rewrite <- E2. change (fact (S b)) with (S b * fact b)%nat. ring. }
        rewrite F1, F2. change (fact (S n)) with (S n * fact n)%nat. replace (S n) with (S a + S b)%nat by lia. ring.
Qed.

Definition as_number (f : factor) : nat * bool := match f with FNum n => (n, false) | FFact n => (n, true) end.
Lemma as_number_text f : render_factor f = number_text (as_number f).
Proof. destruct f; unfold number_text; cbn; [now rewrite append_nil_r|reflexivity]. Qed.
Lemma as_number_value f : factor_value f = factor_number (as_number f).
Proof. now destruct f. Qed.

Lemma values_app a b : factors_number (map as_number (a ++ b)%list) = (factors_number (map as_number a) * factors_number (map as_number b))%nat.
Proof.
  unfold factors_number. induction a as [|x a IH]; cbn [app map fold_right]; [lia|]. rewrite IH. ring.
Qed.
Lemma num_if_value n : n <> 0 -> factors_number (map as_number (num_if n)) = n.
Proof. intros H. unfold num_if. destruct (Nat.ltb_spec 1 n); unfold factors_number; cbn; lia. Qed.
Lemma fact_if_value n : factors_number (map as_number (fact_if n)) = fact n.
Proof.
  unfold fact_if. destruct (Nat.ltb_spec 1 n) as [H|H]; unfold factors_number; cbn [map fold_right]; [cbn; lia|].
  destruct n as [|[|n]]; [reflexivity|reflexivity|lia].
Qed.
Lemma comb_nz a b : comb (a + b) a <> 0.
Proof. intros E. pose proof (comb_fact a b) as F. rewrite E in F. pose proof (fact_neq_0 (a + b)). lia. Qed.

(** the four blocks *)
Definition h_block (m x : nat) : list factor * list factor :=
  if Nat.ltb 1 m then (num_if (comb m x), [FFact m]) else ([], []).
Definition z_block (m x y : nat) : list factor * list factor :=
  if Nat.ltb 1 m then ((num_if (comb m x) ++ fact_if y)%list, [FFact m]) else ([], []).

Lemma small_fact n : n <= 1 -> fact n = 1.
Proof. destruct n as [|[|n]]; [reflexivity|reflexivity|lia]. Qed.

Lemma h_block_value x y :
  factors_number (map as_number (snd (h_block (x + y) x)))
  = (factors_number (map as_number (fst (h_block (x + y) x))) * (fact x * fact y))%nat.
Proof.
  unfold h_block. destruct (Nat.ltb_spec 1 (x + y)) as [H|H]; cbn [fst snd].
  - rewrite num_if_value by apply comb_nz. unfold factors_number. cbn [map fold_right as_number factor_number fst snd].
    rewrite comb_fact. lia.
  - rewrite !small_fact by lia. reflexivity.
Qed.
Lemma z_block_value x y :
  factors_number (map as_number (snd (z_block (x + y) x y)))
  = (factors_number (map as_number (fst (z_block (x + y) x y))) * fact x)%nat.
Proof.
  unfold z_block. destruct (Nat.ltb_spec 1 (x + y)) as [H|H]; cbn [fst snd].
  - rewrite values_app, num_if_value, fact_if_value by apply comb_nz. unfold factors_number. cbn [map fold_right as_number factor_number fst snd].
    pose proof (comb_fact x y). lia.
  - rewrite !small_fact by lia. reflexivity.
Qed.

Lemma prefactor_blocks h z : hz_prefactor h z =
  let a := h_block (hz_m h) (hz_m_r h) in let b := h_block (hz_n h) (hz_n_r h) in
  let c := z_block (z_m z) (z_m_lhs z) (z_m_h z) in let d := z_block (z_n z) (z_n_lhs z) (z_n_h z) in
  ((fst a ++ fst b ++ fst c ++ fst d)%list, (snd a ++ snd b ++ snd c ++ snd d)%list).
Proof. reflexivity. Qed.

Lemma denominators_fact h z : Forall (fun f => exists n, f = FFact n) (snd (hz_prefactor h z)).
Proof.
  rewrite prefactor_blocks. cbn [snd].
  assert (A : forall m x, Forall (fun f => exists n, f = FFact n) (snd (h_block m x))).
  { intros. unfold h_block. destruct (Nat.ltb 1 m); repeat constructor. eauto. }
  assert (B : forall m x y, Forall (fun f => exists n, f = FFact n) (snd (z_block m x y))).
  { intros. unfold z_block. destruct (Nat.ltb 1 m); repeat constructor. eauto. }
  repeat (apply Forall_app; split); auto.
Qed.
Lemma no_denominator h z : snd (hz_prefactor h z) = [] -> fst (hz_prefactor h z) = [].
Proof.
  rewrite prefactor_blocks. cbn [fst snd].
  assert (A : forall m x, snd (h_block m x) = [] -> fst (h_block m x) = []).
  { intros m x. unfold h_block. destruct (Nat.ltb 1 m); [discriminate|reflexivity]. }
  assert (B : forall m x y, snd (z_block m x y) = [] -> fst (z_block m x y) = []).
  { intros m x y. unfold z_block. destruct (Nat.ltb 1 m); [discriminate|reflexivity]. }
  intros H. apply app_eq_nil in H as [H1 H]. apply app_eq_nil in H as [H2 H]. apply app_eq_nil in H as [H3 H4].
  now rewrite (A _ _ H1), (A _ _ H2), (B _ _ _ H3), (B _ _ _ H4).
Qed.

Lemma prefactor_value h z x1 x2 x3 x4 x5 x6 x7 x8 :
  hz_m h = (x1 + x2)%nat -> hz_m_r h = x1 -> hz_n h = (x3 + x4)%nat -> hz_n_r h = x3 ->
  z_m z = (x5 + x6)%nat -> z_m_lhs z = x5 -> z_m_h z = x6 -> z_n z = (x7 + x8)%nat -> z_n_lhs z = x7 -> z_n_h z = x8 ->
  factors_number (map as_number (snd (hz_prefactor h z)))
  = (factors_number (map as_number (fst (hz_prefactor h z))) * (fact x1 * fact x2 * (fact x3 * fact x4) * fact x5 * fact x7))%nat.
Proof.
  intros H1 H2 H3 H4 H5 H6 H7 H8 H9 H10. rewrite prefactor_blocks. cbn [fst snd]. rewrite H1, H2, H3, H4, H5, H6, H7, H8, H9, H10.
  rewrite !values_app, !h_block_value, !z_block_value. ring.
Qed.

Lemma factors_nz l : Forall (fun f => exists n, f = FFact n) l -> factors_number (map as_number l) <> 0.
Proof.
  induction 1 as [|f l (n & ->) _ IH]; unfold factors_number in *; cbn [map fold_right as_number factor_number fst snd]; [lia|].
  pose proof (fact_neq_0 n). lia.
Qed.

Lemma fact_first_neq n l : concat_str (map render_factor (FFact n :: l)) =? "1" = false.
Proof.
  apply String.eqb_neq. intros H. cbn [map render_factor] in H.
  change (concat_str ((str_nat n ++ "!") :: map render_factor l)) with ((str_nat n ++ "!") ++ concat_str (map render_factor l)) in H.
  pose proof (str_nat_nonempty n) as N. destruct (str_nat n) as [|x [|y s]]; [congruence|discriminate|discriminate].
Qed.

Lemma prefactor_text h z : render_hz_prefactor (hz_prefactor h z)
  = quotient_text (map as_number (fst (hz_prefactor h z))) (map as_number (snd (hz_prefactor h z))).
Proof.
  pose proof (denominators_fact h z) as D. pose proof (no_denominator h z) as N.
  destruct (hz_prefactor h z) as [num den]. cbn [fst snd] in *. unfold render_hz_prefactor, quotient_text. cbn [fst snd].
  destruct den as [|d den]; [rewrite N by reflexivity; reflexivity|].
  inversion D as [|? ? (n & ->) _]; subst. rewrite fact_first_neq, andb_false_r.
  assert (E : forall l, map render_factor l = map number_text (map as_number l)).
  { intros l. rewrite map_map. apply map_ext. apply as_number_text. }
  cbn [map]. destruct num as [|f num].
  - cbn [map]. rewrite concat_empty_sep, E. reflexivity.
  - cbn [map]. rewrite concat_empty_sep, join_concat. change (render_factor f :: map render_factor num) with (map render_factor (f :: num)).
    rewrite !E. reflexivity.
Qed.

Lemma hz_one_over c : fits_kind right_only c -> one_over (pair_factorials c) (render_hz_prefactor (hz_prefactor (h_ c) (zr_ c))).
Proof.
  intros (F & _). destruct (F eq_refl) as [F1 F2]. clear F. unfold l_up, l_down in *.
  exists (map as_number (fst (hz_prefactor (h_ c) (zr_ c)))), (map as_number (snd (hz_prefactor (h_ c) (zr_ c)))).
  split; [apply prefactor_text|]. split.
  - rewrite (prefactor_value (h_ c) (zr_ c) (c_hr c) (c_hp c) (c_rh c) (c_ph c) (c_rp c) (c_rh c) (c_pr c) (c_hr c));
      cbn [h_ zr_ hz_m hz_n hz_m_r hz_n_r z_m z_n z_m_lhs z_n_lhs z_m_h z_n_h]; unfold h_up, h_down, r_up, r_down; try lia.
    unfold pair_factorials. f_equal. ring.
  - apply factors_nz, denominators_fact.
Qed.

(** ** Terms *)
Definition print_term (k : kind) (rf : bool) : zterm -> res (option zlterm) :=
  match k with
  | left_only => second_z_term rf
  | right_only => third_z_term rf true
  | both_sides => fourth_z_term rf
  end.

Lemma f_zL_h_ok c : f_zL_h (zl_ c) (h_ c) = Ok (c_lh c).
Proof.
  unfold f_zL_h, z_disconnected. cbn [zl_ h_ z_m_h z_n_h hz_n_l].
  destruct (Nat.eqb_spec (c_lh c) 0) as [E|E]; cbn [andb]; [rewrite E; destruct (Nat.eqb (c_hl c) 0); reflexivity|].
  rewrite Nat.eqb_refl. reflexivity.
Qed.
Lemma fbar_zL_h_ok c : fbar_zL_h (zl_ c) (h_ c) = Ok (c_hl c).
Proof.
  unfold fbar_zL_h, z_disconnected. cbn [zl_ h_ z_m_h z_n_h hz_m_l].
  destruct (Nat.eqb_spec (c_hl c) 0) as [E|E]; [rewrite E; rewrite andb_true_r; destruct (Nat.eqb (c_lh c) 0); reflexivity|].
  rewrite andb_false_r, Nat.eqb_refl. reflexivity.
Qed.
Lemma f_h_zR_ok c : f_h_zR (h_ c) (zr_ c) = Ok (c_hr c).
Proof.
  unfold f_h_zR, z_disconnected. cbn [zr_ h_ z_m_h z_n_h hz_m_r].
  destruct (Nat.eqb_spec (c_hr c) 0) as [E|E]; [rewrite E; rewrite andb_true_r; destruct (Nat.eqb (c_rh c) 0); reflexivity|].
  rewrite andb_false_r, Nat.eqb_refl. reflexivity.
Qed.
Lemma fbar_h_zR_ok c : fbar_h_zR (h_ c) (zr_ c) = Ok (c_rh c).
Proof.
  unfold fbar_h_zR, z_disconnected. cbn [zr_ h_ z_m_h z_n_h hz_n_r].
  destruct (Nat.eqb_spec (c_rh c) 0) as [E|E]; cbn [andb]; [rewrite E; destruct (Nat.eqb (c_hr c) 0); reflexivity|].
  rewrite Nat.eqb_refl. reflexivity.
Qed.
Lemma f_zL_zR_ok c : f_zL_zR (zl_ c) (zr_ c) = Ok (c_lr c) /\ fbar_zL_zR (zl_ c) (zr_ c) = Ok (c_rl c).
Proof. unfold f_zL_zR, fbar_zL_zR. cbn [zl_ zr_ z_m_x z_n_x]. rewrite !Nat.eqb_refl. auto. Qed.

Lemma no_prefactor_text : render_hz_prefactor no_prefactor = "".
Proof. reflexivity. Qed.

Theorem print_term_ok k rf c : fits_kind k c -> inner c <= 5 -> outer c <= 7 ->
  exists o, print_term k rf (recorded k c) = Ok o /\
    match o with
    | None => rf = true /\ 0 < f_pairs c
    | Some t => ~ (rf = true /\ 0 < f_pairs c) /\ z_term_text false k c (render_zlterm t)
    end.
Proof.
  intros F HI HO. pose proof (letters_lettered c HI HO) as L.
  assert (FP : forall x, x = f_pairs c -> forall A (a b : A), (if rf && Nat.ltb 0 x then a else b) = a /\ (rf = true /\ 0 < f_pairs c) \/
                 (if rf && Nat.ltb 0 x then a else b) = b /\ ~ (rf = true /\ 0 < f_pairs c)).
  { intros x -> A a b. destruct rf; cbn [andb]; [|right; split; [reflexivity|intros [E _]; discriminate]].
    destruct (Nat.ltb_spec 0 (f_pairs c)); [left; auto|right; split; [reflexivity|lia]]. }
  destruct k; unfold recorded; cbn [print_term has_left has_right].
  - fold (zl_ c) (h_ c). unfold second_z_term. rewrite f_zL_h_ok, fbar_zL_h_ok. cbn [bind].
    destruct F as (_ & F). destruct (F eq_refl) as [F1 F2]. unfold r_up, r_down in *.
    destruct (FP (c_lh c) ltac:(unfold f_pairs; lia) _ (Ok None) (Ok (Some
      (mkzl (c_lh c) (c_hl c) no_prefactor (Some (left_z_labels (zl_ c)))
         (hz_labels (h_ c) (z_m (zl_ c) - z_m_lhs (zl_ c)) (z_rank (zl_ c) - z_m_lhs (zl_ c) - z_n_lhs (zl_ c)) (z_m_lhs (zl_ c) + z_n_lhs (zl_ c))) None false)) : res (option zlterm))) as [[-> E]|[-> E]].
    + eexists. split; [reflexivity|]. exact E.
    + eexists. split; [reflexivity|]. split; [exact E|]. exists (letters_of c), "". split; [exact L|]. split; [reflexivity|].
      unfold render_zlterm. cbn [zl_f zl_fbar zl_prefactor zl_left zl_h zl_right zl_disconnected z_loose has_left has_right].
      rewrite no_prefactor_text, left_ok, h_ok, !render_power_text.
      * replace (f_pairs c) with (c_lh c) by (unfold f_pairs; lia). replace (fbar_pairs c) with (c_hl c) by (unfold fbar_pairs; lia). reflexivity.
      * cbn [zl_ z_m z_m_lhs]. unfold l_up. lia.
      * cbn [zl_ z_rank z_m_lhs z_n_lhs]. unfold l_up, l_down. lia.
      * reflexivity.
  - fold (zr_ c) (h_ c). unfold third_z_term. rewrite f_h_zR_ok, fbar_h_zR_ok. cbn [bind].
    pose proof F as F0. destruct F as (F & _). destruct (F eq_refl) as [F1 F2]. unfold l_up, l_down in *.
    destruct (FP (c_hr c) ltac:(unfold f_pairs; lia) _ (Ok None) (Ok (Some
      (mkzl (c_hr c) (c_rh c) (hz_prefactor (h_ c) (zr_ c)) None (hz_labels (h_ c) 0 0 0)
         (Some (right_z_labels (zr_ c) (mkro 0 0 (hz_n_r (h_ c)) 0 (hz_m_lhs (h_ c) + hz_n_lhs (h_ c))))) false)) : res (option zlterm))) as [[-> E]|[-> E]].
    + eexists. split; [reflexivity|]. exact E.
    + eexists. split; [reflexivity|]. split; [exact E|].
      exists (letters_of c), (render_hz_prefactor (hz_prefactor (h_ c) (zr_ c))). split; [exact L|]. split; [now apply hz_one_over|].
      unfold render_zlterm. cbn [zl_f zl_fbar zl_prefactor zl_left zl_h zl_right zl_disconnected z_loose has_left has_right].
      rewrite h_ok, right_ok, !render_power_text.
      * replace (f_pairs c) with (c_hr c) by (unfold f_pairs; lia). replace (fbar_pairs c) with (c_rh c) by (unfold fbar_pairs; lia). reflexivity.
      * cbn [h_ hz_n_r hz_m_lhs hz_n_lhs]. f_equal; lia.
      * lia.
      * lia.
      * lia.
  - fold (zl_ c) (zr_ c) (h_ c). unfold fourth_z_term. destruct (f_zL_zR_ok c) as [Z1 Z2].
    rewrite f_zL_h_ok, fbar_zL_h_ok, f_h_zR_ok, fbar_h_zR_ok, Z1, Z2. cbn [bind].
    match goal with |- context [if rf && Nat.ltb 0 ?x then ?a else ?b] =>
      destruct (FP x ltac:(unfold f_pairs; lia) _ a b) as [[-> E]|[-> E]] end.
    + eexists. split; [reflexivity|]. exact E.
    + eexists. split; [reflexivity|]. split; [exact E|]. exists (letters_of c), "". split; [exact L|]. split; [reflexivity|].
      unfold render_zlterm. cbn [zl_f zl_fbar zl_prefactor zl_left zl_h zl_right zl_disconnected z_loose has_left has_right].
      rewrite no_prefactor_text, left_ok, h_ok, right_ok, !render_power_text.
      * replace (f_pairs c) with (c_lh c + c_hr c + c_lr c)%nat by (unfold f_pairs; lia).
        replace (fbar_pairs c) with (c_hl c + c_rh c + c_rl c)%nat by (unfold fbar_pairs; lia).
        replace (z_disconnected (zl_ c) || z_disconnected (zr_ c)) with (Nat.eqb (c_lh c + c_hl c) 0 || Nat.eqb (c_rh c + c_hr c) 0);
          [reflexivity|]. unfold z_disconnected. cbn [zl_ zr_ z_m_h z_n_h]. destruct (c_lh c), (c_hl c), (c_rh c), (c_hr c); reflexivity.
      * cbn [zl_ h_ z_m z_m_lhs z_rank z_n_lhs z_m_h z_n_h hz_n_r hz_m_lhs hz_n_lhs]. unfold l_up, l_down. f_equal; lia.
      * cbn [zl_ z_m z_m_lhs]. unfold l_up. lia.
      * cbn [zl_ z_rank z_m_lhs z_n_lhs]. unfold l_up, l_down. lia.
      * reflexivity.
Qed.
