(** Proofs about the LaTeX of the e^T ansatz: sums and single terms. *)
From Coq Require Import Lia Permutation Factorial.
From Verif Require Import PyBase PyStr PyBaseFacts ModelHelper ModelW ModelLatexW ModelFullCC ModelFullCCPy ModelFullCCLatex ModelZhz ModelEt ModelEtLatex
  ProofsHelper ProofsW ProofsStr ProofsFullCC ProofsFullCCLabels ProofsFullCCBuckets ProofsFullCCLatexText ProofsFullCCLatex ProofsFullCCLatexFile
  SpecFullCC SpecFullCCPy SpecLatexW SpecFullCCLatex SpecZhz ProofsZhz ProofsZhzLatex ProofsZhzFile ProofsZhzEquation
  SpecEt ProofsEt SpecEtLatex.
Open Scope string_scope.

(** ** First occurrences *)
Fixpoint firsts (seen l : list string) : list string :=
  match l with
  | [] => []
  | x :: r => if in_dec string_dec x seen then firsts seen r else x :: firsts (x :: seen) r
  end.

Lemma firsts_snoc l : forall seen x,
  firsts seen (l ++ [x])%list = (firsts seen l ++ if in_dec string_dec x (l ++ seen)%list then [] else [x])%list.
Proof.
  induction l as [|y l IH]; intros seen x; cbn [app firsts].
  - destruct (in_dec string_dec x seen); reflexivity.
  - destruct (in_dec string_dec y seen) as [D|D]; rewrite IH.
    + destruct (in_dec string_dec x (l ++ seen)%list) as [A|A]; destruct (in_dec string_dec x (y :: l ++ seen)%list) as [B|B]; try reflexivity; exfalso.
      * apply B. now right.
      * destruct B as [->|B]; [|tauto]. apply A. apply in_or_app. now right.
    + cbn [app]. destruct (in_dec string_dec x (l ++ y :: seen)%list) as [A|A]; destruct (in_dec string_dec x (y :: l ++ seen)%list) as [B|B]; try reflexivity; exfalso.
      * apply B. apply in_app_iff in A as [A|[->|A]]; [right; apply in_or_app; now left|now left|right; apply in_or_app; now right].
      * apply A. apply in_or_app. destruct B as [->|B]; [right; now left|]. apply in_app_iff in B as [B|B]; [now left|right; now right].
Qed.

Lemma firsts_nodup l : firsts [] l = first_occurrences l.
Proof.
  unfold first_occurrences. induction l as [|x l IH] using rev_ind; [reflexivity|].
  rewrite firsts_snoc, IH, rev_app_distr, app_nil_r. cbn [app rev nodup].
  destruct (in_dec string_dec x l) as [A|A]; destruct (in_dec string_dec x (rev l)) as [B|B];
    try (rewrite <- in_rev in B; tauto); try (now rewrite app_nil_r); try reflexivity.
Qed.

Lemma keep_first_map {A} (f : A -> string) l : forall seen,
  map f (keep_first (fun a b => f a =? f b) seen l) = firsts (map f seen) (map f l).
Proof.
  induction l as [|x l IH]; intros seen; [reflexivity|]. cbn [map firsts keep_first].
  destruct (in_dec string_dec (f x) (map f seen)) as [D|D].
  - apply in_map_iff in D as (y & E & Hy).
    replace (existsb (fun b => f x =? f b) seen) with true; [apply IH|].
    symmetry. apply existsb_exists. exists y. split; [exact Hy|]. now apply String.eqb_eq.
  - replace (existsb (fun b => f x =? f b) seen) with false; [cbn [map]; now rewrite IH|].
    symmetry. destruct (existsb _ seen) eqn:E; [|reflexivity]. apply existsb_exists in E as (y & Hy & E).
    apply String.eqb_eq in E. exfalso. apply D. rewrite E. now apply in_map.
Qed.

(** ** Lines *)
Lemma slices {A} w (l : list A) n : n * w <= List.length l ->
  List.concat (map (fun i => PyBase.slice (i * w) ((i + 1) * w) l) (range 0 n)) = firstn (n * w) l /\
  Forall (fun x => List.length x = w) (map (fun i => PyBase.slice (i * w) ((i + 1) * w) l) (range 0 n)).
Proof.
  induction n as [|n IH]; intros H; [split; constructor|]. cbn [Nat.mul] in H. destruct IH as [I1 I2]; [lia|].
  rewrite range_S, map_app, concat_app. cbn [map List.concat]. rewrite app_nil_r. split.
  - rewrite I1. unfold PyBase.slice. replace ((n + 1) * w - n * w) with w by lia. rewrite firstn_skipn_comm.
    replace (n * w + w) with (S n * w) by lia.
    rewrite <- (firstn_skipn (n * w) (firstn (S n * w) l)) at 2. f_equal. rewrite firstn_firstn. f_equal. cbn [Nat.mul]. lia.
  - apply Forall_app. split; [exact I2|]. constructor; [|constructor]. unfold PyBase.slice.
    rewrite firstn_length, skipn_length. lia.
Qed.

Lemma eT_lines_form {A} w (l : list A) : 1 <= w -> exists full rest,
  l = (List.concat full ++ rest)%list /\ Forall (fun x => List.length x = w) full /\ List.length rest < w /\
  eT_lines w l = (full ++ match rest with [] => [] | _ => [rest] end)%list.
Proof.
  intros Hw. pose proof (Nat.div_mod (List.length l) w ltac:(lia)) as D.
  pose proof (Nat.mod_upper_bound (List.length l) w ltac:(lia)) as U.
  destruct (slices w l (List.length l / w)) as [C1 C2]; [rewrite Nat.mul_comm; lia|].
  unfold eT_lines. eexists _, (skipn (List.length l - List.length l mod w) l). split; [|split; [exact C2|]].
  - rewrite C1. replace (List.length l - List.length l mod w) with (List.length l / w * w) by (rewrite Nat.mul_comm; lia).
    symmetry. apply firstn_skipn.
  - pose proof (skipn_length (List.length l - List.length l mod w) l) as L. split; [rewrite L; lia|]. f_equal.
    cbv zeta. destruct (Nat.eqb_spec (List.length l mod w) 0) as [E|E].
    + destruct (skipn _ l) as [|x r]; [reflexivity|]. cbn [List.length] in L. lia.
    + destruct (skipn _ l) as [|x r]; [|reflexivity]. cbn [List.length] in L. lia.
Qed.

Lemma map_eT_lines {A B} (f : A -> B) w l : map (map f) (eT_lines w l) = eT_lines w (map f l).
Proof.
  unfold eT_lines. rewrite map_app, map_map, map_length. f_equal.
  - apply map_ext. intros i. apply map_slice.
  - cbv zeta. destruct (Nat.eqb _ 0); [reflexivity|]. cbn [map]. now rewrite skipn_map.
Qed.

(** The text of the terms [r]. *)
Definition esum_of (w : nat) (r : list elterm) : esum :=
  if Nat.leb (List.length r) (w + 2) then EPlain r else ESplit (eT_lines w r).

Lemma esum_text s w r : 1 <= w -> eT_sum_text w (map (render_elterm s) r) (render_esum_latex s (esum_of w r)).
Proof.
  intros Hw. unfold esum_of, eT_sum_text. rewrite map_length. destruct (Nat.leb_spec (List.length r) (w + 2)) as [H|H].
  - left. split; [exact H|]. cbn [render_esum_latex]. now rewrite join_concat.
  - right. split; [exact H|]. destruct (eT_lines_form w (map (render_elterm s) r) Hw) as (full & rest & E & F & L & G).
    exists full, rest. repeat split; auto. cbn [render_esum_latex]. rewrite (join_concat splitting), splitting_break, <- G, <- map_eT_lines, map_map.
    reflexivity.
Qed.

(** The printed sum: the different texts of the terms, each at its first
    place. *)
Lemma sum_printed s w rf pp sd ts : 1 <= w ->
  (forall os, mapM (third_eTz_term rf pp) ts = Ok os ->
     exists x, prepare_third_eTz_latex s w rf pp sd ts = Ok x /\
       let ss := map (render_elterm s) (flat_map option_list os) in
       eT_sum_text w (if sd then first_occurrences ss else ss) (render_esum_latex s x)) /\
  (forall e, mapM (third_eTz_term rf pp) ts = Err e -> prepare_third_eTz_latex s w rf pp sd ts = Err e).
Proof.
  intros Hw. unfold prepare_third_eTz_latex. rewrite concatM_mapM. split.
  - intros os E. rewrite E. cbn [bind]. eexists. split; [reflexivity|]. cbv zeta.
    set (r := if sd then keep_first (fun a b => render_elterm s a =? render_elterm s b) [] (flat_map option_list os) else flat_map option_list os).
    change (if Nat.leb (List.length r) (w + 2) then EPlain r else ESplit (eT_lines w r)) with (esum_of w r).
    assert (Er : map (render_elterm s) r = if sd then first_occurrences (map (render_elterm s) (flat_map option_list os)) else map (render_elterm s) (flat_map option_list os)).
    { subst r. destruct sd; [|reflexivity]. rewrite keep_first_map. apply firsts_nodup. }
    rewrite <- Er. now apply esum_text.
  - intros e E. now rewrite E.
Qed.

(** ** The amplitudes of a contraction *)
Definition t_for (b : bool) : ett := if b then t_with_z else t_with_h.
Definition bits (k : pairs) : list bool := (repeat true (k_zt k) ++ repeat false (k_ht k))%list.

Lemma map_seq_const {A} (f : nat -> A) v i n : (forall j, i <= j < i + n -> f j = v) -> map f (seq i n) = repeat v n.
Proof.
  revert i. induction n as [|n IH]; intros i H; [reflexivity|]. cbn [seq map repeat]. rewrite H by lia. f_equal. apply IH. intros. apply H. lia.
Qed.
Lemma bits_with_z k : bits k = map (with_z k) (seq 0 (k_t k)).
Proof.
  unfold bits, k_t, with_z. rewrite seq_app, map_app. f_equal; symmetry; apply map_seq_const; intros j Hj.
  - apply Nat.ltb_lt. lia.
  - apply Nat.ltb_ge. lia.
Qed.
Lemma bits_length k : List.length (bits k) = k_t k.
Proof. rewrite bits_with_z, map_length. apply seq_length. Qed.

Lemma written_ts P q m n k c : complete P q m n k c ->
  q = k_t (pairs_of c) /\ m = k_up (pairs_of c) /\ n = k_down (pairs_of c) /\ k = k_z (pairs_of c) /\
  P = (k_zp (pairs_of c) + k_hp (pairs_of c))%nat /\
  tt_ts (written P q m n k c) = match q with 0 => [t_bare] | _ => map t_for (bits (pairs_of c)) end.
Proof.
  intros (H1 & H2 & H3 & H4 & H5 & H6 & H7). destruct (sum_bits _ _ _ H3 H4 H5) as [_ Q].
  unfold k_t, k_up, k_down, k_z, pairs_of. cbn [k_zp k_zh k_zt k_hp k_ht].
  do 5 (split; [lia|]). unfold written. cbn [tt_ts]. destruct q; [reflexivity|].
  unfold bits. cbn [k_zt k_ht]. rewrite map_app, !map_repeat. reflexivity.
Qed.

(** ** Loops over the amplitudes *)
Lemma mapM_enumerate {A B C} (F : A -> C -> res B) (ts : list A) : forall (pre L : list C), List.length L = List.length ts ->
  mapM (fun it => do x <- py_nth (pre ++ L)%list (fst it); F (snd it) x) (combine (seq (List.length pre) (List.length ts)) ts)
  = mapM (fun tx => F (fst tx) (snd tx)) (combine ts L).
Proof.
  induction ts as [|t ts IH]; intros pre L H; [reflexivity|]. destruct L as [|x L]; [discriminate|].
  cbn [List.length seq combine mapM fst snd]. 
  unfold py_nth at 1. rewrite nth_error_app2 by lia. rewrite Nat.sub_diag. cbn [nth_error bind].
  destruct (F t x); [|reflexivity]. cbn [bind]. specialize (IH (pre ++ [x])%list L). 
  rewrite app_length in IH. cbn [List.length] in IH. rewrite Nat.add_1_r in IH. rewrite <- IH by (cbn in H; lia).
  rewrite <- app_assoc. reflexivity.
Qed.
Lemma mapM_enumerate0 {A B C} (F : A -> C -> res B) (ts : list A) (L : list C) : List.length L = List.length ts ->
  mapM (fun it => do x <- py_nth L (fst it); F (snd it) x) (enumerate ts) = mapM (fun tx => F (fst tx) (snd tx)) (combine ts L).
Proof. intros H. unfold enumerate, range. rewrite Nat.sub_0_r. exact (mapM_enumerate F ts [] L H). Qed.

Lemma combine_bits {B} (f : bool -> B) (L : list bool) : combine (map t_for L) (map f L) = map (fun b => (t_for b, f b)) L.
Proof. induction L as [|b L IH]; [reflexivity|]. cbn [map combine]. now rewrite IH. Qed.
Lemma mapM_bits {A B} (g : bool -> A) (F : A -> res B) (v : bool -> B) L : (forall b, F (g b) = Ok (v b)) -> mapM F (map g L) = Ok (map v L).
Proof. intros H. induction L as [|b L IH]; [reflexivity|]. cbn [map mapM]. rewrite H. cbn [bind]. now rewrite IH. Qed.
Lemma sum_const {A} (l : list A) : list_sum (map (fun _ => 0) l) = 0.
Proof. induction l; [reflexivity|]. exact IHl. Qed.

Definition h_bit (b : bool) : nat := if b then 0 else 1.
Definition z_bit (b : bool) : nat := if b then 1 else 0.
Lemma sum_bits_h k : list_sum (map h_bit (bits k)) = k_ht k /\ list_sum (map z_bit (bits k)) = k_zt k.
Proof.
  unfold bits. rewrite !map_app, !list_sum_app, !map_repeat. cbn [h_bit z_bit]. rewrite !sum_repeat0, !sum_repeat1. lia.
Qed.

Section Powers.
  Variables (P q m n k : nat) (c : contraction).
  Hypothesis C : complete P q m n k c.
  Local Notation w := (written P q m n k c).

  Lemma zero_lists : eh_n_t (tt_h w) = match q with 0 => [0] | _ => map (fun _ => 0) (bits (pairs_of c)) end /\
    ez_n_t (tt_z w) = match q with 0 => [0] | _ => map (fun _ => 0) (bits (pairs_of c)) end /\
    eh_m_t (tt_h w) = match q with 0 => [0] | _ => map h_bit (bits (pairs_of c)) end.
  Proof.
    destruct (written_ts _ _ _ _ _ _ C) as (Eq & _). pose proof (bits_length (pairs_of c)) as L. rewrite <- Eq in L.
    unfold written. cbn [tt_h tt_z eh_n_t ez_n_t eh_m_t]. destruct q as [|r]; [auto|].
    assert (Z : repeat 0 (S r) = map (fun _ : bool => 0) (bits (pairs_of c))).
    { rewrite <- L. clear. induction (bits (pairs_of c)) as [|b l IH]; [reflexivity|]. cbn [List.length repeat map]. now rewrite IH. }
    split; [exact Z|]. split; [exact Z|]. unfold bits. cbn [pairs_of k_zt k_ht]. rewrite map_app, !map_repeat. reflexivity.
  Qed.

  Lemma powers :
    f_h_zR_eT (tt_h w) (tt_z w) = Ok 0 /\ fbar_h_zR_eT (tt_h w) (tt_z w) = Ok (e_zh c) /\
    (exists l, f_t_h (tt_ts w) (tt_h w) = Ok l /\ list_sum l = 0) /\
    (exists l, f_t_zR (tt_ts w) (tt_z w) = Ok l /\ list_sum l = 0) /\
    (exists l, fbar_t_h (tt_ts w) (tt_h w) = Ok l /\ list_sum l = k_ht (pairs_of c)) /\
    list_sum (fbar_t_zR (tt_ts w)) = k_zt (pairs_of c).
  Proof.
    destruct (written_ts _ _ _ _ _ _ C) as (Eq & _ & _ & _ & _ & Et). destruct zero_lists as (Z1 & Z2 & Z3).
    destruct (sum_bits_h (pairs_of c)) as [S1 S2]. pose proof (bits_length (pairs_of c)) as L. rewrite <- Eq in L.
    split; [reflexivity|]. split; [unfold fbar_h_zR_eT, check, written; cbn [tt_h tt_z eh_n_r ez_m_h]; now rewrite Nat.eqb_refl|].
    unfold f_t_h, f_t_zR, fbar_t_h, fbar_t_zR. rewrite Et, Z1, Z2, Z3. destruct q as [|r].
    - unfold k_t in Eq. cbn. split; [eexists; split; reflexivity|]. split; [eexists; split; reflexivity|].
      split; [eexists; split; [reflexivity|]; cbn; unfold pairs_of in *; cbn [k_zt k_ht] in *; lia|].
      unfold pairs_of in *; cbn [k_zt k_ht] in *; lia.
    - rewrite (mapM_enumerate0 (fun (t : ett) (x : nat) => if t_disconnected t then check (Nat.eqb 0 (et_m_h t) && Nat.eqb (et_m_h t) x) 0
                  else check (Nat.eqb (et_m_h t) x) (et_m_h t))) by now rewrite !map_length.
      rewrite (mapM_enumerate0 (fun (t : ett) (x : nat) => check (Nat.eqb (et_m_r t) x) (et_m_r t))) by now rewrite !map_length.
      rewrite (mapM_enumerate0 (fun (t : ett) (x : nat) => if t_disconnected t then check (Nat.eqb 0 (et_n_h t) && Nat.eqb (et_n_h t) x) 0
                  else check (Nat.eqb (et_n_h t) x && Nat.leb 1 x) (et_n_h t))) by now rewrite !map_length.
      rewrite !combine_bits.
      split; [exists (map (fun _ => 0) (bits (pairs_of c))); split; [apply mapM_bits; now intros []|apply sum_const]|].
      split; [exists (map (fun _ => 0) (bits (pairs_of c))); split; [apply mapM_bits; now intros []|apply sum_const]|].
      split; [exists (map h_bit (bits (pairs_of c))); split; [apply mapM_bits; now intros []|exact S1]|].
      rewrite map_map. rewrite <- S2. f_equal. apply map_ext. now intros [].
  Qed.
End Powers.

(** ** Prefactor *)
Definition h_num (k : pairs) : list factor :=
  if Nat.ltb 1 (k_up k) then (num_if (comb (k_up k) (k_hp k)) ++ fact_if (k_ht k))%list else [].
Definition z_num (k : pairs) : list factor :=
  if Nat.ltb 1 (k_z k) then (num_if (comb (k_z k) (k_zp k)) ++ num_if (comb (k_zh k + k_zt k) (k_zh k)) ++ fact_if (k_zh k) ++ fact_if (k_zt k))%list else [].
Definition numerator (k : pairs) : list factor := (h_num k ++ z_num k)%list.
Definition denominator (k : pairs) : list factor :=
  (fact_if (k_up k) ++ fact_if (k_down k) ++ fact_if (k_z k) ++ fact_if (k_t k))%list.

Lemma t_factors_bits L : flat_map (fun t => fact_if (et_m t) ++ fact_if (et_n t))%list (map t_for L) = [].
Proof. induction L as [|b L IH]; [reflexivity|]. cbn [map flat_map]. rewrite IH. now destruct b. Qed.

Lemma prefactor_of P q m n k c : complete P q m n k c ->
  let w := written P q m n k c in
  eThz_prefactor (tt_ts w) (tt_h w) (tt_z w) = Ok (map EParen (numerator (pairs_of c)), map EParen (denominator (pairs_of c))).
Proof.
  intros C w. destruct (written_ts _ _ _ _ _ _ C) as (Eq & Em & En & Ek & EP & Et).
  destruct (zero_lists _ _ _ _ _ _ C) as (Z1 & Z2 & Z3). destruct (sum_bits_h (pairs_of c)) as [S1 S2].
  unfold eThz_prefactor. subst w.
  assert (Tf : eT_t_factors (tt_ts (written P q m n k c)) = fact_if (k_t (pairs_of c))).
  { rewrite Et. unfold eT_t_factors. destruct q as [|r]; [now rewrite <- Eq|]. now rewrite map_length, bits_length, t_factors_bits, app_nil_r. }
  assert (Sz : list_sum (ez_m_t (tt_z (written P q m n k c))) = k_zt (pairs_of c)).
  { unfold written. cbn [tt_z ez_m_t]. destruct C as (_ & _ & Lz & _). destruct q; [|reflexivity]. 
    unfold pairs_of. cbn [k_zt]. destruct (e_zt c); [reflexivity|discriminate]. }
  assert (Sh : list_sum (eh_m_t (tt_h (written P q m n k c))) = k_ht (pairs_of c)).
  { rewrite Z3. destruct q as [|r]; [|exact S1]. unfold k_t in Eq. change (list_sum [0]) with 0. lia. }
  assert (Sn : list_sum (eh_n_t (tt_h (written P q m n k c))) = 0).
  { rewrite Z1. destruct q; [reflexivity|apply sum_const]. }
  rewrite Tf. clear Tf. unfold eT_h_factors, eT_z_upper_factors, eT_z_lower_factors. rewrite Sz, Sh, Sn. clear Sz Sh Sn Z1 Z2 Z3.
  unfold written. cbn [tt_h tt_z eh_m eh_n eh_m_lhs eh_n_lhs eh_m_r eh_n_r ez_m ez_n ez_m_lhs ez_m_h].
  change (e_zp c) with (k_zp (pairs_of c)). change (e_hp c) with (k_hp (pairs_of c)). change (e_zh c) with (k_zh (pairs_of c)).
  rewrite Em, En, Ek. clear. revert c. assert (G : forall x : pairs,
    (do c0 <- (if Nat.ltb 1 (k_z x) then
        if Nat.eqb (comb (k_z x - k_zp x - k_zh x) (k_zt x)) 1
        then Ok ((num_if (comb (k_z x) (k_zp x)) ++ num_if (comb (k_z x - k_zp x) (k_zh x)) ++ fact_if (k_zh x) ++ fact_if (k_zt x))%list, [FFact (k_z x)])
        else Err AssertionErr
      else Ok ([], []));
     Ok ((map EParen (fst (if Nat.ltb 1 (k_up x) then ((num_if (comb (k_up x) (k_hp x)) ++ num_if (comb (k_up x - k_hp x) 0) ++ fact_if (k_ht x))%list, [FFact (k_up x)]) else ([], []))
           ++ fst (if Nat.ltb 1 (k_down x) then ((num_if (comb (k_down x) 0) ++ num_if (comb (k_down x - 0) (k_zh x)) ++ fact_if 0)%list, [FFact (k_down x)]) else ([], [])) ++ fst c0) ++ fst ([] : list efactor, [] : list efactor))%list,
         (map EParen (snd (if Nat.ltb 1 (k_up x) then ((num_if (comb (k_up x) (k_hp x)) ++ num_if (comb (k_up x - k_hp x) 0) ++ fact_if (k_ht x))%list, [FFact (k_up x)]) else ([], []))
           ++ snd (if Nat.ltb 1 (k_down x) then ((num_if (comb (k_down x) 0) ++ num_if (comb (k_down x - 0) (k_zh x)) ++ fact_if 0)%list, [FFact (k_down x)]) else ([], [])) ++ snd c0) ++ snd ([] : list efactor, [] : list efactor) ++ map EParen (fact_if (k_t x)))%list))
    = Ok (map EParen (numerator x), map EParen (denominator x))).
  { intros x. unfold numerator, denominator, h_num, z_num.
    replace (k_z x - k_zp x - k_zh x) with (k_zt x) by (unfold k_z; lia). rewrite comb_full. cbn [Nat.eqb].
    replace (k_z x - k_zp x) with (k_zh x + k_zt x) by (unfold k_z; lia). rewrite Nat.sub_0_r.
    unfold k_down. rewrite comb_full. replace (comb (k_up x - k_hp x) 0) with 1 by now destruct (k_up x - k_hp x).
    replace (comb (k_zh x) 0) with 1 by now destruct (k_zh x). change (num_if 1) with (@nil factor). change (fact_if 0) with (@nil factor). cbn [app].
    unfold fact_if.
    destruct (Nat.ltb 1 (k_z x)); cbn [bind fst snd]; destruct (Nat.ltb 1 (k_up x)); destruct (Nat.ltb 1 (k_zh x)); cbn [fst snd app];
      rewrite ?app_nil_r, <- ?map_app, <- ?app_assoc; cbn [app]; rewrite ?app_nil_r; reflexivity. }
  intros c. exact (G (pairs_of c)).
Qed.

Lemma denominator_fact k : Forall (fun f => exists n, f = FFact n) (denominator k).
Proof.
  assert (A : forall n, Forall (fun f => exists n, f = FFact n) (fact_if n)).
  { intros n. unfold fact_if. destruct (Nat.ltb 1 n); repeat constructor. eauto. }
  unfold denominator. repeat (apply Forall_app; split); auto.
Qed.

Lemma prefactor_value k :
  factors_number (map as_number (denominator k))
  = (factors_number (map as_number (numerator k)) * latex_divisor k)%nat.
Proof.
  unfold denominator, numerator, latex_divisor. rewrite !values_app, !fact_if_value.
  assert (A : fact (k_up k) = (factors_number (map as_number (h_num k)) * fact (k_hp k))%nat).
  { unfold h_num. destruct (Nat.ltb_spec 1 (k_up k)) as [H|H].
    - unfold k_up. rewrite values_app, fact_if_value, num_if_value by apply comb_nz. pose proof (comb_fact (k_hp k) (k_ht k)). lia.
    - unfold k_up in *. rewrite !small_fact by lia. reflexivity. }
  assert (B : fact (k_z k) = (factors_number (map as_number (z_num k)) * fact (k_zp k))%nat).
  { unfold z_num. destruct (Nat.ltb_spec 1 (k_z k)) as [H|H].
    - replace (k_z k) with (k_zp k + (k_zh k + k_zt k))%nat by (unfold k_z; lia).
      rewrite !values_app, !fact_if_value, !num_if_value by apply comb_nz.
      pose proof (comb_fact (k_zp k) (k_zh k + k_zt k)) as E1. pose proof (comb_fact (k_zh k) (k_zt k)) as E2.
      rewrite <- E1, <- E2. ring.
    - unfold k_z in *. rewrite !small_fact by lia. reflexivity. }
  rewrite A, B. unfold k_down. ring.
Qed.

Lemma no_numerator k : denominator k = [] -> numerator k = [].
Proof.
  unfold denominator, numerator, h_num, z_num, fact_if.
  destruct (Nat.ltb 1 (k_up k)); [discriminate|]. destruct (Nat.ltb 1 (k_down k)); [discriminate|].
  destruct (Nat.ltb 1 (k_z k)); [discriminate|]. reflexivity.
Qed.

Lemma render_factors l : concat_str (map render_eT_factor (map EParen l)) = String.concat "" (map eT_number_text (map as_number l)).
Proof.
  rewrite concat_empty_sep, !map_map. f_equal. apply map_ext. now intros [n|n].
Qed.
Lemma fact_first n l : concat_str (map render_eT_factor (map EParen (FFact n :: l))) =? "1" = false.
Proof.
  apply String.eqb_neq. intros H. cbn [map] in H.
  change (concat_str (?x :: ?l)) with (x ++ concat_str l) in H. cbn [render_eT_factor] in H.
  pose proof (str_nat_nonempty n) as N. destruct (str_nat n) as [|x [|y s]]; [congruence|discriminate|discriminate].
Qed.
Lemma prefactor_text k : render_eT_prefactor (map EParen (numerator k), map EParen (denominator k))
  = eT_quotient_text (map as_number (numerator k)) (map as_number (denominator k)).
Proof.
  pose proof (denominator_fact k) as D. pose proof (no_numerator k) as N.
  destruct (denominator k) as [|d den]; [rewrite N by reflexivity; reflexivity|].
  inversion D as [|? ? (n & ->) _]; subst. unfold render_eT_prefactor. cbn [fst snd].
  pose proof (fact_first n den) as F. pose proof (render_factors (FFact n :: den)) as R. cbn [map] in F, R. cbn [map]. rewrite F, andb_false_r, R.
  unfold eT_quotient_text.
  assert (M : match map EParen (numerator k) with [] => "1" | _ => concat_str (map render_eT_factor (map EParen (numerator k))) end
    = match map as_number (numerator k) with [] => "1" | _ => String.concat "" (map eT_number_text (map as_number (numerator k))) end).
  { rewrite render_factors. now destruct (numerator k). }
  destruct (numerator k) as [|f num]; [reflexivity|]. cbn [map] in *. now rewrite M.
Qed.
Lemma eT_one_over_text k : eT_one_over (latex_divisor k) (render_eT_prefactor (map EParen (numerator k), map EParen (denominator k))).
Proof.
  exists (map as_number (numerator k)), (map as_number (denominator k)).
  split; [apply prefactor_text|]. split; [apply prefactor_value|]. apply factors_nz, denominator_fact.
Qed.

(** ** Labels *)
Lemma take_0 s o : take_at s o 0 = "".
Proof. unfold take_at. rewrite Nat.add_0_r. apply sslice_same. Qed.
Lemma take_summed i n : take_at z_summation_indices i n = summed i n.
Proof. apply take_inner. Qed.
Lemma take_free i n : take_at z_unlinked_indices i n = free i n.
Proof. apply take_outer. Qed.

Definition zt_text (i : nat) (b : bool) : string := if b then summed i 1 else "".
Definition ht_text (i : nat) (b : bool) : string := if b then "" else summed i 1.
Definition t_label (ib : nat * bool) : elabel :=
  ([], [(Magenta, ""); (Blue, ht_text (fst ib) (snd ib)); (Magenta, zt_text (fst ib) (snd ib)); (Red, "")]).

Lemma t_labels_bits L : forall lh uh lz uz u s,
  eT_t_labels (map t_for L) (mkoff lh uh lz uz u s)
  = (Some (map t_label (combine (seq s (List.length L)) L)),
     mkoff lh (uh ++ map (fun ib => (Blue, ht_text (fst ib) (snd ib))) (combine (seq s (List.length L)) L))
           lz (uz ++ map (fun ib => (Magenta, zt_text (fst ib) (snd ib))) (combine (seq s (List.length L)) L))
           u (s + List.length L))%list.
Proof.
  induction L as [|b L IH]; intros lh uh lz uz u s.
  - cbn [map List.length seq combine eT_t_labels]. now rewrite !app_nil_r, Nat.add_0_r.
  - cbn [map eT_t_labels]. replace (Nat.eqb (et_rank (t_for b)) 0) with false by now destruct b.
    unfold eT_t_label, t_side_groups. cbn [o_lower_h o_upper_h o_lower_z o_upper_z o_unlinked o_summation].
    destruct b; cbn [t_for t_with_z t_with_h et_m et_n et_n_lhs et_n_l et_n_h et_n_r Nat.ltb Nat.leb];
      cbn [o_lower_h o_upper_h o_lower_z o_upper_z o_unlinked o_summation];
      rewrite ?Nat.add_0_r, ?take_0, ?take_summed, IH; cbn [List.length seq combine map fst snd]; unfold t_label at 2; cbn [fst snd ht_text zt_text];
      rewrite <- !app_assoc, <- Nat.add_assoc; cbn [app Nat.add]; replace (s + 1)%nat with (S s) by lia; reflexivity.
Qed.

Lemma combine_bits_with k {A} (f : nat -> bool -> A) :
  map (fun ib => f (fst ib) (snd ib)) (combine (seq 0 (List.length (bits k))) (bits k)) = map (fun i => f i (with_z k i)) (seq 0 (k_t k)).
Proof.
  rewrite bits_length, bits_with_z. generalize (seq 0 (k_t k)). intros l. induction l as [|i l IH]; [reflexivity|].
  cbn [map combine fst snd]. now rewrite IH.
Qed.

(** The printed term. *)
Definition h_groups (k : pairs) : list group := map (fun i => (Blue, in_h_text k i)) (seq 0 (k_t k)).
Definition z_groups (k : pairs) : list group := map (fun i => (Magenta, in_z_text k i)) (seq 0 (k_t k)).
Definition elt (pp : bool) (k : pairs) : elterm :=
  mkelterm 0 (k_t k + k_zh k) (if pp then (map EParen (numerator k), map EParen (denominator k)) else ([], []))
    (match k_t k with
     | 0 => None
     | _ => Some (map (fun i => ([], [(Magenta, ""); (Blue, in_h_text k i); (Magenta, in_z_text k i); (Red, "")])) (seq 0 (k_t k)))
     end)
    (match (k_up k + k_down k)%nat with
     | 0 => None
     | _ => Some (match k_up k with 0 => [] | _ => h_groups k ++ [(Blue, ""); (Red, free 0 (k_hp k))] end,
                  match k_down k with 0 => [] | _ => [(Blue, summed (k_t k) (k_zh k)); (Red, "")] end)%list
     end)
    (match k_z k with
     | 0 => None
     | _ => Some (z_groups k ++ (match k_zh k with 0 => [] | _ => [(Blue, summed (k_t k) (k_zh k))] end)
                  ++ [(Red, free (k_hp k) (k_zp k))], [])%list
     end)
    (Nat.eqb (k_up k + k_down k) 0).

Lemma printed_term rf pp P q m n k c : complete P q m n k c ->
  third_eTz_term rf pp (written P q m n k c) = Ok (Some (elt pp (pairs_of c))).
Proof.
  intros C. destruct (written_ts _ _ _ _ _ _ C) as (Eq & Em & En & Ek & EP & Et).
  destruct (powers _ _ _ _ _ _ C) as (F1 & F2 & (l1 & F3 & S3) & (l2 & F4 & S4) & (l3 & F5 & S5) & F6).
  unfold third_eTz_term. cbv zeta. rewrite F1. cbn [bind]. rewrite F3. cbn [bind]. rewrite F4. cbn [bind]. rewrite S3, S4. cbn [Nat.add Nat.ltb Nat.leb andb].
  rewrite F2. cbn [bind]. rewrite F5. cbn [bind].
  assert (Pf : (if pp then eThz_prefactor (tt_ts (written P q m n k c)) (tt_h (written P q m n k c)) (tt_z (written P q m n k c)) else Ok ([], []))
    = Ok (if pp then (map EParen (numerator (pairs_of c)), map EParen (denominator (pairs_of c))) else ([], []))).
  { destruct pp; [|reflexivity]. now apply prefactor_of. }
  rewrite Pf. cbn [bind]. rewrite S5, F6. clear Pf F1 F2 F3 F4 F5 F6 S3 S4 S5.
  set (x := pairs_of c) in *.
  assert (Lt : eT_t_labels (tt_ts (written P q m n k c)) no_offsets
    = (match k_t x with 0 => None | _ => Some (map (fun i => ([], [(Magenta, ""); (Blue, in_h_text x i); (Magenta, in_z_text x i); (Red, "")])) (seq 0 (k_t x))) end,
       mkoff [] (h_groups x) [] (z_groups x) 0 (k_t x))).
  { rewrite Et. destruct q as [|r].
    - unfold h_groups, z_groups. rewrite <- Eq. reflexivity.
    - unfold no_offsets. rewrite t_labels_bits. cbn [app Nat.add].
      assert (E1 : map t_label (combine (seq 0 (List.length (bits x))) (bits x))
        = map (fun i => ([], [(Magenta, ""); (Blue, in_h_text x i); (Magenta, in_z_text x i); (Red, "")])) (seq 0 (k_t x)))
        by exact (combine_bits_with x (fun i b => ([] : list group, [(Magenta, ""); (Blue, ht_text i b); (Magenta, zt_text i b); (Red, "")]))).
      rewrite E1.
      rewrite (combine_bits_with x (fun i b => (Blue, ht_text i b))), (combine_bits_with x (fun i b => (Magenta, zt_text i b))).
      rewrite bits_length. unfold h_groups, z_groups. rewrite <- Eq. reflexivity. }
  rewrite Lt. clear Lt.
  unfold eT_h_label, eT_z_label. unfold written. cbn [tt_h tt_z eh_rank eh_m eh_n eh_m_lhs eh_n_lhs eh_m_r eh_n_r ez_rank ez_m ez_n ez_m_lhs].
  change (e_zp c) with (k_zp x). change (e_hp c) with (k_hp x). change (e_zh c) with (k_zh x). rewrite Em, En, Ek.
  unfold elt. cbn [o_lower_h o_upper_h o_lower_z o_upper_z o_unlinked o_summation].
  replace (k_zh x + k_ht x + k_zt x)%nat with (k_t x + k_zh x)%nat by (unfold k_t; lia).
  clear - x. assert (U : k_up x = 0 -> k_hp x = 0) by (unfold k_up; lia).
  assert (D : k_down x = k_zh x) by reflexivity.
  destruct (k_up x) as [|a]; [rewrite U in * by reflexivity|]; destruct (k_down x) as [|b] eqn:Ed; rewrite <- D in *;
    cbn [Nat.add Nat.eqb Nat.ltb Nat.leb app o_lower_h o_upper_h o_lower_z o_upper_z o_unlinked o_summation];
    rewrite ?Nat.add_0_r, ?take_0, ?take_summed, ?take_free; cbn [Nat.add];
    destruct (k_z x) eqn:Ez; cbn [Nat.eqb Nat.ltb Nat.leb];
    rewrite ?take_free, <- ?app_assoc; cbn [app]; try reflexivity.
Qed.

(** Its text. *)
Lemma render_groups_app a b : render_groups (a ++ b)%list = render_groups a ++ render_groups b.
Proof. unfold render_groups. rewrite map_app. apply concat_str_app. Qed.
Lemma render_elabel_op name m n u d : (m + n)%nat <> 0 ->
  render_elabel name (u, d) = operator_text false name m n (render_groups u) (render_groups d).
Proof.
  intros H. unfold render_elabel, operator_text, braces_text. cbn [andb fst snd]. destruct (m + n)%nat; [congruence|].
  rewrite !append_assoc. cbn [append]. rewrite ?append_assoc. reflexivity.
Qed.
Lemma each_groups k (f : nat -> group) : render_groups (map f (seq 0 (k_t k))) = each_t k (fun i => render_group (f i)).
Proof. unfold render_groups, each_t. now rewrite map_map, concat_empty_sep. Qed.

Lemma raw_text s k : render_elterm s (elt true k) =
  power_text "\bar{f}" (k_t k + k_zh k) ++ render_eT_prefactor (map EParen (numerator k), map EParen (denominator k))
  ++ eT_ts_text false s k ++ eT_h_text false s k ++ eT_z_text false s k.
Proof.
  unfold render_elterm. cbn [elt lx_f lx_fbar lx_prefactor lx_ts lx_h lx_z lx_h_0]. rewrite !render_power_text. change (power_text "f" 0) with "".
  cbn [append]. f_equal. f_equal. f_equal; [|f_equal].
  - unfold eT_ts_text. destruct (k_t k) as [|q] eqn:Eq; [reflexivity|]. rewrite <- Eq. cbn [render_eT_ts].
    unfold each_t. rewrite concat_empty_sep, map_map. f_equal. apply map_ext. intros i. unfold eT_t_text.
    rewrite (render_elabel_op _ 0 1) by lia. f_equal. unfold render_groups. cbn [map concat_str fold_right render_group fst snd].
    unfold render_group; cbn [fst snd append]. rewrite ?append_assoc. cbn [append]. reflexivity.
  - assert (Op : forall name, match (k_up k + k_down k)%nat with 0 => name ++ "_0" | _ =>
       render_elabel name ((match k_up k with 0 => [] | _ => h_groups k ++ [(Blue, ""); (Red, free 0 (k_hp k))] end,
                  match k_down k with 0 => [] | _ => [(Blue, summed (k_t k) (k_zh k)); (Red, "")] end))%list end
       = operator_text false name (k_up k) (k_down k) (eT_h_up k) (eT_h_down k)).
    { intros name. destruct (k_up k + k_down k)%nat eqn:E.
      - unfold operator_text. now rewrite E.
      - rewrite (render_elabel_op name (k_up k) (k_down k)) by lia. f_equal.
        + unfold eT_h_up. destruct (k_up k); [reflexivity|]. rewrite render_groups_app. unfold h_groups. rewrite each_groups.
          f_equal. cbn [render_group fst snd]. unfold render_groups. cbn [map concat_str fold_right render_group fst snd]. rewrite ?append_assoc, ?append_nil_r. reflexivity.
        + unfold eT_h_down. destruct (k_down k); [reflexivity|]. unfold render_groups. cbn [map concat_str fold_right render_group fst snd].
          unfold render_group; cbn [fst snd append]. rewrite ?append_assoc. reflexivity. }
    unfold eT_h_text, derivative, eT_derivative. destruct s; cbn [render_eT_h].
    + specialize (Op "\bt"). destruct (k_up k + k_down k)%nat eqn:E; [reflexivity|]. exact (f_equal derivative Op).
    + specialize (Op "\bh"). destruct (k_up k + k_down k)%nat eqn:E; exact Op.
  - assert (Op : match (match k_z k with 0 => None
         | _ => Some (z_groups k ++ (match k_zh k with 0 => [] | _ => [(Blue, summed (k_t k) (k_zh k))] end) ++ [(Red, free (k_hp k) (k_zp k))], [])%list end)
       with None => "\bz_0" | Some l => render_elabel "\bz" l end = operator_text false "\bz" (k_z k) 0 (eT_z_up k) "").
    { destruct (k_z k) eqn:E; [reflexivity|]. rewrite (render_elabel_op "\bz" (S n) 0) by lia. f_equal.
      unfold eT_z_up. rewrite E. rewrite !render_groups_app. unfold z_groups. rewrite each_groups.
      f_equal. f_equal; [destruct (k_zh k); [reflexivity|]|]; unfold render_groups; cbn [map concat_str fold_right render_group fst snd];
        rewrite ?append_assoc, ?append_nil_r; reflexivity. }
    unfold eT_z_text. cbv zeta. unfold render_eT_z. cbv zeta. destruct s; [|exact Op]. unfold eT_derivative. destruct (k_up k + k_down k)%nat; [exact (f_equal derivative Op)|exact Op].
Qed.
Lemma term_text s k : eT_term_text false s k (render_elterm s (elt true k)).
Proof.
  exists (render_eT_prefactor (map EParen (numerator k), map EParen (denominator k))). split; [apply eT_one_over_text|]. apply raw_text.
Qed.

Lemma first_occurrences_facts l :
  NoDup (first_occurrences l) /\ (forall x, In x (first_occurrences l) <-> In x l) /\
  (forall x, ~ In x l -> first_occurrences (l ++ [x]) = (first_occurrences l ++ [x])%list) /\
  (forall x, In x l -> first_occurrences (l ++ [x]) = first_occurrences l).
Proof.
  unfold first_occurrences. split; [apply NoDup_rev, NoDup_nodup|]. split.
  - intros x. rewrite <- in_rev, nodup_In, <- in_rev. reflexivity.
  - split; intros x Hx; rewrite rev_app_distr; cbn [rev app nodup]; destruct (in_dec string_dec x (rev l)) as [I|I]; try reflexivity; rewrite <- in_rev in I; contradiction.
Qed.
