(** Proofs about the term that is left out, the prefactors, the guards, the
    amplitude filter and which truncations can be generated. *)
From Coq Require Import Lia ZArith.
From Verif Require Import PyBase PyStr PyBaseFacts ModelTrunc ModelHelper ModelW ModelFullCC ModelFullCCPy ModelZhz ModelEt ModelEtPy
  SpecFullCC SpecFullCCPy SpecTrunc SpecEt SpecEtPy ProofsW ProofsStr ProofsFullCC ProofsFullCCLabels ProofsFullCCPy ProofsFullCCBuckets ProofsFullCCFile ProofsResidual ProofsZhzLatex ProofsEt ProofsEtPy ProofsEtBody ProofsEtText ProofsEtGen ProofsEtCalls.
Local Open Scope nat_scope.
Local Open Scope list_scope.

(** ** Form of everything that is added *)
Lemma added_well_formed s H CC P (good : nat -> nat -> nat -> nat -> contraction -> Prop) added :
  (forall q m n k c, good q m n k c -> of_ansatz s H CC P q m n k c) ->
  exactly_adds s good added -> forall p call, In (p, call) added -> well_formed_call P call.
Proof.
  intros G [A _] p call I. destruct (A p call I) as (q & m & n & k & c & Gd & R & _). apply G in Gd as (_ & _ & C).
  eapply realises_well_formed; eauto.
Qed.

Lemma functions_well_formed s Proj H CC e g ser b1 b2 fh ft fz :
  g_m Proj = 0 -> g_n Proj <= CC -> 1 <= CC <= 8 ->
  generate_eT_taylor_expansion 1 e = Ok ser ->
  generate_eT_zhz_einsums s Proj (mkops H CC (generate_pruned_H_operator H) (generate_z_operator CC g) ser) true = Ok (b1, b2) ->
  forall p call, In (p, call) (run_ebody fh ft fz b1 ++ run_ebody fh ft fz b2) -> well_formed_call (g_n Proj) call.
Proof.
  intros HP HC HCC ET E p call I. destruct (ground_functions s Proj H CC e g ser b1 b2 fh ft fz HP HC HCC ET E) as [A B].
  apply in_app_iff in I as [I|I].
  - refine (added_well_formed s H CC (g_n Proj) _ _ _ A p call I). intros q m n k c ((_ & O & _) & _). exact O.
  - refine (added_well_formed s H CC (g_n Proj) _ _ _ B p call I). intros q m n k c ((_ & O) & _). exact O.
Qed.

(** ** The term that is left out *)
Lemma bare_not_added s Proj H CC e g ser b1 b2 fh ft fz :
  g_m Proj = 0 -> g_n Proj <= CC -> 1 <= CC <= 8 ->
  generate_eT_taylor_expansion 1 e = Ok ser ->
  generate_eT_zhz_einsums s Proj (mkops H CC (generate_pruned_H_operator H) (generate_z_operator CC g) ser) true = Ok (b1, b2) ->
  forall c p call, complete (g_n Proj) 0 0 0 (g_n Proj) c ->
    In (p, call) (run_ebody fh ft fz b1 ++ run_ebody fh ft fz b2) -> ~ realises_eT s 0 0 (g_n Proj) c call.
Proof.
  intros HP HC HCC ET E c p call C I R. destruct (ground_functions s Proj H CC e g ser b1 b2 fh ft fz HP HC HCC ET E) as [[A _] [B _]].
  assert (X : exists q m n k c', of_ansatz s H CC (g_n Proj) q m n k c' /\ realises_eT s m n k c' call /\ ~ bare_term (g_n Proj) q m n k).
  { apply in_app_iff in I as [I|I]; [apply A in I|apply B in I]; destruct I as (q & m & n & k & c' & Gd & R' & _); exists q, m, n, k, c'.
    - destruct Gd as ((_ & O & Nb) & _). auto.
    - destruct Gd as ((Hq & O) & _). split; [exact O|]. split; [exact R'|]. intros (-> & _). lia. }
  destruct X as (q & m & n & k & c' & (_ & _ & C') & R' & Nb).
  destruct (realised_class _ _ _ _ _ _ _ _ _ _ R R') as (<- & <- & <- & Es & Ez).
  destruct (class_of _ _ _ _ _ _ _ _ _ C C' Es Ez) as [<- _]. apply Nb. repeat split.
Qed.

(** every other contraction is there *)
Lemma others_added s Proj H CC e g ser b1 b2 :
  g_m Proj = 0 -> g_n Proj <= CC -> 1 <= CC <= 8 ->
  generate_eT_taylor_expansion 1 e = Ok ser ->
  generate_eT_zhz_einsums s Proj (mkops H CC (generate_pruned_H_operator H) (generate_z_operator CC g) ser) true = Ok (b1, b2) ->
  forall q m n k c, q <= e -> of_ansatz s H CC (g_n Proj) q m n k c ->
    ((exists p call, In (p, call) (run_ebody (fun _ => true) (fun _ => true) (fun _ => true) b1
                                   ++ run_ebody (fun _ => true) (fun _ => true) (fun _ => true) b2) /\ realises_eT s m n k c call)
     <-> ~ bare_term (g_n Proj) q m n k).
Proof.
  intros HP HC HCC ET E q m n k c Hq O.
  destruct (ground_functions s Proj H CC e g ser b1 b2 (fun _ => true) (fun _ => true) (fun _ => true) HP HC HCC ET E) as [[_ A] [_ B]].
  assert (On : is_on (fun _ => true) (fun _ => true) (fun _ => true) (Nat.max m n) (match q with 0 => 0 | S _ => 1 end) k = true).
  { unfold is_on. now rewrite !orb_true_r. }
  split.
  - intros (p & call & I & R) Bt. destruct Bt as (-> & -> & -> & ->).
    exact (bare_not_added s Proj H CC e g ser b1 b2 _ _ _ HP HC HCC ET E c p call (proj2 (proj2 O)) I R).
  - intros Nb. destruct (Nat.eq_dec q 0) as [->|Hq0].
    + destruct (A 0 m n k c) as (l1 & p & call & l2 & El & R & _); [auto|]. exists p, call. split; [|exact R].
      rewrite El. apply in_or_app. left. apply in_or_app. right. now left.
    + destruct (B q m n k c) as (l1 & p & call & l2 & El & R & _); [split; [split; [lia|exact O]|exact On]|]. exists p, call. split; [|exact R].
      rewrite El. apply in_or_app. right. apply in_or_app. right. now left.
Qed.

(** ** The prefactor *)
Lemma comb_choose n k : k <= n -> choose n k (comb n k).
Proof. intros H. unfold choose. pose proof (comb_fact k (n - k)) as F. now replace (k + (n - k)) with n in F by lia. Qed.

Lemma term_prefactor s lhs e ser q st H Z l t :
  g_m lhs = 0 -> ground_z Z -> distinct_h H ->
  generate_eT_taylor_expansion 1 e = Ok ser -> nth_error ser q = Some st ->
  filter_out_valid_eTz_terms lhs st H Z s = Ok l -> In t l ->
  let h := tt_h t in let z := tt_z t in
  exists b1 b2 b3 w,
    choose (eh_m h) (eh_m_lhs h) b1 /\ choose (ez_m z) (ez_m_lhs z) b2 /\ choose (ez_m z - ez_m_lhs z) (ez_m_h z) b3 /\
    let num := b1 * b2 * b3 * fact (ez_m_h z) in
    let den := fact (eh_m h) * fact (eh_n h) * fact (ez_m z) in
    build_eT_zhz_python_prefactor (tt_ts t) h z = Ok (num, den) /\ num * w = den /\ num <> 0 /\ fraction (num, den) = (1, w).
Proof.
  intros HP HZ HH ET En E I. destruct (et_terms_exact s lhs e ser q st H Z HP HZ HH ET En) as (l' & E' & _ & X).
  rewrite E in E'. injection E' as <-. apply X in I as (h & z & c & _ & _ & _ & C & ->). clear X.
  pose proof (counts _ _ _ _ _ _ C) as K. pose proof (sums _ _ _ _ _ _ C) as S0.
  pose proof (prefactor_value _ _ _ _ _ _ C) as V. pose proof (weight_value _ _ _ _ _ _ C) as W. pose proof (numerator_nz _ _ _ _ _ _ C) as N.
  cbv zeta. change (eh_m (tt_h (written (g_n lhs) q (h_m h) (h_n h) (g_m z) c))) with (h_m h).
  change (eh_n (tt_h (written (g_n lhs) q (h_m h) (h_n h) (g_m z) c))) with (h_n h).
  change (eh_m_lhs (tt_h (written (g_n lhs) q (h_m h) (h_n h) (g_m z) c))) with (e_hp c).
  change (ez_m (tt_z (written (g_n lhs) q (h_m h) (h_n h) (g_m z) c))) with (g_m z).
  change (ez_m_lhs (tt_z (written (g_n lhs) q (h_m h) (h_n h) (g_m z) c))) with (e_zp c).
  change (ez_m_h (tt_z (written (g_n lhs) q (h_m h) (h_n h) (g_m z) c))) with (e_zh c).
  assert (Ezh : e_zh c = h_n h) by apply C.
  exists (comb (h_m h) (e_hp c)), (comb (g_m z) (e_zp c)), (comb (g_m z - e_zp c) (e_zh c)), (pair_permutations c).
  rewrite Ezh in *.
  assert (R : comb (h_m h) (e_hp c) * comb (g_m z) (e_zp c) * comb (g_m z - e_zp c) (h_n h) * fact (h_n h)
    = comb (h_m h) (e_hp c) * (comb (g_m z) (e_zp c) * comb (g_m z - e_zp c) (h_n h) * fact (h_n h))) by lia.
  rewrite R. repeat split; auto; try (apply comb_choose; lia). now apply fraction_1.
Qed.

(** ** Guards, for every list of terms *)
Lemma operand_text_render o : operand_text o = render_operand o.
Proof. destruct o as [name [a b]]. unfold operand_text, render_operand, pair_text. cbn [fst snd]. rewrite !append_assoc. reflexivity. Qed.
Lemma call_text_render c : call_text c = render_ecall c.
Proof.
  unfold call_text, render_ecall. rewrite <- !join_concat. now rewrite (map_ext _ _ operand_text_render).
Qed.
Lemma prefactor_text_render p : eT_prefactor_text p = render_eT_prefactor p.
Proof. reflexivity. Qed.

Definition filed (e : ModelEtPy.entry) : nat * nat * nat * (string * string) :=
  (en_h e, en_t e, en_z e, (eT_prefactor_text (en_pref e), call_text (en_call e))).
Lemma tuple_eq {A B C D F} (a a' : A) (b b' : B) (c c' : C) (d d' : D) (f f' : F) : (a, b, c, (d, f)) = (a', b', c', (d', f')) <-> (a, b, c, d, f) = (a', b', c', d', f').
Proof. split; intros [= -> -> -> -> ->]; reflexivity. Qed.
Lemma filed_place e e' : filed e = filed e' <-> place e = place e'.
Proof. unfold filed, place. rewrite !call_text_render, !prefactor_text_render. apply tuple_eq. Qed.

Lemma entries_lines s Hm t y : eT_entries s Hm t = Ok y ->
  (forall x, line_of s t x <-> exists e, In e y /\ filed e = x) /\
  (forall e, In e y -> en_h e <= Hm /\ en_t e = list_max (map et_rank (tt_ts t))).
Proof.
  unfold eT_entries. destruct (negb _); [discriminate|].
  destruct (build_eT_zhz_python_prefactor (tt_ts t) (tt_h t) (tt_z t)) as [nd|] eqn:En; [|discriminate]. cbn [bind].
  destruct (Nat.ltb_spec Hm (Nat.max (eh_m (tt_h t)) (eh_n (tt_h t)))) as [|L]; [discriminate|].
  destruct (eT_calls s t) as [calls|] eqn:Ec; [|discriminate]. cbn [bind]. intros [= <-]. split.
  - intros [[[i j] k] [p c]]. unfold line_of. split.
    + intros (nd' & calls' & call & E1 & E2 & I & -> & -> & -> & -> & ->). rewrite En in E1. rewrite Ec in E2. injection E1 as <-. injection E2 as <-.
      eexists. split; [apply in_map; exact I|]. reflexivity.
    + intros (e & He & Ef). apply in_map_iff in He as (call & <- & I). unfold filed in Ef. cbn [en_h en_t en_z en_pref en_call] in Ef.
      injection Ef as <- <- <- <- <-. exists nd, calls, call. auto 10.
  - intros e He. apply in_map_iff in He as (call & <- & _). cbn [en_h en_t]. split; [exact L|reflexivity].
Qed.

Lemma concatM_Ok {A B} (f : A -> res (list B)) l d : concatM f l = Ok d -> forall x, In x l -> exists y, f x = Ok y.
Proof.
  unfold concatM. intros E. apply mapM_iff. destruct (mapM f l) as [y|]; [eauto|discriminate].
Qed.

Lemma guards_exact s H CC l b : write_third_eTz_einsum_python s H CC l = Ok b ->
  (forall t, In t l -> list_max (map et_rank (tt_ts t)) <= CC) ->
  exists placed, NoDup placed /\ (forall x, In x placed <-> exists t, In t l /\ line_of s t x) /\
    forall fh ft fz, map added_text (run_ebody fh ft fz b)
      = map snd (filter (fun x => let '(i, j, k, _) := x in is_on fh ft fz i j k) placed).
Proof.
  intros E HT. unfold write_third_eTz_einsum_python in E. destruct l as [|t0 l0] eqn:El.
  { injection E as <-. exists []. split; [constructor|]. split; [|reflexivity]. intros x. split; [easy|]. intros (t & [] & _). }
  rewrite <- El in *. clear El t0 l0. destruct (concatM (eT_entries s H) l) as [d|] eqn:Ed; [|discriminate]. cbn [bind] in E. apply body_ok in E as ->.
  destruct (concatM_in (eT_entries s H) l (concatM_Ok _ _ _ Ed)) as (d' & Ed' & Id). rewrite Ed in Ed'. injection Ed' as <-.
  destruct (body_spec d H CC) as (N & S1 & S2). exists (map filed (loc_body d H CC)). split; [|split].
  - revert N. generalize (loc_body d H CC). intros x. induction x as [|e x IH]; intros N; [constructor|]. cbn [map] in *.
    inversion N as [|? ? N1 N2]; subst. constructor; [|auto]. intros I. apply N1. apply in_map_iff in I as (e' & Ee & I).
    apply filed_place in Ee. rewrite <- Ee. now apply in_map.
  - intros x. rewrite in_map_iff. split.
    + intros (e & <- & He). destruct (S1 e He) as (_ & _ & _ & e' & He' & Pl & _). apply Id in He' as (t & y & It & Ey & Iy).
      exists t. split; [exact It|]. apply (proj1 (entries_lines _ _ _ _ Ey)). exists e'. split; [exact Iy|]. now apply filed_place.
    + intros (t & It & L). destruct (concatM_Ok _ _ _ Ed t It) as [y Ey]. destruct (entries_lines _ _ _ _ Ey) as [X Y].
      destruct (proj1 (X x) L) as (e & Ie & Ex). destruct (Y e Ie) as [Y1 Y2].
      destruct (S2 e) as (e' & He' & Pl); [apply Id; eauto|exact Y1|rewrite Y2; now apply HT|].
      exists e'. rewrite <- Ex. split; [now apply filed_place|exact He'].
  - intros fh ft fz. rewrite run_body, map_map. generalize (loc_body d H CC). intros x. induction x as [|e x IH]; [reflexivity|]. cbn [map filter filed].
    destruct (is_on fh ft fz (en_h e) (en_t e) (en_z e)); [cbn [map]; now rewrite IH|exact IH].
Qed.

(** ** The amplitude filter *)
Lemma series_kept r e ser : 1 <= r -> generate_eT_taylor_expansion r e = Ok ser -> remove_all_excited_state_t_terms ser = ser.
Proof. intros Hr E. exact (remove_excited_id _ (series_no_excited r e ser Hr E)). Qed.

(** ** Which truncations can be generated *)
Lemma write_iff s H CC l d : concatM (eT_entries s H) l = Ok d -> (forall e, In e d -> en_h e <= H /\ en_t e <= CC /\ en_t e <= 6) ->
  ((exists b, write_third_eTz_einsum_python s H CC l = Ok b) <-> (l <> [] -> H <= 5 /\ forall e, In e d -> en_z e <= 5)).
Proof.
  intros E B. unfold write_third_eTz_einsum_python. destruct l as [|t l]; [split; [congruence|eauto]|].
  rewrite E. cbn [bind]. rewrite body_iff. unfold tags_suffice. split.
  - intros [H1 H2] _. split; [exact H1|]. intros e He. destruct (B e He) as (B1 & B2 & _). now apply H2.
  - intros X. destruct X as [H1 H2]; [discriminate|]. split; [exact H1|]. intros e He _ _. split; [now apply H2|apply (B e He)].
Qed.

Definition reach (s : side) (H P e : nat) : nat := match s with RHS => P + H + e | LHS => P + e end.

(** one function of a projection *)
Lemma einsums_iff s Proj H CC e g ser : g_m Proj = 0 -> g_n Proj <= CC -> 1 <= CC <= 8 ->
  generate_eT_taylor_expansion 1 e = Ok ser ->
  let ops := mkops H CC (generate_pruned_H_operator H) (generate_z_operator CC g) ser in
  ((exists b, generate_eT_zhz_einsums s Proj ops true = Ok b) <->
   H <= 5 /\ forall q m n k c, q <= e -> of_ansatz s H CC (g_n Proj) q m n k c -> ~ bare_term (g_n Proj) q m n k -> k <= 5).
Proof.
  intros HP HPc HCC ET ops. assert (He : 1 <= e) by (destruct e; [discriminate|lia]).
  unfold generate_eT_zhz_einsums. unfold ops. cbn [op_H op_Z op_eT op_h_rank op_cc_rank].
  rewrite (remove_excited_id _ (series_no_excited 1 e ser ltac:(lia) ET)).
  destruct (terms_lists s Proj H CC e g HP ser ET) as (zl & tl & Et & Iz & It).
  destruct (ground_state_operators s (generate_pruned_H_operator H) (generate_z_operator CC g)) as [HL ZL] eqn:EL. cbn [fst snd] in Et.
  rewrite Et. cbn [bind].
  assert (W : forall (good : nat -> nat -> nat -> nat -> contraction -> Prop) l, (forall q m n k c, good q m n k c -> of_ansatz s H CC (g_n Proj) q m n k c) ->
    (forall t, In t l <-> exists q m n k c, good q m n k c /\ t = written (g_n Proj) q m n k c) ->
    ((exists b, write_third_eTz_einsum_python s H CC l = Ok b) <-> (l <> [] -> H <= 5 /\ forall q m n k c, good q m n k c -> k <= 5))).
  { intros good l G1 G2. destruct (entries_list s H CC (g_n Proj) good l HCC HPc G1 G2) as (d & Ed & Id). rewrite (write_iff s H CC l d Ed).
    - assert (Q : (forall e, In e d -> en_z e <= 5) <-> (forall q m n k c, good q m n k c -> k <= 5)); [|tauto]. split.
      + intros X q m n k c Gd. apply (X (the_entry q m n k c s)). apply Id. exists q, m, n, k, c. auto.
      + intros X e0 He0. apply Id in He0 as (q & m & n & k & c & Gd & ->). cbn [the_entry en_z]. now apply (X q m n k c).
    - intros e0 He0. apply Id in He0 as (q & m & n & k & c & Gd & ->). cbn [the_entry en_h en_t].
      pose proof (letters_suffice s H CC (g_n Proj) HCC HPc q m n k c (G1 _ _ _ _ _ Gd)). destruct q; lia. }
  assert (Wz := W (fun q m n k c => q = 0 /\ of_ansatz s H CC (g_n Proj) q m n k c /\ ~ bare_term (g_n Proj) q m n k) zl ltac:(intros q m n k c X; exact (proj1 (proj2 X))) Iz).
  assert (Wt := W (fun q m n k c => 1 <= q <= e /\ of_ansatz s H CC (g_n Proj) q m n k c) tl ltac:(intros q m n k c X; exact (proj2 X)) It).
  assert (NE : 1 <= H -> exists t, In t tl).
  { intros HH. exists (written (g_n Proj) 1 1 0 (g_n Proj) (mkcontraction (g_n Proj) 0 [0] 0 [1])). apply It.
    exists 1, 1, 0, (g_n Proj), (mkcontraction (g_n Proj) 0 [0] 0 [1]). split; [|reflexivity]. split; [lia|].
    split; [split; [lia|split; [lia|now intros _]]|]. split; [lia|]. repeat split; cbn; try lia. intros [|i] Hi; [reflexivity|lia]. }
  assert (X : (exists b, match zl, tl with [], [] => Ok (EInvalid, EInvalid)
      | _, _ => do a <- write_third_eTz_einsum_python s H CC zl; do b <- write_third_eTz_einsum_python s H CC tl; Ok (a, b) end = Ok b)
    <-> (exists b, write_third_eTz_einsum_python s H CC zl = Ok b) /\ (exists b, write_third_eTz_einsum_python s H CC tl = Ok b)).
  { assert (Y : (exists b, (do a <- write_third_eTz_einsum_python s H CC zl; do b <- write_third_eTz_einsum_python s H CC tl; Ok (a, b)) = Ok b)
      <-> (exists b, write_third_eTz_einsum_python s H CC zl = Ok b) /\ (exists b, write_third_eTz_einsum_python s H CC tl = Ok b)).
    { destruct (write_third_eTz_einsum_python s H CC zl) as [a|]; cbn [bind]; [|split; [intros [? ?]; discriminate|intros [[? ?] _]; discriminate]].
      destruct (write_third_eTz_einsum_python s H CC tl) as [b|]; cbn [bind]; [split; eauto|split; [intros [? ?]; discriminate|intros [_ [? ?]]; discriminate]]. }
    destruct zl as [|z0 zl']; [destruct tl as [|t0 tl']|]; [split; [split; eexists; reflexivity|eauto]|exact Y|exact Y]. }
  rewrite X, Wz, Wt. clear X Wz Wt W. split.
  - intros [A B]. split.
    + destruct (Nat.le_gt_cases H 5) as [|HH]; [assumption|]. apply B. destruct NE as [t Ht]; [lia|]. intros ->. destruct Ht.
    + intros q m n k c Hq O Nb. destruct (Nat.eq_dec q 0) as [->|Hq0].
      * refine (proj2 (A _) 0 m n k c _); [|auto]. intros E0. assert (I : In (written (g_n Proj) 0 m n k c) zl) by (apply Iz; exists 0, m, n, k, c; auto).
        rewrite E0 in I. destruct I.
      * assert (Q : 1 <= q <= e /\ of_ansatz s H CC (g_n Proj) q m n k c) by (split; [lia|exact O]).
        refine (proj2 (B _) q m n k c Q). intros E0. assert (I : In (written (g_n Proj) q m n k c) tl) by (apply It; exists q, m, n, k, c; auto).
        rewrite E0 in I. destruct I.
  - intros [A B]. split; intros _; (split; [exact A|]).
    + intros q m n k c (-> & O & Nb). apply (B 0 m n k c); auto. lia.
    + intros q m n k c (Hq & O). apply (B q m n k c); auto; [lia|]. intros (-> & _). lia.
Qed.

Lemma nth_of_repeat {A} (a d : A) q : forall i, i < q -> nth i (repeat a q) d = a.
Proof. induction q as [|q IH]; intros [|i] Hi; try lia; [reflexivity|]. cbn [repeat nth]. apply IH. lia. Qed.

(** the bound on the ranks of z *)
Lemma z_rank_bound s H CC e P : 1 <= e ->
  ((forall p, p <= CC -> p <= P -> forall q m n k c, q <= e -> of_ansatz s H CC p q m n k c -> ~ bare_term p q m n k -> k <= 5)
   <-> CC <= 5 \/ reach s H P e <= 5).
Proof.
  intros He. split.
  - intros X. destruct (Nat.le_gt_cases CC 5) as [|HC]; [now left|]. right.
    destruct (Nat.le_gt_cases (reach s H P e) 5) as [|HR]; [assumption|]. exfalso.
    set (q := Nat.min e 6). set (n := match s with RHS => Nat.min H (6 - q) | LHS => 0 end). set (p := 6 - q - n).
    assert (B : p + n + q = 6 /\ p <= P /\ p <= CC /\ n <= H /\ 1 <= q <= e).
    { unfold p, n, q, reach in *. destruct s; lia. }
    assert (K : 6 <= 5); [|lia].
    apply (X p ltac:(lia) ltac:(lia) q 0 n 6 (mkcontraction p n (repeat 1 q) 0 (repeat 0 q))); [lia| |intros (? & _); lia].
    split; [split; [lia|split; [now right|]]|].
    + intros Es. unfold n. now rewrite Es.
    + split; [lia|]. repeat split; cbn [e_zp e_zh e_zt e_hp e_ht]; rewrite ?repeat_length, ?sum_repeat0, ?sum_repeat1; try lia.
      * intros i Hi. now rewrite !nth_of_repeat by exact Hi.
  - intros X p Hp1 Hp2 q m n k c Hq ((A1 & A2 & A3) & A4 & C) _. destruct X as [X|X]; [lia|].
    pose proof (counts _ _ _ _ _ _ C). pose proof (sums _ _ _ _ _ _ C). unfold reach in X. destruct s; [|lia].
    specialize (A3 eq_refl). lia.
Qed.

(** the second branch of a function gives the same bodies *)
Lemma excited_branch s Proj H CC e g ser : generate_eT_taylor_expansion 1 e = Ok ser ->
  let ops := mkops H CC (generate_pruned_H_operator H) (generate_z_operator CC g) ser in
  let HZ := ground_state_operators s (op_H ops) (op_Z ops) in
  generate_eT_zhz_einsums s Proj (mkops H CC (fst HZ) (snd HZ) ser) false = generate_eT_zhz_einsums s Proj ops true.
Proof.
  intros ET. cbv zeta. unfold generate_eT_zhz_einsums. cbn [op_H op_Z op_eT op_h_rank op_cc_rank].
  rewrite (series_kept 1 e ser ltac:(lia) ET). reflexivity.
Qed.

Lemma function_iff s H CC e g ser opt Proj : generate_eT_taylor_expansion 1 e = Ok ser ->
  let ops := mkops H CC (generate_pruned_H_operator H) (generate_z_operator CC g) ser in
  ((exists t, construct_eT_zhz_compute_function s ops g opt Proj = Ok t) <-> exists b, generate_eT_zhz_einsums s Proj ops true = Ok b).
Proof.
  intros ET ops. unfold construct_eT_zhz_compute_function, eT_branches.
  pose proof (excited_branch s Proj H CC e g ser ET) as X. cbv zeta in X. fold ops in X.
  destruct (generate_eT_zhz_einsums s Proj ops true) as [b|] eqn:E; cbn [bind]; [|split; intros [? ?]; discriminate].
  destruct (ground_state_operators s (op_H ops) (op_Z ops)) as [HL ZL] eqn:EL. cbn [fst snd] in X.
  change (op_h_rank ops) with H. change (op_cc_rank ops) with CC. change (op_eT ops) with ser.
  destruct g; cbn [bind]; [split; eauto|]. rewrite X. cbn [bind]. split; eauto.
Qed.

Lemma wrap_iff ops rn n s body : (exists t, wrap_generation ops rn n s body = Ok t) <-> (forall o, In o ops -> exists b, body o = Ok b).
Proof.
  split; [|apply wrap_ok]. unfold wrap_generation. intros [t E] o0 Ho.
  match type of E with context [mapM ?f ?l] => assert (X : exists y, mapM f l = Ok y); [destruct (mapM f l); [eauto|discriminate]|] end.
  rewrite mapM_iff in X. unfold number in X.
  assert (C : forall (l : list gop) (a : list nat), List.length a = List.length l -> forall o, In o l -> exists i, In (i, o) (combine a l)).
  { induction l as [|x l IH]; intros [|i a] L o' Ho'; try easy. destruct Ho' as [<-|Ho']; [exists i; now left|].
    destruct (IH a ltac:(cbn in L; lia) o' Ho') as [j Hj]. exists j. now right. }
  destruct (C ops (range 0 (List.length ops)) ltac:(unfold range; rewrite seq_length; lia) o0 Ho) as [i Hi].
  destruct (X (i, o0) Hi) as [y Ey]. destruct (body o0) as [b|]; [eauto|discriminate].
Qed.

Lemma projections_of CC P p : (exists o, In o (eT_projections CC P) /\ g_n o = p) <-> p <= CC /\ p <= P.
Proof.
  unfold eT_projections. split.
  - intros (o & Ho & <-). apply filter_In in Ho as [Ho B]. apply Nat.eqb_eq in B. apply projections_exact in Ho as (_ & R & R1 & R2). lia.
  - intros [H1 H2]. unfold generate_omega_operator. eexists. split.
    + apply filter_In. split; [apply in_isort, in_map_iff; exists (0, p); split; [reflexivity|]; apply filter_In; split; [apply in_mn_pairs; cbn [fst snd]; lia|apply Nat.leb_le; cbn [fst snd]; lia]|reflexivity].
    + reflexivity.
Qed.

Theorem eT_file_iff s g H CC e P : 1 <= CC <= 8 -> 1 <= e ->
  ((exists text, generate_eT_zhz_python_file_contents s g H CC 1 e P = Ok text) <-> H <= 5 /\ (CC <= 5 \/ reach s H P e <= 5)).
Proof.
  intros HCC He. assert (exists ser, generate_eT_taylor_expansion 1 e = Ok ser) as [ser ET] by (rewrite taylor_1 by exact He; eauto).
  unfold generate_eT_zhz_python_file_contents. rewrite ET. cbn [bind].
  set (ops := mkops H CC (generate_pruned_H_operator H) (generate_z_operator CC g) ser).
  assert (A : forall opt, (exists t, wrap_generation (eT_projections CC P) "FUNCTIONS" "TERMS" 28 (construct_eT_zhz_compute_function s ops g opt) = Ok t) <->
    H <= 5 /\ (CC <= 5 \/ reach s H P e <= 5)).
  { intros opt. rewrite wrap_iff. rewrite <- (z_rank_bound s H CC e P He).
    assert (Q : forall o, In o (eT_projections CC P) -> g_m o = 0 /\ g_n o <= CC /\ g_n o <= P).
    { intros o Ho. split; [apply filter_In in Ho as [_ B]; now apply Nat.eqb_eq in B|]. apply (projections_of CC P (g_n o)). eauto. }
    split.
    - intros X. split.
      + destruct (proj2 (projections_of CC P 0)) as (o & Ho & _); [lia|]. destruct (Q o Ho) as (Q1 & Q2 & _).
        apply (einsums_iff s o H CC e g ser Q1 Q2 HCC ET). apply (function_iff s H CC e g ser opt o ET). now apply X.
      + intros p H1 H2. destruct (proj2 (projections_of CC P p)) as (o & Ho & <-); [lia|]. destruct (Q o Ho) as (Q1 & Q2 & _).
        apply (einsums_iff s o H CC e g ser Q1 Q2 HCC ET). apply (function_iff s H CC e g ser opt o ET). now apply X.
    - intros [X Y] o Ho. destruct (Q o Ho) as (Q1 & Q2 & Q3). apply (function_iff s H CC e g ser opt o ET).
      apply (einsums_iff s o H CC e g ser Q1 Q2 HCC ET). split; [exact X|]. now apply Y. }
  pose proof (A false) as A1. pose proof (A true) as A2.
  destruct (wrap_generation (eT_projections CC P) "FUNCTIONS" "TERMS" 28 (construct_eT_zhz_compute_function s ops g false)) as [t1|]; cbn [bind].
  - destruct (wrap_generation (eT_projections CC P) "FUNCTIONS" "TERMS" 28 (construct_eT_zhz_compute_function s ops g true)) as [t2|]; cbn [bind].
    + rewrite <- A1. split; eauto.
    + rewrite <- A2. split; intros [? ?]; discriminate.
  - rewrite <- A1. split; intros [? ?]; discriminate.
Qed.
