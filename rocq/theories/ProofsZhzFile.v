(** Proofs about the LaTeX of the z t symmetrised equations: sums, equations
    and the file. *)
From Coq Require Import Lia Permutation Factorial.
From Verif Require Import PyBase PyStr PyBaseFacts ModelHelper ModelW ModelLatexW ModelFullCC ModelFullCCPy ModelFullCCLatex ModelZhz
  ProofsHelper ProofsW ProofsStr ProofsFullCC ProofsFullCCLabels ProofsFullCCBuckets ProofsFullCCLatexText ProofsFullCCLatex ProofsFullCCLatexFile
  SpecFullCC SpecFullCCPy SpecLatexW SpecFullCCLatex SpecZhz ProofsZhz ProofsZhzLatex.
Open Scope string_scope.

(** ** Broken lines *)
Lemma z_lines_broken {A} (l : list A) : broken l (z_lines 7 l).
Proof.
  pose proof (Nat.div_mod (List.length l) 7 ltac:(lia)) as D.
  pose proof (Nat.mod_upper_bound (List.length l) 7 ltac:(lia)) as U.
  destruct (concat_slices l (List.length l / 7)) as [C1 C2]; [lia|].
  unfold z_lines. eexists _, _. split; [reflexivity|]. split; [exact C2|]. split.
  - rewrite C1. f_equal. lia.
  - destruct (Nat.eqb_spec (List.length l mod 7) 6) as [E|E].
    + rewrite E. reflexivity.
    + cbv zeta. destruct (Nat.eqb_spec (7 - 1 - List.length l mod 7) 0); [lia|]. reflexivity.
Qed.

Theorem broken_complete {A} (l : list A) lines : 14 <= List.length l -> broken l lines ->
  (List.concat lines = l <-> List.length l mod 7 = 3).
Proof.
  intros L (full & last & -> & _ & C & ->).
  pose proof (Nat.div_mod (List.length l) 7 ltac:(lia)) as D.
  pose proof (Nat.mod_upper_bound (List.length l) 7 ltac:(lia)) as U.
  rewrite concat_app, C. cbn [List.concat]. rewrite app_nil_r. split.
  - intros E. apply (f_equal (@List.length A)) in E. rewrite app_length, firstn_length_le in E by lia.
    destruct (Nat.eqb_spec (List.length l mod 7) 6) as [E6|E6]; [lia|]. rewrite skipn_length in E. lia.
  - intros E. rewrite E. cbn [Nat.eqb]. replace (List.length l - (6 - 3))%nat with (7 * (List.length l / 7))%nat by lia.
    apply firstn_skipn.
Qed.

Lemma map_slice {A B} (f : A -> B) a b l : map f (PyBase.slice a b l) = PyBase.slice a b (map f l).
Proof. unfold PyBase.slice. now rewrite skipn_map, firstn_map. Qed.
Lemma map_z_lines {A B} (f : A -> B) l : map (map f) (z_lines 7 l) = z_lines 7 (map f l).
Proof.
  unfold z_lines. rewrite map_app, map_map, map_length. f_equal.
  - apply map_ext. intros i. apply map_slice.
  - cbn [map]. f_equal. destruct (Nat.eqb _ 0); [reflexivity|]. symmetry. apply skipn_map.
Qed.

Definition ending (k : kind) : string := match k with right_only => "" | _ => ")" end.

Lemma glue_text k l : z_sum_text (ending k) (map render_zlterm l) (render_zsum (ending k) (glue_z l)).
Proof.
  unfold glue_z, z_sum_text. rewrite map_length. destruct (Nat.ltb_spec (List.length l) (7 * 2)) as [H|H].
  - left. split; [lia|]. cbn [render_zsum]. unfold sum_text. now rewrite join_concat.
  - right. split; [lia|]. exists (z_lines 7 (map render_zlterm l)). split; [apply z_lines_broken|].
    cbn [render_zsum]. rewrite join_concat, splitting_break, <- map_z_lines, map_map.
    do 2 f_equal.
Qed.

Definition prepare (k : kind) (l : list zterm) (rf : bool) : res zsum :=
  match k with
  | left_only => prepare_second_z_latex l rf
  | right_only => prepare_third_z_latex l rf true
  | both_sides => prepare_fourth_z_latex l rf
  end.
Lemma prepare_keep k l rf : prepare k l rf = keep_terms (print_term k rf) l.
Proof. now destruct k. Qed.

Lemma concatM_mapM {A B} (f : A -> res (option B)) l :
  concatM (fun t => do o <- f t; Ok (option_list o)) l
  = do os <- mapM f l; Ok (flat_map option_list os).
Proof.
  unfold concatM. induction l as [|x l IH]; [reflexivity|]. cbn [mapM].
  destruct (f x) as [o|e]; cbn [bind]; [|reflexivity].
  destruct (mapM (fun t => do o0 <- f t; Ok (option_list o0)) l) as [r|e]; destruct (mapM f l) as [os|e']; cbn [bind] in *; try congruence.
  injection IH as IH. cbn [List.concat flat_map]. now rewrite IH.
Qed.

(** The sum of a list of terms is the sum of the printed terms. *)
Theorem sum_printed k ts rf :
  (forall os, mapM (print_term k rf) ts = Ok os ->
     exists s, prepare k ts rf = Ok s /\
       z_sum_text (ending k) (map render_zlterm (flat_map option_list os)) (render_zsum (ending k) s)) /\
  (forall e, mapM (print_term k rf) ts = Err e -> prepare k ts rf = Err e).
Proof.
  rewrite prepare_keep. unfold keep_terms. rewrite concatM_mapM. split.
  - intros os E. rewrite E. cbn [bind]. eexists. split; [reflexivity|]. apply glue_text.
  - intros e E. now rewrite E.
Qed.

(** ** Parentheses *)
Lemma occurrences_app c a b : occurrences c (a ++ b) = (occurrences c a + occurrences c b)%nat.
Proof. induction a as [|x a IH]; [reflexivity|]. cbn [append occurrences]. rewrite IH. lia. Qed.

Definition calm (s : string) : Prop := occurrences "(" s = 0 /\ occurrences ")" s = 0.
Lemma calm_app a b : calm a -> calm b -> calm (a ++ b).
Proof. unfold calm. intros [? ?] [? ?]. rewrite !occurrences_app. lia. Qed.
Lemma calm_lit s : (Nat.eqb (occurrences "(" s) 0 && Nat.eqb (occurrences ")" s) 0) = true -> calm s.
Proof. intros H. apply andb_true_iff in H as [H1 H2]. split; now apply Nat.eqb_eq. Qed.
Lemma calm_chars l : (forall c, In c l -> c <> "("%char /\ c <> ")"%char) -> calm (of_chars l).
Proof.
  induction l as [|x l IH]; intros H; [split; reflexivity|]. destruct (H x (or_introl eq_refl)) as [H1 H2].
  destruct IH as [I1 I2]; [intros; apply H; now right|]. cbn [of_chars]. unfold calm. cbn [occurrences]. rewrite I1, I2.
  destruct (Ascii.eqb_spec x "("); [contradiction|]. destruct (Ascii.eqb_spec x ")"); [contradiction|]. auto.
Qed.
Lemma calm_take s o k : calm s -> calm (take_at s o k).
Proof.
  intros H. unfold take_at. rewrite sslice_of_chars. apply calm_chars. intros c Hc. apply in_slice in Hc.
  clear - H Hc. induction s as [|x s IH]; [easy|]. destruct H as [H1 H2]. cbn [occurrences] in *. cbn [chars In] in Hc.
  destruct Hc as [->|Hc].
  - split; intros ->; cbn in *; lia.
  - apply IH; [|exact Hc]. split; lia.
Qed.
Lemma calm_no_char s : has_char "(" s = false -> has_char ")" s = false -> calm s.
Proof.
  induction s as [|x s IH]; intros H1 H2; [split; reflexivity|]. cbn [has_char] in *.
  apply orb_false_iff in H1 as [A1 A2]. apply orb_false_iff in H2 as [B1 B2]. destruct (IH A2 B2) as [I1 I2].
  unfold calm. cbn [occurrences]. rewrite (Ascii.eqb_sym x "("), (Ascii.eqb_sym x ")"), A1, B1, I1, I2. auto.
Qed.
Lemma calm_nat n : calm (str_nat n).
Proof. apply calm_no_char; apply str_nat_no_char; reflexivity. Qed.

Ltac calm_all := repeat (apply calm_app); try (apply calm_lit; reflexivity); try apply calm_nat;
  try (apply calm_take; apply calm_lit; reflexivity).

Lemma calm_concat sep l : calm sep -> Forall calm l -> calm (join sep l).
Proof.
  intros Hs H. induction H as [|x l Hx H IH]; [split; reflexivity|]. cbn [join]. destruct l; [exact Hx|].
  repeat apply calm_app; auto.
Qed.
Lemma calm_power x k : calm x -> calm (render_power x k).
Proof. intros H. rewrite render_power_text. destruct k as [|[|k]]; cbn [power_text]; [calm_all|exact H|]. apply calm_app; [exact H|calm_all]. Qed.

Definition calm_label (l : zlab) : Prop := match l with None => True | Some (x, y, z) => calm x /\ calm y /\ calm z end.
Definition calm_labels (l : option (zlab * zlab)) : Prop := match l with None => True | Some (u, d) => calm_label u /\ calm_label d end.
Lemma calm_parts a b l : calm a -> calm b -> calm_label l -> calm (render_parts a b l).
Proof.
  intros Ha Hb. destruct l as [[[x y] z]|]; cbn [render_parts calm_label]; [|intros; calm_all]. intros (H1 & H2 & H3).
  destruct (a =? ""); repeat apply calm_app; auto; calm_all.
Qed.
Lemma calm_op name a b l : calm name -> calm a -> calm b -> calm_labels l -> calm (render_op name a b l).
Proof.
  intros Hn Ha Hb. destruct l as [[u d]|]; cbn [render_op calm_labels]; [intros [Hu Hd]|intros _];
    repeat apply calm_app; auto using calm_parts; calm_all.
Qed.
Lemma calm_left z : calm_labels (left_z_labels z).
Proof.
  unfold left_z_labels. destruct (Nat.eqb _ 0); [exact I|]. cbn [calm_labels]. 
  split; [destruct (Nat.ltb 0 (z_m z))|destruct (Nat.ltb 0 (z_n z))]; cbn [calm_label]; try exact I; repeat split; calm_all.
Qed.
Lemma calm_h h a s u : calm_labels (hz_labels h a s u).
Proof.
  unfold hz_labels. destruct (Nat.eqb _ 0); [exact I|]. destruct (Nat.ltb 0 (hz_n h)); cbn [calm_labels];
  (split; [destruct (Nat.ltb 0 (hz_m h))|]); cbn [calm_label]; try exact I; repeat split; calm_all.
Qed.
Lemma calm_right z o : calm_labels (right_z_labels z o).
Proof.
  unfold right_z_labels. destruct (Nat.eqb _ 0); [exact I|]. destruct (Nat.ltb 0 (z_n z)); cbn [calm_labels];
  (split; [destruct (Nat.ltb 0 (z_m z))|]); cbn [calm_label]; try exact I; repeat split; calm_all.
Qed.
Lemma calm_factors sep l : calm sep -> calm (join sep (map render_factor l)).
Proof.
  intros H. apply calm_concat; [exact H|]. apply Forall_forall. intros x Hx. apply in_map_iff in Hx as ([n|n] & <- & _); cbn [render_factor]; calm_all.
Qed.
Lemma calm_concat_str l : Forall calm l -> calm (concat_str l).
Proof.
  induction 1 as [|x l Hx _ IH]; [split; reflexivity|]. change (concat_str (x :: l)) with (x ++ concat_str l). now apply calm_app.
Qed.
Lemma calm_prefactor p : calm (render_hz_prefactor p).
Proof.
  unfold render_hz_prefactor. destruct (_ && _); [calm_all|]. repeat apply calm_app; try (apply calm_lit; reflexivity).
  - destruct (fst p); [calm_all|]. apply calm_factors. calm_all.
  - destruct (snd p); [calm_all|]. apply calm_concat_str. apply Forall_forall. intros x Hx.
    apply in_map_iff in Hx as ([n|n] & <- & _); cbn [render_factor]; calm_all.
Qed.

Definition calm_term (t : zlterm) : Prop :=
  calm_labels (zl_h t) /\ (match zl_left t with None => True | Some l => calm_labels l end)
  /\ (match zl_right t with None => True | Some l => calm_labels l end).
Lemma calm_render t : calm_term t -> calm (render_zlterm t).
Proof.
  intros (Hh & Hl & Hr). unfold render_zlterm.
  assert (C : calm (render_power "f" (zl_f t) ++ render_power "\bar{f}" (zl_fbar t) ++ render_hz_prefactor (zl_prefactor t)
     ++ (match zl_left t with None => "" | Some l => render_left_z l end) ++ render_hz (zl_h t)
     ++ (match zl_right t with None => "" | Some l => render_right_z l end))).
  { apply calm_app; [apply calm_power; calm_all|]. apply calm_app; [apply calm_power; calm_all|]. apply calm_app; [apply calm_prefactor|].
    apply calm_app; [destruct (zl_left t); [apply calm_op; auto; calm_all|calm_all]|].
    apply calm_app; [apply calm_op; auto; calm_all|]. destruct (zl_right t); [apply calm_op; auto; calm_all|calm_all]. }
  destruct (zl_disconnected t); [|exact C]. apply calm_app; [calm_all|]. apply calm_app; [exact C|calm_all].
Qed.

Lemma print_calm k rf t o : print_term k rf t = Ok (Some o) -> calm_term o.
Proof.
  destruct t as [[l h] [zl zr]]. destruct k; cbn [print_term second_z_term third_z_term fourth_z_term].
  - destruct zl as [z|]; [|discriminate]. destruct (f_zL_h z h); cbn [bind]; [|discriminate].
    destruct (rf && _); [discriminate|]. destruct (fbar_zL_h z h); cbn [bind]; [|discriminate]. intros [= <-].
    repeat split; cbn; auto using calm_left, calm_h.
  - destruct zr as [z|]; [|discriminate]. destruct (f_h_zR h z); cbn [bind]; [|discriminate].
    destruct (rf && _); [discriminate|]. destruct (fbar_h_zR h z); cbn [bind]; [|discriminate]. intros [= <-].
    repeat split; cbn [zl_h zl_left zl_right]; auto using calm_right, calm_h.
  - destruct zl as [z|]; [|discriminate]. destruct zr as [y|]; [|discriminate].
    destruct (f_zL_h z h); cbn [bind]; [|discriminate]. destruct (f_h_zR h y); cbn [bind]; [|discriminate].
    destruct (f_zL_zR z y); cbn [bind]; [|discriminate]. destruct (rf && _); [discriminate|].
    destruct (fbar_zL_h z h); cbn [bind]; [|discriminate]. destruct (fbar_h_zR h y); cbn [bind]; [|discriminate].
    destruct (fbar_zL_zR z y); cbn [bind]; [|discriminate]. intros [= <-].
    repeat split; cbn [zl_h zl_left zl_right]; auto using calm_right, calm_left, calm_h.
Qed.

Lemma mapM_forall {A B} (f : A -> res B) (P : B -> Prop) l os : (forall x y, In x l -> f x = Ok y -> P y) -> mapM f l = Ok os -> Forall P os.
Proof.
  revert os. induction l as [|x l IH]; intros os H E; [injection E as <-; constructor|]. cbn [mapM] in E.
  destruct (f x) as [y|] eqn:Ex; cbn [bind] in E; [|discriminate]. destruct (mapM f l) as [ys|] eqn:El; cbn [bind] in E; [|discriminate].
  injection E as <-. constructor; [apply (H x); auto; now left|]. apply IH; [|reflexivity]. intros a b Ha. apply H. now right.
Qed.

Lemma printed_calm k rf ts os : mapM (print_term k rf) ts = Ok os -> Forall calm (map render_zlterm (flat_map option_list os)).
Proof.
  intros E. assert (F : Forall (fun o => match o with None => True | Some t => calm_term t end) os).
  { eapply mapM_forall; [|exact E]. intros t [o|] _ Hp; [now apply print_calm in Hp|exact I]. }
  clear E. induction F as [|o os Ho F IH]; [constructor|]. destruct o as [t|]; cbn [flat_map option_list app map]; [|exact IH].
  constructor; [now apply calm_render|exact IH].
Qed.

(** Every "(" of a sum is closed, except for a long sum of h z. *)
Theorem parentheses k rf ts os s :
  mapM (print_term k rf) ts = Ok os -> prepare k ts rf = Ok s ->
  let n := List.length (flat_map option_list os) in
  occurrences "(" (render_zsum (ending k) s)
  = (occurrences ")" (render_zsum (ending k) s) + if Nat.leb 14 n then match k with right_only => 1 | _ => 0 end else 0)%nat.
Proof.
  intros E P n. pose proof (printed_calm _ _ _ _ E) as C.
  rewrite prepare_keep in P. unfold keep_terms in P. rewrite concatM_mapM, E in P. cbn [bind] in P. injection P as <-.
  unfold glue_z. fold n. destruct (Nat.ltb_spec n (7 * 2)) as [H|H]; cbn [render_zsum].
  - assert (Cj : calm (join " + " (map render_zlterm (flat_map option_list os)))) by (apply calm_concat; [calm_all|exact C]).
    destruct Cj as [C1 C2]. rewrite !occurrences_app, C1, C2. destruct (Nat.leb_spec 14 n); [lia|]. reflexivity.
  - assert (Cj : calm (join splitting (map (fun l => join " + " (map render_zlterm l)) (z_lines 7 (flat_map option_list os))))).
    { apply calm_concat; [calm_all|]. apply Forall_forall. intros x Hx. apply in_map_iff in Hx as (line & <- & Hl).
      apply calm_concat; [calm_all|]. rewrite Forall_forall in *. intros y Hy. apply in_map_iff in Hy as (t & <- & Ht). apply C.
      apply in_map. unfold z_lines in Hl. apply in_app_iff in Hl as [Hl|[<-|[]]].
      - apply in_map_iff in Hl as (i & <- & _). unfold PyBase.slice in Ht.
        assert (Z : In t (skipn (i * 7) (flat_map option_list os))).
        { rewrite <- (firstn_skipn ((i + 1) * 7 - i * 7) (skipn (i * 7) (flat_map option_list os))). apply in_or_app. now left. }
        rewrite <- (firstn_skipn (i * 7) (flat_map option_list os)). apply in_or_app. now right.
      - cbv zeta in Ht. destruct (Nat.eqb _ 0); [exact Ht|].
        match type of Ht with In _ (skipn ?m _) => rewrite <- (firstn_skipn m (flat_map option_list os)) end. apply in_or_app. now right. }
    destruct Cj as [C1 C2]. rewrite !occurrences_app, C1, C2. destruct (Nat.leb_spec 14 n); [|lia].
    destruct k; reflexivity.
Qed.
