(** Proofs about the numbers that the generated python of the e^T ansatz
    computes. *)
From Coq Require Import List Arith Bool Ascii String Ring_theory Ring Lia Permutation.
From Verif Require Import PyBase PyBaseFacts ModelFullCC ModelEt ModelEtPy SpecFullCCPy SpecEt SpecEtPy SpecEtLatex SpecPython SpecEtText SpecEinsum SpecFullCCValue
  SpecEtValue ProofsW ProofsStr ProofsFullCC ProofsFullCCLabels ProofsEinsum ProofsWValue ProofsFullCCValue ProofsEtPy ProofsEtBody ProofsEtText ProofsEtGen ProofsEtLatexFile ProofsEtLatex ProofsEtFile ProofsEt ProofsEtProgram ProofsPython.
Import ListNotations.
Local Open Scope nat_scope.
Local Open Scope list_scope.

(** ** numpy.einsum with any letters *)
Section General.
  Variable F : scalars.
  Variables (gs : list (list ascii)) (xs : list (array F)) (o sm : list ascii) (sz : ascii -> nat).
  Hypothesis Sh : Forall2 (fun g x => shape x = map sz g) gs xs.
  Hypothesis No : NoDup o.
  Hypothesis Io : incl o (List.concat gs).
  Hypothesis Nm : NoDup sm.
  Hypothesis Im : forall c, In c sm <-> In c (List.concat gs) /\ ~ In c o.
  Let ins := map of_chars gs.
  Let out := of_chars o.

  Lemma chars_of_of_chars l : chars_of (of_chars l) = l.
  Proof. rewrite of_chars_string. apply chars_string. Qed.
  Lemma flat_ins : flat_map chars_of ins = List.concat gs.
  Proof. unfold ins. clear. induction gs as [|g r IH]; cbn; [reflexivity|]. now rewrite chars_of_of_chars, IH. Qed.
  Lemma general_sizes c n : In (c, n) (letter_sizes F ins xs) -> n = sz c.
  Proof.
    unfold ins, letter_sizes. clear - Sh. induction Sh as [|g x gs xs E H IH]; cbn; [intros []|]. rewrite in_app_iff. intros [I|I]; [|auto].
    rewrite chars_of_of_chars, E in I. clear - I. induction g as [|d g IH]; cbn in I; [destruct I|]. destruct I as [I|I]; [now injection I as -> <-|auto].
  Qed.
  Lemma general_has c : In c (List.concat gs) -> In (c, sz c) (letter_sizes F ins xs).
  Proof.
    unfold ins, letter_sizes. clear - Sh. induction Sh as [|g x gs xs E H IH]; cbn; [intros []|]. rewrite !in_app_iff. intros [I|I]; [left|right; auto].
    rewrite chars_of_of_chars, E. clear - I. induction g as [|d g IH]; cbn; [destruct I|]. destruct I as [->|I]; [now left|right; auto].
  Qed.
  Lemma general_size c : In c (List.concat gs) -> size_of (letter_sizes F ins xs) c = sz c.
  Proof.
    intros I. apply general_has in I. unfold size_of. destruct (find _ _) as [[d n]|] eqn:E.
    - apply find_some in E as [J E]. cbn in E. apply Ascii.eqb_eq in E as ->. now apply general_sizes in J.
    - apply (find_none _ _ E) in I. cbn in I. now rewrite Ascii.eqb_refl in I.
  Qed.
  Lemma general_accepts : einsum_accepts F ins out xs.
  Proof.
    unfold einsum_accepts. repeat split.
    - unfold ins. clear - Sh. induction Sh as [|g x gs1 xs1 E H IH]; cbn [map]; [apply Forall2_nil|apply Forall2_cons; [|exact (IH H)]]. now rewrite chars_of_of_chars, E, map_length.
    - intros c a b Ia Ib. apply general_sizes in Ia, Ib. congruence.
    - unfold out. now rewrite chars_of_of_chars.
    - unfold out. rewrite chars_of_of_chars, flat_ins. exact Io.
  Qed.
  Lemma general_shape : shape (einsum_array F ins out xs) = map sz o.
  Proof.
    unfold einsum_array. cbn [shape]. unfold out. rewrite chars_of_of_chars. apply map_ext_in. intros c I. apply general_size, Io, I.
  Qed.
  Definition general_factor (rho : values) : K F := kprod F (map (fun gx => SpecEinsum.entry (snd gx) (map rho (fst gx))) (combine gs xs)).
  Lemma general_respects : respects F general_factor.
  Proof.
    intros r r' E. unfold general_factor. f_equal. apply map_ext. intros [g x]. cbn. f_equal. apply map_ext. exact E.
  Qed.
  Lemma general_entry idx : einsum_entry F ins out xs idx = sum_letters F sz sm (with_values o idx (fun _ => 0)) general_factor.
  Proof.
    unfold einsum_entry.
    assert (E : forall rho, kprod F (map (fun sx => SpecEinsum.entry (snd sx) (map rho (chars_of (fst sx)))) (combine ins xs)) = general_factor rho).
    { intros rho. unfold general_factor. f_equal. unfold ins. clear. revert xs. induction gs as [|g r IH]; intros [|x xs]; cbn; try reflexivity.
      now rewrite chars_of_of_chars, IH. }
    erewrite letters_ext by (intros r _; apply E). unfold out at 2. rewrite chars_of_of_chars.
    assert (Is : forall c, In c (summed_letters ins out) <-> In c sm).
    { intros c. unfold summed_letters. rewrite nodup_In, filter_In, flat_ins, Im. unfold out. rewrite chars_of_of_chars. apply and_iff_compat_l.
      rewrite negb_true_iff, <- not_true_iff_false, existsb_exists. split; intros H X; apply H.
      - exists c. split; [exact X|apply Ascii.eqb_refl].
      - destruct X as (d & X & Y). apply Ascii.eqb_eq in Y as ->. exact X. }
    rewrite (letters_sizes F _ sz).
    2:{ intros c I. apply general_size. apply Is, Im in I. apply I. }
    apply letters_perm; [apply general_respects|apply NoDup_nodup|]. apply NoDup_Permutation; [apply NoDup_nodup|exact Nm|exact Is].
  Qed.
End General.

(** ** The value of a call *)
Lemma with_values_kept cs is rho l : (forall c, In c l -> ~ In c cs) -> map (with_values cs is rho) l = map rho l.
Proof. intros H. apply map_ext_in. intros c I. apply with_values_other. auto. Qed.

Section Call.
  Variable F : scalars.
  Add Ring kringe : (k_ring F).
  Variables A N : nat.
  Variable args : string -> nat * nat -> array F.
  Hypothesis Ax : eT_axes F A N args.

  Lemma kprod_app l l' : kprod F (l ++ l') = kmul F (kprod F l) (kprod F l').
  Proof. induction l as [|x l IH]; cbn [app]; unfold kprod; cbn [fold_right]; fold (kprod F); [ring|]. unfold kprod in IH. rewrite IH. ring. Qed.
  Lemma kprod_cons x l : kprod F (x :: l) = kmul F x (kprod F l).
  Proof. reflexivity. Qed.

  Variables (s : side) (p : nat) (k : pairs).
  Variables tz th hz eh ez : list ascii.
  Hypothesis L1 : List.length tz = k_zt k.
  Hypothesis L2 : List.length th = k_ht k.
  Hypothesis L3 : List.length hz = k_zh k.
  Hypothesis L4 : List.length eh = k_hp k.
  Hypothesis L5 : List.length ez = k_zp k.
  Hypothesis Nd : NoDup (electronic s ++ tz ++ th ++ hz ++ eh ++ ez).
  Hypothesis Dn : s = LHS -> k_down k = 0.
  Hypothesis Hp : k_hp k + k_zp k = p.

  Let ts := map (fun x => [x]) (tz ++ th).
  Definition h_gs : list (list ascii) :=
    match s with
    | RHS => ["a" :: "c" :: th ++ hz ++ eh]%char
    | LHS => if Nat.eqb (k_up k) 0 then [] else [th ++ hz ++ eh]
    end.
  Definition h_xs : list (array F) :=
    match s with
    | RHS => [args "h_args"%string (k_up k, k_down k)]
    | LHS => if Nat.eqb (k_up k) 0 then [] else [args "dT"%string (k_up k, 0)]
    end.
  Definition z_x : array F :=
    match s with
    | RHS => args "z_args"%string (k_z k, 0)
    | LHS => if Nat.eqb (k_up k) 0 then args "dz_args"%string (k_z k, 0) else args "z_args"%string (k_z k, 0)
    end.
  Definition t_x : array F := args (fst (t_of_side s)) (snd (t_of_side s)).
  Definition call_gs := ts ++ h_gs ++ ["c" :: tz ++ hz ++ ez]%char.
  Definition call_xs := map (fun _ => t_x) (tz ++ th) ++ h_xs ++ [z_x].
  Definition call_out := result_letter s :: eh ++ ez.
  Definition states : list ascii := match s with RHS => ["c"%char] | LHS => [] end.
  Definition call_sm := (tz ++ th ++ hz) ++ states.
  Definition call_sz (c : ascii) : nat := if existsb (Ascii.eqb c) (electronic s) then A else N.

  Lemma side_cases : s = LHS \/ s = RHS.
  Proof. destruct s; auto. Qed.
  Lemma sz_modes c : In c (tz ++ th ++ hz ++ eh ++ ez) -> call_sz c = N.
  Proof.
    intros I. unfold call_sz. destruct (existsb _ _) eqn:E; [|reflexivity]. apply existsb_exists in E as (d & J & E). apply Ascii.eqb_eq in E as <-.
    destruct (nodup_app_disjoint _ _ c Nd J I).
  Qed.
  Lemma sz_state c : In c (electronic s) -> call_sz c = A.
  Proof.
    intros I. unfold call_sz. replace (existsb _ _) with true; [reflexivity|]. symmetry. apply existsb_exists. exists c. split; [exact I|apply Ascii.eqb_refl].
  Qed.
  Lemma sz_all l : (forall c, In c l -> In c (tz ++ th ++ hz ++ eh ++ ez)) -> map call_sz l = repeat N (List.length l).
  Proof. intros H. induction l as [|c l IH]; cbn; [reflexivity|]. rewrite (sz_modes c), IH; [reflexivity| |apply H; now left]. intros d I. apply H. now right. Qed.
  Ltac inm := intros ? ?; rewrite ?in_app_iff in *; tauto.

  Lemma call_shapes : Forall2 (fun g x => shape x = map call_sz g) call_gs call_xs.
  Proof.
    pose proof Ax as (Ah & Az & At & Atc & Ad). unfold call_gs, call_xs. apply Forall2_app; [|apply Forall2_app; [|constructor; [|constructor]]].
    - unfold ts. assert (H : forall l, (forall c, In c l -> In c (tz ++ th ++ hz ++ eh ++ ez)) -> Forall2 (fun g x => shape x = map call_sz g) (map (fun x => [x]) l) (map (fun _ => t_x) l)).
      { induction l as [|c l IH]; intros H; cbn; [constructor|constructor; [|apply IH; intros d I; apply H; now right]].
        cbn. rewrite sz_modes by (apply H; now left). unfold t_x. destruct side_cases as [-> | ->]; [exact Atc|exact At]. }
      apply H. inm.
    - assert (Hm : map call_sz (th ++ hz ++ eh) = repeat N (k_up k + k_down k)).
      { rewrite sz_all by inm. rewrite !app_length, L2, L3, L4. unfold k_up, k_down. f_equal. lia. }
      assert (Hs : forall c, In c (electronic s) -> call_sz c = A) by exact sz_state.
      unfold h_gs, h_xs. destruct side_cases as [Es|Es].
      + rewrite Es. destruct (Nat.eqb_spec (k_up k) 0) as [E|E]; [constructor|constructor; [|constructor]]. rewrite Ad, Hm, (Dn Es). f_equal. lia.
      + pose proof (Hs "a"%char) as Ha. pose proof (Hs "c"%char) as Hc. rewrite Es in Ha, Hc. rewrite Es. constructor; [|constructor]. cbn [map]. rewrite Ah, Hm, Ha, Hc by (cbn; auto). reflexivity.
    - pose proof (sz_state "c"%char) as Hc. assert (Hm : map call_sz (tz ++ hz ++ ez) = repeat N (k_z k)).
      { rewrite sz_all by inm. rewrite !app_length, L1, L3, L5. unfold k_z. f_equal. lia. }
      cbn [map]. rewrite Hm. unfold z_x. destruct side_cases as [Es|Es]; rewrite Es in Hc; rewrite Es, Hc by (cbn; auto).
      + destruct (Nat.eqb _ _); apply Az.
      + apply Az.
  Qed.

  Lemma nodup_modes : NoDup (tz ++ th ++ hz ++ eh ++ ez).
  Proof. exact (NoDup_app_r _ _ Nd). Qed.
  Lemma out_nodup : NoDup call_out.
  Proof.
    unfold call_out. constructor.
    - intros I. apply (nodup_app_disjoint _ _ (result_letter s) Nd); [destruct s; cbn; auto|]. rewrite ?in_app_iff in *. tauto.
    - pose proof nodup_modes as M. rewrite !app_assoc in M. rewrite <- (app_assoc _ eh ez) in M. exact (NoDup_app_r _ _ M).
  Qed.
  Lemma h_gs_in c : In c (List.concat h_gs) -> In c (electronic s ++ th ++ hz ++ eh).
  Proof.
    unfold h_gs. destruct s; [destruct (Nat.eqb _ _)|]; cbn; rewrite ?app_nil_r; tauto.
  Qed.
  Lemma ts_concat : List.concat ts = tz ++ th.
  Proof. unfold ts. induction (tz ++ th) as [|c l IH]; cbn; congruence. Qed.
  Lemma gs_concat : List.concat call_gs = (tz ++ th) ++ List.concat h_gs ++ "c"%char :: tz ++ hz ++ ez.
  Proof. unfold call_gs. rewrite !concat_app, ts_concat. cbn [List.concat]. now rewrite app_nil_r. Qed.
  Lemma eh_in c : In c eh -> In c (List.concat h_gs).
  Proof.
    intros I. unfold h_gs. destruct s; [destruct (Nat.eqb_spec (k_up k) 0) as [E|E]|]; cbn; rewrite ?app_nil_r, ?in_app_iff; auto.
    unfold k_up in E. destruct eh; [destruct I|]. cbn in L4. lia.
  Qed.
  Lemma out_in : incl call_out (List.concat call_gs).
  Proof.
    intros c. rewrite gs_concat. unfold call_out. cbn [In]. rewrite !in_app_iff. cbn [In]. rewrite !in_app_iff. intros [<-|[I|I]].
    - destruct side_cases as [Es|Es]; [rewrite Es; now right; right; left|]. right. left. unfold h_gs. rewrite Es. cbn. auto.
    - right. left. now apply eh_in.
    - tauto.
  Qed.
  Lemma sm_nodup : NoDup call_sm.
  Proof.
    unfold call_sm. pose proof nodup_modes as M. rewrite (app_assoc th), (app_assoc tz) in M. apply NoDup_app_l in M.
    apply NoDup_app_intro; [exact M|unfold states; destruct s; repeat constructor; intros []|].
    intros c I J. apply (nodup_app_disjoint _ _ c Nd); [unfold states in J; destruct s; [destruct J|destruct J as [<-|[]]; cbn; auto]|].
    rewrite ?in_app_iff in *. tauto.
  Qed.
  Lemma sm_in c : In c call_sm <-> In c (List.concat call_gs) /\ ~ In c call_out.
  Proof.
    assert (D1 : forall c, In c (tz ++ th ++ hz) -> ~ In c (eh ++ ez)).
    { intros d I. pose proof nodup_modes as M. rewrite (app_assoc th), (app_assoc tz) in M. exact (nodup_app_disjoint _ _ d M I). }
    assert (D2 : forall c, In c (electronic s) -> ~ In c (tz ++ th ++ hz ++ eh ++ ez)) by (intros d I; exact (nodup_app_disjoint _ _ d Nd I)).
    assert (Rc : In (result_letter s) (electronic s)) by (destruct s; cbn; auto).
    assert (D3 : forall c, In c states -> In c (electronic s) /\ c <> result_letter s).
    { unfold states. destruct s; cbn; [tauto|]. intros d [<-|[]]. split; [auto|discriminate]. }
    assert (D4 : forall c, In c (electronic s) -> c = result_letter s \/ In c states) by (unfold states; destruct s; cbn; intros d; tauto || (intros [<-|[<-|[]]]; auto) || (intros [<-|[]]; auto)).
    rewrite gs_concat. unfold call_sm, call_out. rewrite in_app_iff. cbn [In]. split.
    - intros [I|I].
      + split.
        * rewrite !in_app_iff in *. cbn [In]. rewrite !in_app_iff. tauto.
        * intros [<-|J]; [|now apply (D1 c)]. apply (D2 _ Rc). rewrite !in_app_iff in *. tauto.
      + destruct (D3 c I) as [E1 E2]. split.
        * unfold states in I. destruct s; [destruct I|]. destruct I as [<-|[]]. rewrite !in_app_iff. right. right. now left.
        * intros [E|J]; [congruence|]. apply (D2 c E1). rewrite !in_app_iff in *. tauto.
    - rewrite !in_app_iff. cbn [In]. rewrite !in_app_iff. intros [I J].
      assert (X : In c (electronic s) \/ In c tz \/ In c th \/ In c hz \/ In c eh \/ In c ez).
      { destruct I as [I|[I|[I|I]]]; [tauto| | |tauto].
        - apply h_gs_in in I. rewrite !in_app_iff in I. tauto.
        - left. subst c. destruct s; cbn; auto. }
      destruct X as [X|X]; [|tauto]. destruct (D4 c X) as [->|Y]; [destruct J; now left|tauto].
  Qed.

  Lemma call_accepts : einsum_accepts F (map of_chars call_gs) (of_chars call_out) call_xs.
  Proof. apply (general_accepts F call_gs call_xs call_out call_sz call_shapes out_nodup out_in). Qed.
  Lemma call_shape : shape (einsum_array F (map of_chars call_gs) (of_chars call_out) call_xs) = A :: repeat N p.
  Proof.
    rewrite (general_shape F call_gs call_xs call_out call_sz call_shapes out_in). unfold call_out. cbn [map].
    rewrite sz_state by (destruct s; cbn; auto). rewrite sz_all by (intros c; rewrite !in_app_iff; tauto). rewrite app_length, L4, L5, Hp. reflexivity.
  Qed.

  Lemma t_factor rho (l : list ascii) :
    kprod F (map (fun gx => SpecEinsum.entry (snd gx) (map rho (fst gx))) (combine (map (fun x => [x]) l) (map (fun _ => t_x) l))) = t_product F args s (map rho l).
  Proof.
    unfold t_product. rewrite map_map. f_equal. induction l as [|c l IH]; [reflexivity|]. cbn [map combine fst snd]. now rewrite IH.
  Qed.
  Lemma t_product_app l l' : t_product F args s (l ++ l') = kmul F (t_product F args s l) (t_product F args s l').
  Proof. unfold t_product. now rewrite map_app, kprod_app. Qed.

  Definition h_factor (rho : values) : K F :=
    kprod F (map (fun gx => SpecEinsum.entry (snd gx) (map rho (fst gx))) (combine h_gs h_xs)).
  Lemma factor_is rho : general_factor F call_gs call_xs rho =
    kmul F (kmul F (t_product F args s (map rho tz)) (t_product F args s (map rho th))) (kmul F (h_factor rho) (SpecEinsum.entry z_x (rho "c"%char :: map rho (tz ++ hz ++ ez)))).
  Proof.
    unfold general_factor, call_gs, call_xs, ts.
    assert (Cb : forall (X Y : Type) (a a' : list X) (b b' : list Y), List.length a = List.length b -> combine (a ++ a') (b ++ b') = combine a b ++ combine a' b').
    { clear. induction a as [|x a IH]; intros a' [|y b] b' L; cbn in *; try lia; [reflexivity|]. rewrite IH by lia. reflexivity. }
    rewrite !Cb by (rewrite ?map_length; reflexivity || (unfold h_gs, h_xs; destruct s; [destruct (Nat.eqb _ _)|]; reflexivity)).
    rewrite <- t_product_app, <- map_app, <- (t_factor rho (tz ++ th)). generalize (combine (map (fun x => [x]) (tz ++ th)) (map (fun _ => t_x) (tz ++ th))). intros u.
    rewrite !map_app, !kprod_app.
    cbn [combine map fst snd]. rewrite kprod_cons. unfold h_factor. change (kprod F []) with (kone F). rewrite !map_app. ring.
  Qed.

  Lemma call_entry idx a is : idx = a :: is -> List.length is = p ->
    einsum_entry F (map of_chars call_gs) (of_chars call_out) call_xs idx = paired_value F A N args s k is a.
  Proof.
    intros -> Li. rewrite (general_entry F call_gs call_xs call_out call_sm call_sz call_shapes sm_nodup sm_in). unfold call_sm. rewrite letters_app.
    set (g := fun r => sum_letters F call_sz states r (general_factor F call_gs call_xs)).
    assert (Rg : respects F g) by (apply letters_respects, general_respects).
    assert (Eg : forall r, g r = sum_letters F call_sz states r (general_factor F call_gs call_xs)) by reflexivity. clearbody g.
    rewrite (letters_sizes F call_sz (fun _ => N)) by (intros c I; apply sz_modes; rewrite !in_app_iff in *; tauto).
    rewrite !letters_app. pose proof nodup_modes as M.
    pose proof (NoDup_app_l _ _ M) as N1. pose proof (NoDup_app_r _ _ M) as M1. pose proof (NoDup_app_l _ _ M1) as N2. pose proof (NoDup_app_r _ _ M1) as M2.
    pose proof (NoDup_app_l _ _ M2) as N3.
    rewrite letters_modes; [|exact N1|exact (letters_respects F (fun _ => N) (th ++ hz) _ Rg)]. rewrite L1. unfold paired_value. apply sum_modes_ext. intros vz Lz.
    rewrite letters_app, letters_modes; [|exact N2|exact (letters_respects F (fun _ => N) hz _ Rg)]. rewrite L2. apply sum_modes_ext. intros vh Lh.
    rewrite letters_modes by assumption. rewrite L3. apply sum_modes_ext. intros vp Lp.
    set (r0 := with_values call_out (a :: is) (fun _ => 0)). set (r1 := with_values tz vz r0). set (r2 := with_values th vh r1). set (rho := with_values hz vp r2).
    assert (Dj : forall c, In c tz -> ~ In c th /\ ~ In c hz).
    { intros c I. pose proof (nodup_app_disjoint _ _ c M I) as X. rewrite !in_app_iff in X. tauto. }
    assert (Dj2 : forall c, In c th -> ~ In c hz).
    { intros c I. pose proof (nodup_app_disjoint _ _ c M1 I) as X. rewrite !in_app_iff in X. tauto. }
    assert (Do : forall c, In c call_out -> ~ In c tz /\ ~ In c th /\ ~ In c hz).
    { intros c I. assert (X : ~ In c call_sm) by (intros X; apply sm_in in X as [_ X]; contradiction). unfold call_sm in X. rewrite !in_app_iff in X. tauto. }
    assert (Ez : map rho tz = vz).
    { unfold rho, r2. rewrite !with_values_kept by (intros c I; apply Dj, I). apply with_values_map; [exact N1|lia]. }
    assert (Eh : map rho th = vh).
    { unfold rho. rewrite !with_values_kept by (intros c I; now apply Dj2). apply with_values_map; [exact N2|lia]. }
    assert (Ep : map rho hz = vp) by (apply with_values_map; [exact N3|lia]).
    assert (Eo : map rho call_out = a :: is).
    { unfold rho, r2, r1. rewrite !with_values_kept by (intros c I; apply Do, I). apply with_values_map; [exact out_nodup|].
      unfold call_out. cbn. rewrite app_length. lia. }
    assert (Er : forall c, In c (electronic s) -> ~ In c (tz ++ th ++ hz ++ eh ++ ez)) by (intros d I; exact (nodup_app_disjoint _ _ d Nd I)).
    clearbody rho. unfold call_out in Eo. cbn [map] in Eo. injection Eo as Ea Eo. rewrite map_app in Eo.
    assert (E1 : map rho eh = firstn (k_hp k) is).
    { rewrite <- Eo, firstn_app, map_length, L4, Nat.sub_diag, firstn_O, app_nil_r. rewrite <- L4, <- (map_length rho). now rewrite firstn_all. }
    assert (E2 : map rho ez = skipn (k_hp k) is).
    { rewrite <- Eo, skipn_app, map_length, L4, Nat.sub_diag. rewrite <- L4, <- (map_length rho), skipn_all. reflexivity. }
    rewrite Eg. unfold states, h_on_z. destruct side_cases as [Es|Es]; rewrite Es in Ea, Er |- *; cbn [sum_letters].
    - rewrite factor_is. rewrite Ez, Eh. unfold h_factor, h_gs, h_xs, z_x. rewrite Es. f_equal. rewrite !map_app, Ez, Ep, E2.
      cbn [result_letter] in Ea. rewrite Ea.
      destruct (Nat.eqb (k_up k) 0); cbn [combine map fst snd]; rewrite ?kprod_cons; change (kprod F []) with (kone F); [ring|].
      rewrite !map_app, Eh, Ep, E1. ring.
    - rewrite (sz_state "c"%char) by (rewrite Es; cbn; auto).
      unfold sum_below. rewrite <- (ksum_scale F _ (kmul F (t_product F args RHS vz) (t_product F args RHS vh))). apply ksum_ext. intros c _.
      rewrite factor_is. unfold h_factor, h_gs, h_xs, z_x. rewrite Es.
      assert (Kp : forall l, (forall d, In d l -> In d (tz ++ th ++ hz ++ eh ++ ez)) -> map (with_value rho "c"%char c) l = map rho l).
      { intros l H. apply map_ext_in. intros d I. apply with_value_other. intros ->. apply H in I. apply (Er "c"%char); [cbn; auto|exact I]. }
      rewrite !Kp by (intros d; rewrite !in_app_iff; tauto). rewrite !map_app, Ez, Eh, Ep, E2. cbn [combine map fst snd].
      rewrite ?kprod_cons. change (kprod F []) with (kone F). rewrite with_value_same. cbn [result_letter] in Ea.
      rewrite (with_value_other rho "c"%char c "a"%char) by discriminate. rewrite Ea. rewrite Kp by (intros d; rewrite !in_app_iff; tauto).
      rewrite !map_app, Eh, Ep, E1. ring.
  Qed.
End Call.

Lemma realised_value F A N args (Ax : eT_axes F A N args) s P q m n k c call :
  (s = LHS -> n = 0) -> complete P q m n k c -> realises_eT s m n k c call ->
  eT_call_fits F A N args P call /\
  forall a is, List.length is = P -> eT_call_value F args call (a :: is) = paired_value F A N args s (pairs_of c) is a.
Proof.
  intros Ln C (tz & th & hz & eh & ez & L1 & L2 & L3 & L4 & L5 & Nd & E1 & E2 & E3).
  pose proof (counts _ _ _ _ _ _ C) as (C1 & C2 & C3 & C4).
  set (kp := pairs_of c).
  assert (Up : k_up kp = m) by (unfold kp, k_up; cbn; lia). assert (Dw : k_down kp = n) by (unfold kp, k_down; cbn; lia).
  assert (Kz : k_z kp = k) by (unfold kp, k_z; cbn; lia).
  assert (G1 : c_inputs call = map of_chars (call_gs s kp tz th hz eh ez)).
  { rewrite E1. unfold call_gs. rewrite !map_app. f_equal; [now rewrite !map_map|]. f_equal. unfold h_of_side, h_gs. rewrite Up. destruct s; [|reflexivity].
    specialize (Ln eq_refl). rewrite Ln. destruct m; reflexivity. }
  assert (G2 : eT_operands F args call = call_xs F args s kp tz th).
  { unfold eT_operands. rewrite E2. unfold call_xs. rewrite !map_app, !map_map. f_equal. f_equal.
    - unfold h_of_side, h_xs. rewrite Up, Dw. destruct s; [|reflexivity]. specialize (Ln eq_refl). rewrite Ln. destruct m; reflexivity.
    - cbn [map]. f_equal. unfold z_of_side, z_x. rewrite Up, Kz. destruct s; [|reflexivity]. specialize (Ln eq_refl). rewrite Ln. destruct m; reflexivity. }
  assert (D' : s = LHS -> k_down kp = 0) by (rewrite Dw; exact Ln).
  assert (P' : k_hp kp + k_zp kp = P) by (unfold kp; cbn; lia).
  change (c_output call = of_chars (call_out s eh ez)) in E3.
  unfold eT_call_fits, eT_call_value. rewrite G1, G2, E3. split; [split|].
  - apply (call_accepts F A N args Ax s P kp); assumption.
  - apply (call_shape F A N args Ax s P kp); assumption.
  - intros a is Li. apply (call_entry F A N args Ax s P kp); solve [assumption|reflexivity].
Qed.

(** ** The sum over the kinds of contractions *)
Section Kinds.
  Variables (s : side) (P : nat) (g : nat -> nat -> nat -> nat -> Prop) (Q : list pairs) (l : list (nat * nat * ecall)).
  Hypothesis Nq : NoDup Q.
  Hypothesis Hq : forall k, In k Q <-> k_zp k + k_hp k = P /\ g (k_t k) (k_up k) (k_down k) (k_z k).
  Hypothesis Hn : forall q m n k, g q m n k -> s = LHS -> n = 0.
  Hypothesis Ex : exactly_adds s (fun q m n k c => g q m n k /\ complete P q m n k c) l.

  Definition adds_kind (k : pairs) (pc : nat * nat * ecall) : Prop :=
    fst pc = (1, pair_permutations (contraction_for k)) /\ realises_eT s (k_up k) (k_down k) (k_z k) (contraction_for k) (snd pc).

  Lemma same_realises m n k c d call : pairs_of c = pairs_of d -> realises_eT s m n k c call -> realises_eT s m n k d call.
  Proof.
    unfold pairs_of. intros E. injection E as E1 E2 E3 E4 E5. unfold realises_eT. now rewrite E1, E2, E3, E4, E5.
  Qed.
  Lemma same_permutations c d : pairs_of c = pairs_of d -> pair_permutations c = pair_permutations d.
  Proof. unfold pairs_of. intros E. injection E as E1 E2 E3 E4 E5. unfold pair_permutations. now rewrite E1, E2, E3, E4, E5. Qed.

  Lemma in_kinds q m n k c : g q m n k -> complete P q m n k c ->
    let kp := pairs_of c in In kp Q /\ k_t kp = q /\ k_up kp = m /\ k_down kp = n /\ k_z kp = k.
  Proof.
    intros G C kp. pose proof (sums _ _ _ _ _ _ C) as S1. pose proof (counts _ _ _ _ _ _ C) as (C1 & C2 & C3 & C4).
    assert (T : k_t kp = q) by (unfold kp, k_t; cbn; lia). assert (Up : k_up kp = m) by (unfold kp, k_up; cbn; lia).
    assert (Dw : k_down kp = n) by (unfold kp, k_down; cbn; lia). assert (Kz : k_z kp = k) by (unfold kp, k_z; cbn; lia).
    repeat split; auto. apply Hq. rewrite T, Up, Dw, Kz. split; [unfold kp; cbn; lia|exact G].
  Qed.

  Lemma kinds_of : exists ks, Forall2 adds_kind ks l /\ Forall (fun k => In k Q) ks.
  Proof.
    destruct Ex as [X _]. clear - X Hq. induction l as [|[p call] r IH]; [exists []; split; constructor|].
    destruct IH as (ks & I1 & I2); [intros; apply X; now right|].
    destruct (X p call (or_introl eq_refl)) as (q & m & n & k & c & (G & C) & R & Ep).
    destruct (in_kinds _ _ _ _ _ G C) as (I & T & Up & Dw & Kz). exists (pairs_of c :: ks). split; constructor; auto.
    split; cbn [fst snd].
    - rewrite Ep. f_equal. apply same_permutations. now rewrite contraction_for_pairs.
    - rewrite Up, Dw, Kz. apply (same_realises _ _ _ c); [now rewrite contraction_for_pairs|exact R].
  Qed.

  Lemma unique_kind k k' pc : In k Q -> In k' Q -> adds_kind k pc -> adds_kind k' pc -> k = k'.
  Proof.
    intros I I' [_ R] [_ R']. apply Hq in I as [I _]. apply Hq in I' as [I' _].
    destruct (realised_class _ _ _ _ _ _ _ _ _ _ R R') as (Em & En & Ek & Es & Ez).
    cbn [contraction_for e_zt e_ht e_zp] in Es, Ez. unfold k_up, k_down, k_z in *.
    destruct k as [a b c d e], k' as [a' b' c' d' e']. cbn in *. f_equal; lia.
  Qed.

  Lemma kinds_perm ks : Forall2 adds_kind ks l -> Forall (fun k => In k Q) ks -> Permutation ks Q.
  Proof.
    intros H2 H1. destruct Ex as [_ X]. rewrite Forall_forall in H1. apply NoDup_Permutation; [|exact Nq|].
    - apply NoDup_nth_error. intros i j Li E.
      destruct (nth_error ks i) as [k|] eqn:Ei; [|apply nth_error_None in Ei; lia]. symmetry in E.
      assert (Ik : In k Q) by (apply H1; eapply nth_error_In; exact Ei).
      pose proof (proj1 (Hq k) Ik) as [Zp G]. pose proof (contraction_for_complete k) as C. rewrite Zp in C.
      destruct (X _ _ _ _ _ (conj G C)) as (l1 & p & call & l2 & El & _ & _ & U).
      assert (Nth : forall i, nth_error ks i = Some k -> i = List.length l1).
      { intros x Ex'. destruct (Nat.eq_dec x (List.length l1)) as [|D]; [assumption|exfalso].
        assert (exists pc, nth_error l x = Some pc /\ adds_kind k pc) as ([p' call'] & Nx & [_ R]).
        { clear - H2 Ex'. revert x Ex'. induction H2 as [|a b ks l Hab H IH]; intros [|x] Ex'; cbn in *; try discriminate; eauto. injection Ex' as ->. eauto. }
        cbn [snd] in R. apply (U p' call'); [|exact R]. rewrite El in Nx. apply in_or_app.
        destruct (Nat.lt_ge_cases x (List.length l1)) as [Lx|Lx].
        - left. rewrite nth_error_app1 in Nx by exact Lx. eapply nth_error_In, Nx.
        - right. rewrite nth_error_app2 in Nx by exact Lx. destruct (x - List.length l1) as [|y] eqn:Ey; [lia|]. cbn in Nx. eapply nth_error_In, Nx. }
      rewrite (Nth i Ei), (Nth j E). reflexivity.
    - intros k. split; [apply H1|]. intros Ik.
      pose proof (proj1 (Hq k) Ik) as [Zp G]. pose proof (contraction_for_complete k) as C. rewrite Zp in C.
      destruct (X _ _ _ _ _ (conj G C)) as (l1 & p & call & l2 & El & R & Ep & _).
      assert (exists k', In k' ks /\ adds_kind k' (p, call)) as (k' & Ik' & Hk').
      { rewrite El in H2. apply Forall2_app_inv_r in H2 as (k1 & k2 & _ & H2 & ->). inversion H2 as [|a b k3 l3 Hab H3]; subst. exists a. split; [apply in_or_app; right; now left|exact Hab]. }
      rewrite (unique_kind k k' (p, call)); [exact Ik'|exact Ik|now apply H1| |exact Hk']. split; [exact Ep|exact R].
  Qed.

  Variable F : scalars.
  Add Ring kringk : (k_ring F).
  Variables A N : nat.
  Variable args : string -> nat * nat -> array F.
  Hypothesis Ax : eT_axes F A N args.

  Lemma kind_value k pc : In k Q -> adds_kind k pc -> eT_call_fits F A N args P (snd pc) /\
    forall a is, List.length is = P ->
      kmul F (kmul F (of_nat F (fst (fst pc))) (one_over F (snd (fst pc)))) (eT_call_value F args (snd pc) (a :: is)) = weighted_value F A N args s k is a.
  Proof.
    intros I [E R]. apply Hq in I as [Zp G]. pose proof (contraction_for_complete k) as C. rewrite Zp in C.
    destruct (realised_value F A N args Ax s P _ _ _ _ _ _ (Hn _ _ _ _ G) C R) as [Ft V]. split; [exact Ft|].
    intros a is Li. rewrite (V a is Li), contraction_for_pairs, E. cbn [fst snd]. unfold weighted_value.
    replace (pair_permutations (contraction_for k)) with (fact (k_zp k) * fact (k_zh k) * fact (k_zt k) * fact (k_hp k) * fact (k_ht k)).
    - assert (O : of_nat F 1 = kone F) by (unfold of_nat; cbn; ring). rewrite O. ring.
    - unfold pair_permutations, contraction_for. cbn [e_zp e_zh e_zt e_hp e_ht]. rewrite !list_sum_app, !sum_repeat0, !sum_repeat1, Nat.add_0_r. reflexivity.
  Qed.

  Lemma kinds_value : Forall (fun pc => eT_call_fits F A N args P (snd pc)) l /\
    forall a is, List.length is = P -> eT_added F args l (a :: is) = ksum F (map (fun k => weighted_value F A N args s k is a) Q).
  Proof.
    destruct kinds_of as (ks & H2 & H1). pose proof (kinds_perm ks H2 H1) as Pm. split.
    - clear Pm Ex. revert H1. induction H2 as [|k pc ks r Hk H2 IH]; intros H1; [constructor|]. inversion H1; subst. constructor; [now apply (kind_value k pc)|auto].
    - intros a is Li. rewrite <- (ksum_perm F _ _ (Permutation_map (fun k => weighted_value F A N args s k is a) Pm)). clear Pm Ex. unfold eT_added.
      revert H1. induction H2 as [|k pc ks r Hk H2 IH]; intros H1; [reflexivity|]. cbn [map]. rewrite !ksum_cons. pose proof (Forall_inv H1) as Ia. pose proof (Forall_inv_tail H1) as Ib.
      rewrite (IH Ib). f_equal. now apply kind_value.
  Qed.
End Kinds.

(** ** The kinds of contractions of a function *)
Lemma in_all_paired H p q0 q1 k : In k (all_paired H p q0 q1) <-> k_zp k + k_hp k = p /\ q0 <= k_t k <= q1 /\ k_down k <= H.
Proof.
  unfold all_paired. rewrite in_flat_map. split.
  - intros (q & I & J). apply in_seq in I. apply in_flat_map in J as (x & J1 & J). apply in_seq in J1. apply in_flat_map in J as (n & J2 & J). apply in_seq in J2.
    apply in_map_iff in J as (i & <- & J). apply in_seq in J. unfold paired, k_t, k_down. cbn. lia.
  - intros (E1 & E2 & E3). destruct k as [zp zh zt hp ht]. unfold k_t, k_down in E2, E3. cbn [k_zp k_zh k_zt k_hp k_ht] in E1, E2, E3.
    exists (zt + ht). split; [apply in_seq; lia|]. apply in_flat_map. exists zt. split; [apply in_seq; lia|].
    apply in_flat_map. exists zh. split; [apply in_seq; lia|]. apply in_map_iff. exists hp. split; [|apply in_seq; lia]. unfold paired. f_equal; lia.
Qed.
Lemma nodup_all_paired H p q0 q1 : NoDup (all_paired H p q0 q1).
Proof.
  unfold all_paired. apply NoDup_flat_map; [apply seq_NoDup| |].
  2:{ intros q q' k _ _ J J'. apply in_flat_map in J as (x & J1 & J). apply in_seq in J1. apply in_flat_map in J as (n & _ & J).
      apply in_map_iff in J as (i & <- & J). apply in_flat_map in J' as (x' & J1' & J'). apply in_seq in J1'. apply in_flat_map in J' as (n' & _ & J').
      apply in_map_iff in J' as (i' & E & J'). unfold paired in E. injection E as E1 E2 E3 E4 E5. lia. }
  intros q _. apply NoDup_flat_map; [apply seq_NoDup| |].
  2:{ intros x x' k _ _ J J'. apply in_flat_map in J as (n & _ & J). apply in_map_iff in J as (i & <- & J). apply in_flat_map in J' as (n' & _ & J').
      apply in_map_iff in J' as (i' & E & J'). unfold paired in E. now injection E. }
  intros x _. apply NoDup_flat_map; [apply seq_NoDup| |].
  2:{ intros n n' k _ _ J J'. apply in_map_iff in J as (i & <- & J). apply in_map_iff in J' as (i' & E & J'). unfold paired in E. now injection E. }
  intros n _. apply FinFun.Injective_map_NoDup; [|apply seq_NoDup]. intros i i' E. unfold paired in E. now injection E.
Qed.
Lemma selected_filter F A N args s chosen ks is a :
  selected_value F A N args s chosen ks is a = ksum F (map (fun k => weighted_value F A N args s k is a) (filter chosen ks)).
Proof.
  unfold selected_value. rewrite (ksum_filter F _ chosen).
  - apply ksum_ext. intros k I. apply filter_In in I as [_ ->]. reflexivity.
  - intros k _ ->. reflexivity.
Qed.

Lemma has_operators_iff s H CC k : has_operators s H CC k = true <-> h_of_ansatz s H (k_up k) (k_down k) /\ k_z k <= CC.
Proof.
  unfold has_operators, has_h, h_of_ansatz, allowed_on. rewrite !andb_true_iff, orb_true_iff, !Nat.leb_le, Nat.ltb_lt, Nat.eqb_eq.
  destruct s; rewrite ?Nat.eqb_eq; intuition congruence.
Qed.
Lemma allowed_iff flag k : allowed flag k = true <-> enabled flag (k_t k) (k_up k) (k_down k) (k_z k).
Proof. unfold allowed, enabled. rewrite !andb_true_iff, !orb_true_iff, !Nat.eqb_eq. tauto. Qed.

Lemma function_value s ground prog head p wanted ks (good : nat -> nat -> nat -> nat -> Prop) :
  NoDup ks ->
  (forall k flag, In k (filter (fun k => wanted k && allowed flag k) ks) <-> k_zp k + k_hp k = p /\ good (k_t k) (k_up k) (k_down k) (k_z k) /\ enabled flag (k_t k) (k_up k) (k_down k) (k_z k)) ->
  (forall q m n k, good q m n k -> s = LHS -> n = 0) ->
  defines_terms s ground prog head (fun q m n k c => good q m n k /\ complete p q m n k c) ->
  computes_eT s ground prog head p wanted ks.
Proof.
  intros Nk Hk Hn (doc & ours & others & I & _ & Ad & Eo). exists doc, ours, others. split; [exact I|]. split; [intros ->; exact Eo|].
  intros flag. destruct (Ad flag) as (l & X & Y). exists l. split; [exact X|]. intros F A N args Ax.
  pose proof (kinds_value s p (fun q m n k => good q m n k /\ enabled flag q m n k) (filter (fun k => wanted k && allowed flag k) ks) l) as V.
  destruct V with (F := F) (A := A) (N := N) (args := args) as [V1 V2].
  - now apply NoDup_filter.
  - intros k. apply Hk.
  - intros q m n k [G _]. now apply Hn with (1 := G).
  - refine (exactly_adds_iff _ _ _ _ _ Y). intros q m n k c. cbv beta. tauto.
  - exact Ax.
  - split; [exact V1|]. intros a is Li. rewrite selected_filter. now apply V2.
Qed.

Lemma defines_iff s ground prog head good good' : (forall q m n k c, good q m n k c <-> good' q m n k c) ->
  defines_terms s ground prog head good -> defines_terms s ground prog head good'.
Proof.
  intros E (doc & ours & others & I & D & Ad & Eo). exists doc, ours, others. split; [exact I|]. split; [exact D|]. split; [|exact Eo].
  intros flag. destruct (Ad flag) as (l & X & Y). exists l. split; [exact X|]. refine (exactly_adds_iff _ _ _ _ _ Y). intros q m n k c. cbv beta. rewrite E. tauto.
Qed.

Lemma file_value s ground H CC e P text prog : 1 <= CC <= 8 -> generate_eT_zhz_python s ground H CC 1 e P = Ok text -> python text prog ->
  forall p opt, p <= CC -> p <= P ->
    computes_eT s ground prog (terms_head s p "HZ" opt) p (fun k => has_operators s H CC k && negb (is_bare k)) (all_paired H p 0 0) /\
    computes_eT s ground prog (terms_head s p "eT_HZ" opt) p (has_operators s H CC) (all_paired H p 1 e) /\
    defines_equation s prog p opt.
Proof.
  intros HC G Py p opt L1 L2. destruct (file_program s ground H CC e P text HC G) as (prog' & Py' & _ & _ & _ & D).
  rewrite (python_functional _ _ _ Py Py'). destruct (D p opt L1 L2) as (D1 & D2 & D3). split; [|split; [|exact D3]].
  - apply (function_value _ _ _ _ _ _ _ (fun q m n k => q = 0 /\ (h_of_ansatz s H m n /\ k <= CC) /\ ~ bare_term p q m n k)).
    + apply nodup_all_paired.
    + intros k flag. rewrite filter_In, in_all_paired, !andb_true_iff, has_operators_iff, allowed_iff, negb_true_iff. unfold is_bare, bare_term.
      rewrite !andb_false_iff, !Nat.eqb_neq.
      assert (Bz : k_t k = 0 -> k_up k = 0 -> k_down k = 0 -> k_zp k + k_hp k = p -> k_z k = p) by (unfold k_t, k_up, k_down, k_z; lia).
      assert (Ld : h_of_ansatz s H (k_up k) (k_down k) -> k_down k <= H) by (unfold h_of_ansatz; lia).
      destruct (Nat.eq_dec (k_t k) 0), (Nat.eq_dec (k_up k) 0), (Nat.eq_dec (k_down k) 0); intuition (try lia).
    + intros q m n k (_ & ((_ & _ & Al) & _) & _) Es. now apply Al.
    + refine (defines_iff _ _ _ _ _ _ _ D1). intros q m n k c. unfold of_ansatz. tauto.
  - apply (function_value _ _ _ _ _ _ _ (fun q m n k => 1 <= q <= e /\ (h_of_ansatz s H m n /\ k <= CC))).
    + apply nodup_all_paired.
    + intros k flag. rewrite filter_In, in_all_paired, andb_true_iff, has_operators_iff, allowed_iff.
      assert (Ld : h_of_ansatz s H (k_up k) (k_down k) -> k_down k <= H) by (unfold h_of_ansatz; lia). tauto.
    + intros q m n k (_ & ((_ & _ & Al) & _)) Es. now apply Al.
    + refine (defines_iff _ _ _ _ _ _ _ D2). intros q m n k c. unfold of_ansatz. tauto.
Qed.
