(** Facts about the reader of python text in SpecPython.v. *)
From Coq Require Import List Arith Bool Ascii String Lia.
From Verif Require Import PyBase PyStr SpecPython ProofsStr.
Import ListNotations.
Local Open Scope nat_scope.
Local Open Scope list_scope.

(** ** A text has one reading *)

Lemma reads_first i ls b : reads i ls b -> Forall (fun l => i <= fst l) ls /\ (forall l r, ls = l :: r -> fst l = i) /\ (ls = [] <-> b = []).
Proof.
  induction 1 as [i|i t ls b _ _ (F & _)|i c j inner ls b1 b H1 H2 _ (F1 & _) _ (F2 & _)
    |i c j inner j' inner' ls b1 b2 b H1 H2 _ (F1 & _) H3 H4 _ (F2 & _) _ (F3 & _)
    |i c j inner c' ls b1 y n b H1 H2 _ (F1 & _) _ (F2 & _)|i t j inner ls b1 b _ H1 H2 _ (F1 & _) _ (F2 & _)].
  - repeat split; auto. discriminate.
  - repeat split; try discriminate. + constructor; auto. + intros l r [= <- _]. reflexivity.
  - repeat split; try discriminate; [|intros l r [= <- _]; reflexivity]. constructor; [cbn; lia|]. apply Forall_app. split; [|exact F2].
    eapply Forall_impl; [|exact F1]. cbn. intros; lia.
  - repeat split; try discriminate; [|intros l r [= <- _]; reflexivity]. constructor; [cbn; lia|]. apply Forall_app. split.
    + eapply Forall_impl; [|exact F1]. cbn. intros; lia.
    + constructor; [cbn; lia|]. apply Forall_app. split; [|exact F3]. eapply Forall_impl; [|exact F2]. cbn. intros; lia.
  - repeat split; try discriminate; [|intros l r [= <- _]; reflexivity]. constructor; [cbn; lia|]. apply Forall_app. split.
    + eapply Forall_impl; [|exact F1]. cbn. intros; lia.
    + apply Forall_cons_iff in F2 as [_ F2]. constructor; [cbn; lia|exact F2].
  - repeat split; try discriminate; [|intros l r [= <- _]; reflexivity]. constructor; [cbn; lia|]. apply Forall_app. split; [|exact F2].
    eapply Forall_impl; [|exact F1]. cbn. intros; lia.
Qed.

(** two ways to cut a block off *)
Lemma cut_unique (i : nat) (a b a' b' : list lline) :
  Forall (fun l => i < fst l) a -> Forall (fun l => i < fst l) a' ->
  (forall l r, b = l :: r -> fst l = i) -> (forall l r, b' = l :: r -> fst l = i) ->
  a ++ b = a' ++ b' -> a = a' /\ b = b'.
Proof.
  revert a'. induction a as [|x a IH]; intros [|x' a'] F F' B B' E; cbn [app] in E.
  - auto.
  - subst b. specialize (B x' _ eq_refl). apply Forall_cons_iff in F' as [F' _]. lia.
  - subst b'. specialize (B' x _ eq_refl). apply Forall_cons_iff in F as [F _]. lia.
  - injection E as <- E. apply Forall_cons_iff in F as [_ F]. apply Forall_cons_iff in F' as [_ F'].
    destruct (IH a' F F' B B' E) as [-> ->]. auto.
Qed.

Lemma ends_with_app e a : ends_with e (a ++ e)%string = true.
Proof.
  induction a as [|c a IH]; cbn [String.append].
  - destruct e; cbn [ends_with]; now rewrite String.eqb_refl.
  - cbn [ends_with]. rewrite IH. apply orb_true_r.
Qed.
Lemma if_line_head c : is_head (if_line c) = true.
Proof. unfold if_line, is_head. rewrite <- append_assoc. apply ends_with_app. Qed.
Lemma append_colon_inj a b : (a ++ ":" = b ++ ":")%string -> a = b.
Proof.
  revert b. induction a as [|c a IH]; intros [|d b] E; [reflexivity| | |].
  - cbn in E. injection E as _ E. destruct b; discriminate.
  - cbn in E. injection E as _ E. destruct a; discriminate.
  - cbn in E. injection E as -> E. f_equal. now apply IH.
Qed.
Lemma if_line_inj a b : if_line a = if_line b -> a = b.
Proof. unfold if_line. intros E. cbn [String.append] in E. injection E as E. now apply append_colon_inj. Qed.
Lemma if_line_prefix c : String.prefix "if " (if_line c) = true.
Proof. unfold if_line. now destruct c. Qed.
Lemma else_not_if c : if_line c <> "else:"%string.
Proof. discriminate. Qed.
Lemma elif_line_head c : is_head (elif_line c) = true.
Proof. unfold elif_line, is_head. rewrite <- append_assoc. apply ends_with_app. Qed.
Lemma elif_line_inj a b : elif_line a = elif_line b -> a = b.
Proof. unfold elif_line. intros E. cbn [String.append] in E. injection E as E. now apply append_colon_inj. Qed.
Lemma elif_line_prefix c : String.prefix "elif " (elif_line c) = true.
Proof. unfold elif_line. now destruct c. Qed.

Lemma deeper i j inner b : i < j -> reads j inner b -> Forall (fun l => i < fst l) inner.
Proof. intros H R. destruct (reads_first _ _ _ R) as (F & _). eapply Forall_impl; [|exact F]. cbn. intros; lia. Qed.
Lemma at_level i ls b : reads i ls b -> forall l r, ls = l :: r -> fst l = i.
Proof. intros R. apply (reads_first _ _ _ R). Qed.
Lemma else_level (i : nat) t inner (ls : list lline) : forall l r, (i, t) :: inner ++ ls = l :: r -> fst l = i.
Proof. now intros l r [= <- _]. Qed.

Lemma reads_inv i l ls b : reads i (l :: ls) b -> exists t, l = (i, t) /\
  ((is_head t = false /\ exists b', b = Simple t :: b' /\ reads i ls b')
   \/ (exists c j inner ls' b1 b', t = if_line c /\ ls = inner ++ ls' /\ b = If c b1 [] :: b' /\ i < j /\ inner <> [] /\ reads j inner b1 /\ reads i ls' b')
   \/ (exists c j inner j' inner' ls' b1 b2 b', t = if_line c /\ ls = inner ++ (i, "else:"%string) :: inner' ++ ls' /\ b = If c b1 b2 :: b'
        /\ i < j /\ inner <> [] /\ reads j inner b1 /\ i < j' /\ inner' <> [] /\ reads j' inner' b2 /\ reads i ls' b')
   \/ (exists c j inner c' ls' b1 y n b', t = if_line c /\ ls = inner ++ (i, elif_line c') :: ls' /\ b = If c b1 [If c' y n] :: b'
        /\ i < j /\ inner <> [] /\ reads j inner b1 /\ reads i ((i, if_line c') :: ls') (If c' y n :: b'))
   \/ (other_head t = true /\ exists j inner ls' b1 b', ls = inner ++ ls' /\ b = Block t b1 :: b' /\ i < j /\ inner <> [] /\ reads j inner b1 /\ reads i ls' b')).
Proof.
  intros R. remember (l :: ls) as L eqn:E.
  assert (NE : forall j inner b1, b1 <> [] -> reads j inner b1 -> inner <> []).
  { intros j inner b1 N R1 ->. apply N. destruct (reads_first _ _ _ R1) as (_ & _ & E1). now apply E1. }
  destruct R as [i|i t ls0 b Ht R|i c j inner ls0 b1 b Hj N1 R1 R2
    |i c j inner j' inner' ls0 b1 b2 b Hj N1 R1 Hj' N2 R2 R3
    |i c j inner c' ls0 b1 y n b Hj N1 R1 R2|i t j inner ls0 b1 b Ht Hj N1 R1 R2]; [discriminate| | | | |];
    apply (f_equal (fun L => (hd l L, tl L))) in E; cbn [hd tl] in E; apply pair_equal_spec in E as [<- <-].
  - exists t. split; [reflexivity|]. left. eauto.
  - exists (if_line c). split; [reflexivity|]. right; left. exists c, j, inner, ls0, b1, b. repeat split; eauto.
  - exists (if_line c). split; [reflexivity|]. right; right; left. exists c, j, inner, j', inner', ls0, b1, b2, b. repeat split; eauto.
  - exists (if_line c). split; [reflexivity|]. right; right; right; left. exists c, j, inner, c', ls0, b1, y, n, b. repeat split; eauto.
  - exists t. split; [reflexivity|]. right; right; right; right. split; [exact Ht|]. exists j, inner, ls0, b1, b. repeat split; eauto.
Qed.

Lemma no_else i r b : ~ reads i ((i, "else:"%string) :: r) b.
Proof.
  intros R. destruct (reads_inv _ _ _ _ R) as (t & E & D). apply pair_equal_spec in E as [_ <-].
  destruct D as [(H & _)|[(c & j & inner & ls & b1 & b' & H & _)|[(c & j & inner & j' & inner' & ls & b1 & b2 & b' & H & _)|[(c & j & inner & c' & ls & b1 & y & n & b' & H & _)|(H & _)]]]]; try discriminate H.
Qed.
Lemma no_elif i c0 r b : ~ reads i ((i, elif_line c0) :: r) b.
Proof.
  intros R. destruct (reads_inv _ _ _ _ R) as (t & E & D). apply pair_equal_spec in E as [_ <-].
  destruct D as [(H & _)|[(c & j & inner & ls & b1 & b' & H & _)|[(c & j & inner & j' & inner' & ls & b1 & b2 & b' & H & _)|[(c & j & inner & c' & ls & b1 & y & n & b' & H & _)|(H & _)]]]]; try discriminate H.
  - rewrite elif_line_head in H. discriminate.
  - unfold other_head in H. rewrite elif_line_prefix in H. rewrite andb_false_r in H. discriminate.
Qed.

Lemma same_level i j inner b b' : inner <> [] -> reads i inner b -> reads j inner b' -> i = j.
Proof. intros N R R'. destruct inner as [|l r]; [congruence|]. rewrite <- (at_level _ _ _ R l r eq_refl). exact (at_level _ _ _ R' l r eq_refl). Qed.

Lemma if_not_other c : other_head (if_line c) = true -> False.
Proof. unfold other_head. rewrite if_line_prefix. rewrite andb_false_r. discriminate. Qed.
Lemma not_elif_else c : elif_line c <> "else:"%string.
Proof. discriminate. Qed.
Lemma if_not_simple c : is_head (if_line c) = false -> False.
Proof. rewrite if_line_head. discriminate. Qed.
Lemma simple_not_other t : is_head t = false -> other_head t = true -> False.
Proof. unfold other_head. intros ->. discriminate. Qed.

Ltac readings R' :=
  let t' := fresh "t'" in let E := fresh "E" in let D := fresh "D" in
  destruct (reads_inv _ _ _ _ R') as (t' & E & D); apply pair_equal_spec in E as [_ <-];
  destruct D as [(H & b2' & Eb & Q2)|[(c' & k & inn & ls' & c1 & c2 & Ec & El & Eb & Hk & Nk & Q1 & Q2)
    |[(c' & k & inn & k' & inn' & ls' & c1 & c2 & c3 & Ec & El & Eb & Hk & Nk & Q1 & Hk' & Nk' & Q2 & Q3)
    |[(c' & k & inn & d' & ls' & c1 & y' & n' & c3 & Ec & El & Eb & Hk & Nk & Q1 & Q2)
    |(H & k & inn & ls' & c1 & c2 & El & Eb & Hk & Nk & Q1 & Q2)]]]].

Theorem reads_functional i ls b : reads i ls b -> forall b', reads i ls b' -> b = b'.
Proof.
  induction 1 as [i|i t ls b Ht R IH|i c j inner ls b1 b Hj N1 R1 IH1 R2 IH2
    |i c j inner j' inner' ls b1 b2 b Hj N1 R1 IH1 Hj' N2 R2 IH2 R3 IH3
    |i c j inner d ls b1 y n b Hj N1 R1 IH1 R2 IH2|i t j inner ls b1 b Ht Hj N1 R1 IH1 R2 IH2]; intros b' R'.
  - destruct (reads_first _ _ _ R') as (_ & _ & E). symmetry. now apply E.
  - readings R'.
    + subst b'. f_equal. auto.
    + subst t. now apply if_not_simple in Ht.
    + subst t. now apply if_not_simple in Ht.
    + subst t. now apply if_not_simple in Ht.
    + now elim (simple_not_other t).
  - readings R'.
    + now apply if_not_simple in H.
    + subst b'. apply if_line_inj in Ec as <-.
      destruct (cut_unique i _ _ _ _ (deeper _ _ _ _ Hj R1) (deeper _ _ _ _ Hk Q1) (at_level _ _ _ R2) (at_level _ _ _ Q2) El) as [<- <-].
      rewrite <- (same_level _ _ _ _ _ Nk R1 Q1) in Q1. rewrite (IH1 _ Q1), (IH2 _ Q2). reflexivity.
    + destruct (cut_unique i _ _ _ _ (deeper _ _ _ _ Hj R1) (deeper _ _ _ _ Hk Q1) (at_level _ _ _ R2) (else_level _ _ _ _) El) as [_ E].
      rewrite E in R2. now apply no_else in R2.
    + destruct (cut_unique i _ _ _ _ (deeper _ _ _ _ Hj R1) (deeper _ _ _ _ Hk Q1) (at_level _ _ _ R2) (else_level _ _ [] _) El) as [_ E].
      rewrite E in R2. now apply no_elif in R2.
    + now apply if_not_other in H.
  - readings R'.
    + now apply if_not_simple in H.
    + destruct (cut_unique i _ _ _ _ (deeper _ _ _ _ Hj R1) (deeper _ _ _ _ Hk Q1) (else_level _ _ _ _) (at_level _ _ _ Q2) El) as [_ E].
      rewrite <- E in Q2. now apply no_else in Q2.
    + subst b'. apply if_line_inj in Ec as <-.
      destruct (cut_unique i _ _ _ _ (deeper _ _ _ _ Hj R1) (deeper _ _ _ _ Hk Q1) (else_level _ _ _ _) (else_level _ _ _ _) El) as [<- E].
      apply (f_equal (@tl lline)) in E. cbn [tl] in E.
      destruct (cut_unique i _ _ _ _ (deeper _ _ _ _ Hj' R2) (deeper _ _ _ _ Hk' Q2) (at_level _ _ _ R3) (at_level _ _ _ Q3) E) as [<- <-].
      rewrite <- (same_level _ _ _ _ _ Nk R1 Q1) in Q1. rewrite <- (same_level _ _ _ _ _ Nk' R2 Q2) in Q2.
      rewrite (IH1 _ Q1), (IH2 _ Q2), (IH3 _ Q3). reflexivity.
    + destruct (cut_unique i _ _ _ _ (deeper _ _ _ _ Hj R1) (deeper _ _ _ _ Hk Q1) (else_level _ _ _ _) (else_level _ _ [] _) El) as [_ E].
      apply (f_equal (fun l => snd (hd (0, ""%string) l))) in E. cbn [hd snd] in E. symmetry in E. now apply not_elif_else in E.
    + now apply if_not_other in H.
  - readings R'.
    + now apply if_not_simple in H.
    + destruct (cut_unique i _ _ _ _ (deeper _ _ _ _ Hj R1) (deeper _ _ _ _ Hk Q1) (else_level _ _ [] _) (at_level _ _ _ Q2) El) as [_ E].
      cbn [app] in E. rewrite <- E in Q2. now apply no_elif in Q2.
    + destruct (cut_unique i _ _ _ _ (deeper _ _ _ _ Hj R1) (deeper _ _ _ _ Hk Q1) (else_level _ _ [] _) (else_level _ _ _ _) El) as [_ E].
      apply (f_equal (fun l => snd (hd (0, ""%string) l))) in E. cbn [hd snd app] in E. now apply not_elif_else in E.
    + subst b'. apply if_line_inj in Ec as <-.
      destruct (cut_unique i _ _ _ _ (deeper _ _ _ _ Hj R1) (deeper _ _ _ _ Hk Q1) (else_level _ _ [] _) (else_level _ _ [] _) El) as [<- E].
      cbn [app] in E. apply (f_equal (fun l => (snd (hd (0, ""%string) l), tl l))) in E. cbn [hd snd tl] in E. apply pair_equal_spec in E as [E1 <-].
      apply elif_line_inj in E1 as <-.
      rewrite <- (same_level _ _ _ _ _ Nk R1 Q1) in Q1. rewrite (IH1 _ Q1). specialize (IH2 _ Q2). now injection IH2 as -> -> ->.
    + now apply if_not_other in H.
  - readings R'.
    + now elim (simple_not_other t).
    + subst t. now apply if_not_other in Ht.
    + subst t. now apply if_not_other in Ht.
    + subst t. now apply if_not_other in Ht.
    + subst b'. destruct (cut_unique i _ _ _ _ (deeper _ _ _ _ Hj R1) (deeper _ _ _ _ Hk Q1) (at_level _ _ _ R2) (at_level _ _ _ Q2) El) as [<- <-].
      rewrite <- (same_level _ _ _ _ _ Nk R1 Q1) in Q1. rewrite (IH1 _ Q1), (IH2 _ Q2). reflexivity.
Qed.

Theorem python_functional text b b' : python text b -> python text b' -> b = b'.
Proof.
  intros (ls & L & R) (ls' & L' & R'). unfold logical_lines in *. rewrite L in L'. injection L' as <-. exact (reads_functional _ _ _ R _ R').
Qed.

Lemma reads_app i a b x y : reads i a x -> reads i b y -> reads i (a ++ b) (x ++ y).
Proof.
  intros R1 R2. induction R1 as [i|i t ls b0 Ht R IH|i c j inner ls b1 b0 Hj N1 R1 _ R3 IH
    |i c j inner j' inner' ls b1 b2 b0 Hj N1 R1 _ Hj' N2 R3 _ R4 IH
    |i c j inner c' ls b1 y0 n b0 Hj N1 R1 _ R3 IH|i t j inner ls b1 b0 Ht Hj N1 R1 _ R3 IH]; cbn [app]; [exact R2| | | | |].
  - apply reads_simple; [assumption|]. auto.
  - rewrite <- app_assoc. apply (reads_if i c j); auto.
  - rewrite <- app_assoc. cbn [app]. rewrite <- app_assoc. apply (reads_if_else i c j inner j'); auto.
  - rewrite <- app_assoc. cbn [app]. apply (reads_elif i c j inner c'); auto.
  - rewrite <- app_assoc. apply (reads_block i t j); auto.
Qed.

(** ** Blanks *)

Fixpoint pad (n : nat) : string := match n with 0 => "" | S k => String " " (pad k) end.

Lemma pad_add a b : pad (a + b) = (pad a ++ pad b)%string.
Proof. induction a as [|a IH]; cbn; [reflexivity|]. now rewrite IH. Qed.
Lemma only_pad k : only_spaces (pad k) = true.
Proof. induction k as [|k IH]; cbn; auto. Qed.
Lemma leading_pad k s : leading_spaces (pad k ++ s) = k + leading_spaces s.
Proof. induction k as [|k IH]; cbn; auto. Qed.
Lemma drop_pad k s : drop_spaces (pad k ++ s) = drop_spaces s.
Proof. induction k as [|k IH]; cbn; auto. Qed.

Definition is_blank (c : ascii) : bool := Ascii.eqb c " ".
Lemma blank_cases c : (c = " "%char /\ is_blank c = true) \/ (c <> " "%char /\ is_blank c = false).
Proof. unfold is_blank. destruct (Ascii.eqb c " ") eqn:E; [left|right]; split; auto. - now apply Ascii.eqb_eq. - now apply Ascii.eqb_neq. Qed.
Lemma only_spaces_cons c s : only_spaces (String c s) = is_blank c && only_spaces s.
Proof. destruct c as [[|] [|] [|] [|] [|] [|] [|] [|]]; reflexivity. Qed.
Lemma drop_spaces_cons c s : drop_spaces (String c s) = if is_blank c then drop_spaces s else String c s.
Proof. destruct c as [[|] [|] [|] [|] [|] [|] [|] [|]]; reflexivity. Qed.
Lemma leading_spaces_cons c s : leading_spaces (String c s) = if is_blank c then S (leading_spaces s) else 0.
Proof. destruct c as [[|] [|] [|] [|] [|] [|] [|] [|]]; reflexivity. Qed.

Lemma only_spaces_app a b : only_spaces (a ++ b) = only_spaces a && only_spaces b.
Proof.
  induction a as [|c a IH]; [reflexivity|]. cbn [String.append]. rewrite !only_spaces_cons, IH. apply andb_assoc.
Qed.
Lemma drop_spaces_blank a : only_spaces a = true -> drop_spaces a = ""%string.
Proof.
  induction a as [|c a IH]; [reflexivity|]. rewrite only_spaces_cons, drop_spaces_cons. intros H. apply andb_true_iff in H as [-> H]. auto.
Qed.
Lemma drop_spaces_app a b : only_spaces a = false -> drop_spaces (a ++ b) = (drop_spaces a ++ b)%string /\ leading_spaces (a ++ b) = leading_spaces a.
Proof.
  induction a as [|c a IH]; [discriminate|]. cbn [String.append]. rewrite only_spaces_cons, !drop_spaces_cons, !leading_spaces_cons.
  destruct (is_blank c) eqn:B; cbn [andb]; intros H; [|split; reflexivity]. destruct (IH H) as [-> ->]. auto.
Qed.
Lemma trim_end_cons c s : trim_end (String c s) = if is_blank c && only_spaces s then ""%string else String c (trim_end s).
Proof. cbn [trim_end]. now rewrite <- only_spaces_cons. Qed.
Lemma trim_end_app a b : only_spaces b = true -> trim_end (a ++ b) = trim_end a.
Proof.
  intros B. induction a as [|c a IH]; cbn [String.append].
  - destruct b as [|c b]; [reflexivity|]. rewrite trim_end_cons. rewrite only_spaces_cons in B. now rewrite B.
  - rewrite !trim_end_cons, IH, only_spaces_app, B, andb_true_r. reflexivity.
Qed.
Lemma trim_end_keep a c : is_blank c = false -> trim_end (a ++ String c "") = (a ++ String c "")%string.
Proof.
  intros B. induction a as [|x a IH]; cbn [String.append].
  - rewrite trim_end_cons, B. reflexivity.
  - rewrite trim_end_cons, IH, only_spaces_app, only_spaces_cons, B. cbn [andb]. now rewrite !andb_false_r.
Qed.

Lemma scan_blank b d : only_spaces b = true -> scan None d b = Some (b, d).
Proof.
  induction b as [|c b IH]; [reflexivity|]. rewrite only_spaces_cons. intros H. apply andb_true_iff in H as [B H].
  apply Ascii.eqb_eq in B. subst c. cbn [scan]. cbn. now rewrite (IH H).
Qed.
Lemma scan_open_blank k b d : k = quote1 \/ k = quote2 -> only_spaces b = true -> scan (Some k) d b = None.
Proof.
  intros K. induction b as [|c b IH]; [reflexivity|]. rewrite only_spaces_cons. intros H. apply andb_true_iff in H as [B H].
  apply Ascii.eqb_eq in B. subst c. cbn [scan]. destruct K as [-> | ->]; cbn; now rewrite (IH H).
Qed.
(** blanks at the end of a line *)
Lemma scan_end a b : only_spaces b = true -> forall q d, (q = None \/ q = Some quote1 \/ q = Some quote2) ->
  match scan q d a with
  | None => scan q d (a ++ b) = None
  | Some (t, d') => exists t', scan q d (a ++ b) = Some (t', d') /\ (t' = (t ++ b)%string \/ t' = t)
  end.
Proof.
  intros B. induction a as [|c a IH]; intros q d Q.
  - cbn [String.append scan]. destruct q as [k|].
    + apply scan_open_blank; [|exact B]. destruct Q as [Q|[[= ->]|[= ->]]]; auto. discriminate.
    + exists b. split; [now apply scan_blank|now left].
  - cbn [String.append scan]. destruct q as [k|].
    + specialize (IH (if Ascii.eqb c k then None else Some k) d).
      assert (Q' : (if Ascii.eqb c k then None else Some k) = None \/ (if Ascii.eqb c k then None else Some k) = Some quote1 \/ (if Ascii.eqb c k then None else Some k) = Some quote2)
        by (destruct (Ascii.eqb c k); auto).
      specialize (IH Q'). destruct (scan _ d a) as [[t d']|].
      * destruct IH as (t' & -> & [-> | ->]); eexists; split; [reflexivity|now left|reflexivity|now right].
      * now rewrite IH.
    + destruct (Ascii.eqb c "#"); [exists ""%string; split; [reflexivity|now right]|].
      assert (K : forall q' d0, (q' = None \/ q' = Some quote1 \/ q' = Some quote2) ->
        match (match scan q' d0 a with Some (t, d) => Some (String c t, d) | None => None end) with
        | Some (t, d') => exists t', (match scan q' d0 (a ++ b) with Some (t, d) => Some (String c t, d) | None => None end) = Some (t', d') /\ (t' = (t ++ b)%string \/ t' = t)
        | None => (match scan q' d0 (a ++ b) with Some (t, d) => Some (String c t, d) | None => None end) = None
        end).
      { intros q' d0 Q'. specialize (IH q' d0 Q'). destruct (scan q' d0 a) as [[t d']|].
        - destruct IH as (t' & -> & [-> | ->]); eexists; split; [reflexivity|now left|reflexivity|now right].
        - now rewrite IH. }
      destruct (Ascii.eqb c quote1) eqn:E1; [apply Ascii.eqb_eq in E1; subst c; cbn [orb]; apply K; auto|].
      destruct (Ascii.eqb c quote2) eqn:E2; [apply Ascii.eqb_eq in E2; subst c; cbn [orb]; apply K; auto|].
      cbn [orb]. destruct (opens c); [apply K; auto|]. destruct (closes c); [|apply K; auto].
      destruct d; [reflexivity|apply K; auto].
Qed.

Lemma prefix_triple_app a b : only_spaces b = true -> String.prefix triple (a ++ b) = String.prefix triple a.
Proof.
  intros B.
  assert (P : forall q, (forall c r, q = String c r -> is_blank c = false) -> String.prefix q b = match q with ""%string => true | _ => false end).
  { intros [|c r] Q; [now destruct b|]. destruct b as [|x b]; [reflexivity|]. rewrite only_spaces_cons in B. apply andb_true_iff in B as [B _].
    cbn [String.prefix]. destruct (ascii_dec c x) as [->|]; [|reflexivity]. specialize (Q x r eq_refl). congruence. }
  unfold triple. destruct a as [|c1 a]; [cbn [String.append]; rewrite P; [reflexivity|now intros c r [= <- _]]|].
  cbn [String.append String.prefix]. destruct (ascii_dec """" c1); [|reflexivity].
  destruct a as [|c2 a]; [cbn [String.append]; rewrite P; [reflexivity|now intros c r [= <- _]]|].
  cbn [String.append String.prefix]. destruct (ascii_dec """" c2); [|reflexivity].
  destruct a as [|c3 a]; [cbn [String.append]; rewrite P; [reflexivity|now intros c r [= <- _]]|].
  cbn [String.append String.prefix]. destruct (ascii_dec """" c3); [|reflexivity].
  destruct a; cbn [String.append]; [now destruct b|reflexivity].
Qed.

Lemma lex_line_end st l b : only_spaces b = true -> lex_line st (l ++ b) = lex_line st l.
Proof.
  intros B. destruct (only_spaces l) eqn:L.
  - assert (LB : only_spaces (l ++ b) = true) by (rewrite only_spaces_app, L; exact B).
    unfold lex_line. rewrite (drop_spaces_blank _ L), (drop_spaces_blank _ LB). destruct st; reflexivity.
  - destruct (drop_spaces_app l b L) as [D E]. unfold lex_line. rewrite D, E, (trim_end_app _ _ B).
    destruct st as [|i t0 d0|i t0].
    + rewrite (prefix_triple_app _ _ B). destruct (String.prefix triple (drop_spaces l)); [reflexivity|].
      pose proof (scan_end (drop_spaces l) b B None 0 (or_introl eq_refl)) as K. destruct (scan None 0 (drop_spaces l)) as [[t d]|].
      * destruct K as (t' & -> & [-> | ->]); [|reflexivity]. now rewrite (trim_end_app _ _ B).
      * now rewrite K.
    + pose proof (scan_end (drop_spaces l) b B None d0 (or_introl eq_refl)) as K. destruct (scan None d0 (drop_spaces l)) as [[t d]|].
      * destruct K as (t' & -> & [-> | ->]); [|reflexivity]. now rewrite (trim_end_app _ _ B).
      * now rewrite K.
    + reflexivity.
Qed.

Lemma of_chars_app a b : of_chars (a ++ b) = (of_chars a ++ of_chars b)%string.
Proof. induction a as [|c a IH]; cbn; [reflexivity|]. now rewrite IH. Qed.
Lemma rstrip_end l : exists b, only_spaces b = true /\ l = (rstrip l ++ b)%string.
Proof.
  unfold rstrip. assert (K : forall x, exists b, only_spaces b = true /\ of_chars (rev x) = (of_chars (rev (strip_front x)) ++ b)%string).
  { induction x as [|c x (b & B & IH)]; [exists ""%string; auto|]. cbn [strip_front]. destruct (Ascii.eqb c (ascii_of_nat 32)) eqn:E.
    - exists (b ++ " ")%string. split; [rewrite only_spaces_app, B; reflexivity|]. apply Ascii.eqb_eq in E. subst c. cbn [rev].
      rewrite of_chars_app, IH, append_assoc. reflexivity.
    - exists ""%string. split; [reflexivity|]. now rewrite append_nil_r. }
  destruct (K (rev (chars l))) as (b & B & E). exists b. split; [exact B|]. rewrite <- E, rev_involutive, of_chars_chars. reflexivity.
Qed.
Lemma lex_line_rstrip st l : lex_line st (rstrip l) = lex_line st l.
Proof. destruct (rstrip_end l) as (b & B & E). rewrite E at 2. symmetry. now apply lex_line_end. Qed.

(** ** Pieces of a text *)

Lemma lex_app a b st st' out : lex st a = Some (st', out) ->
  lex st (a ++ b) = match lex st' b with Some (st'', out') => Some (st'', out ++ out') | None => None end.
Proof.
  revert st out. induction a as [|l a IH]; intros st out; cbn [lex app].
  - intros [= <- <-]. destruct (lex st b) as [[st'' out']|]; reflexivity.
  - destruct (lex_line st l) as [[st1 out1]|]; [|discriminate]. destruct (lex st1 a) as [[st2 out2]|] eqn:E; [|discriminate].
    intros [= -> <-]. rewrite (IH _ _ E). destruct (lex st' b) as [[st'' out']|]; [|reflexivity]. now rewrite app_assoc.
Qed.

(** The physical lines [ls] are complete statements [b] at indentation [i]. *)
Definition piece (i : nat) (ls : list string) (b : list stmt) : Prop :=
  exists out, logical_lines ls out /\ reads i out b.

Lemma piece_python text b : piece 0 (lines_of text) b <-> python text b.
Proof. reflexivity. Qed.
Lemma piece_nil i : piece i [] [].
Proof. exists []. split; [reflexivity|constructor]. Qed.
Lemma piece_app i l1 l2 b1 b2 : piece i l1 b1 -> piece i l2 b2 -> piece i (l1 ++ l2) (b1 ++ b2).
Proof.
  intros (o1 & L1 & R1) (o2 & L2 & R2). exists (o1 ++ o2). split; [|now apply reads_app]. unfold logical_lines in *. rewrite (lex_app _ _ _ _ _ L1), L2. reflexivity.
Qed.
Lemma piece_concat i (L : list (list string)) (B : list (list stmt)) : Forall2 (piece i) L B -> piece i (List.concat L) (List.concat B).
Proof. induction 1; cbn; [apply piece_nil|now apply piece_app]. Qed.
Lemma piece_flat_map {A} i (f : A -> list string) (g : A -> list stmt) l : (forall x, In x l -> piece i (f x) (g x)) -> piece i (flat_map f l) (flat_map g l).
Proof.
  induction l as [|x l IH]; intros H; cbn; [apply piece_nil|]. apply piece_app; [apply H; now left|apply IH; intros; apply H; now right].
Qed.
(** a line that is blank or a comment *)
Lemma piece_skip i l : lex_line Top l = Some (Top, []) -> piece i [l] [].
Proof. intros E. exists []. split; [unfold logical_lines; cbn [lex]; now rewrite E|constructor]. Qed.
Lemma piece_skips i ls : Forall (fun l => lex_line Top l = Some (Top, [])) ls -> piece i ls [].
Proof. induction 1 as [|l ls H _ IH]; [apply piece_nil|]. exact (piece_app i [l] ls [] [] (piece_skip i l H) IH). Qed.
Lemma piece_simple i l t : lex_line Top l = Some (Top, [(i, t)]) -> is_head t = false -> piece i [l] [Simple t].
Proof. intros E H. exists [(i, t)]. split; [unfold logical_lines; cbn [lex]; now rewrite E|]. apply reads_simple; [exact H|constructor]. Qed.
Lemma piece_if i l c j inner b : lex_line Top l = Some (Top, [(i, if_line c)]) -> i < j -> b <> [] -> piece j inner b ->
  piece i (l :: inner) [If c b []].
Proof.
  intros E H N (out & L & R). exists ((i, if_line c) :: out). split.
  - unfold logical_lines in *. cbn [lex]. now rewrite E, L.
  - rewrite <- (app_nil_r out). apply (reads_if i c j out [] b []); auto. constructor.
Qed.
Lemma piece_if_else i l l' c j inner j' inner' b b' : lex_line Top l = Some (Top, [(i, if_line c)]) -> lex_line Top l' = Some (Top, [(i, "else:"%string)]) ->
  i < j -> b <> [] -> piece j inner b -> i < j' -> b' <> [] -> piece j' inner' b' ->
  piece i (l :: inner ++ l' :: inner') [If c b b'].
Proof.
  intros E E' H N (out & L & R) H' N' (out' & L' & R'). exists ((i, if_line c) :: out ++ (i, "else:"%string) :: out'). split.
  - unfold logical_lines in *. cbn [lex]. rewrite E. rewrite (lex_app _ _ _ _ _ L). cbn [lex]. now rewrite E', L'.
  - rewrite <- (app_nil_r out'). apply (reads_if_else i c j out j' out' [] b b' []); auto. constructor.
Qed.
Lemma piece_elif i l l' m c c' j inner ls b yes no :
  lex_line Top l = Some (Top, [(i, if_line c)]) -> lex_line Top l' = Some (Top, [(i, elif_line c')]) ->
  lex_line Top m = Some (Top, [(i, if_line c')]) ->
  i < j -> b <> [] -> piece j inner b -> piece i (m :: ls) [If c' yes no] ->
  piece i (l :: inner ++ l' :: ls) [If c b [If c' yes no]].
Proof.
  intros E E' Em H N (out & L & R) (out' & L' & R'). unfold logical_lines in *. cbn [lex] in L'. rewrite Em in L'.
  destruct (lex Top ls) as [[st o]|] eqn:Ls; [|discriminate]. injection L' as -> L'. cbn [app] in L'. subst out'.
  exists ((i, if_line c) :: out ++ (i, elif_line c') :: o). split.
  - unfold logical_lines. cbn [lex]. rewrite E. rewrite (lex_app _ _ _ _ _ L). cbn [lex]. now rewrite E', Ls.
  - now apply (reads_elif i c j out c' o b yes no []).
Qed.
Lemma piece_block i l t j inner b : lex_line Top l = Some (Top, [(i, t)]) -> other_head t = true -> i < j -> b <> [] -> piece j inner b ->
  piece i (l :: inner) [Block t b].
Proof.
  intros E O H N (out & L & R). exists ((i, t) :: out). split.
  - unfold logical_lines in *. cbn [lex]. now rewrite E, L.
  - rewrite <- (app_nil_r out). apply (reads_block i t j out [] b []); auto. constructor.
Qed.

(** ** Indentation of a whole piece *)

Definition shift_line (k : nat) (l : lline) : lline := (k + fst l, snd l).
Definition shift_state (k : nat) (st : lex_state) : lex_state :=
  match st with Top => Top | InBrackets i t d => InBrackets (k + i) t d | InDoc i t => InDoc (k + i) t end.
Definition shift_result (k : nat) (x : option (lex_state * list lline)) : option (lex_state * list lline) :=
  match x with Some (st, out) => Some (shift_state k st, map (shift_line k) out) | None => None end.

Lemma lex_line_pad k st l : lex_line (shift_state k st) (pad k ++ l) = shift_result k (lex_line st l).
Proof.
  unfold lex_line. rewrite drop_pad, leading_pad. destruct st as [|i t0 d0|i t0]; cbn [shift_state].
  - destruct (String.prefix triple (drop_spaces l)).
    + destruct (Nat.leb 6 _ && _); reflexivity.
    + destruct (scan None 0 (drop_spaces l)) as [[t d]|]; [|reflexivity]. destruct (trim_end t), d; reflexivity.
  - destruct (scan None d0 (drop_spaces l)) as [[t d]|]; [|reflexivity]. destruct d; reflexivity.
  - destruct (ends_with triple _); reflexivity.
Qed.
Lemma lex_indent k ls : forall st, lex (shift_state k st) (map (fun l => rstrip (pad k ++ l)) ls) = shift_result k (lex st ls).
Proof.
  induction ls as [|l ls IH]; intros st; [reflexivity|]. cbn [map lex]. rewrite lex_line_rstrip, lex_line_pad.
  destruct (lex_line st l) as [[st1 out1]|]; [|reflexivity]. cbn [shift_result]. rewrite IH. destruct (lex st1 ls) as [[st2 out2]|]; [|reflexivity].
  cbn [shift_result]. now rewrite map_app.
Qed.
Lemma reads_shift k i ls b : reads i ls b -> reads (k + i) (map (shift_line k) ls) b.
Proof.
  induction 1 as [i|i t ls b Ht R IH|i c j inner ls b1 b Hj N1 R1 IH1 R2 IH2
    |i c j inner j' inner' ls b1 b2 b Hj N1 R1 IH1 Hj' N2 R2 IH2 R3 IH3
    |i c j inner c' ls b1 y n b Hj N1 R1 IH1 R2 IH2|i t j inner ls b1 b Ht Hj N1 R1 IH1 R2 IH2]; cbn [map].
  - constructor.
  - now apply reads_simple.
  - rewrite map_app. apply (reads_if (k + i) c (k + j)); auto. lia.
  - rewrite map_app. cbn [map]. rewrite map_app. apply (reads_if_else (k + i) c (k + j) _ (k + j')); auto; lia.
  - rewrite map_app. cbn [map]. apply (reads_elif (k + i) c (k + j)); auto. lia.
  - rewrite map_app. apply (reads_block (k + i) t (k + j)); auto. lia.
Qed.
Lemma piece_indent k i ls b : piece i ls b -> piece (k + i) (map (fun l => rstrip (pad k ++ l)) ls) b.
Proof.
  intros (out & L & R). exists (map (shift_line k) out). split; [|now apply reads_shift].
  unfold logical_lines in *. change Top with (shift_state k Top) at 1. rewrite lex_indent, L. reflexivity.
Qed.
Lemma piece_pad k i ls b : piece i ls b -> piece (k + i) (map (fun l => (pad k ++ l)%string) ls) b.
Proof.
  intros P. apply (piece_indent k) in P as (out & L & R). exists out. split; [|exact R]. unfold logical_lines in *. rewrite <- L.
  clear. generalize Top. induction ls as [|l ls IH]; intros st; [reflexivity|]. cbn [map lex]. rewrite lex_line_rstrip.
  destruct (lex_line st _) as [[st1 o1]|]; [|reflexivity]. now rewrite IH.
Qed.
Lemma piece_rstrip i ls b : piece i ls b -> piece i (map rstrip ls) b.
Proof. intros P. apply (piece_indent 0) in P. exact P. Qed.

(** ** Scanning neutral text *)

(** Text of one line that is copied and leaves the brackets as they are. *)
Definition copied (s : string) : Prop := forall d r,
  scan None d (s ++ r) = match scan None d r with Some (t, d') => Some ((s ++ t)%string, d') | None => None end.
Definition neutral (s : string) : Prop := has_char newline s = false /\ copied s.

Lemma neutral_nil : neutral "".
Proof. split; [reflexivity|]. intros d r. cbn [String.append]. destruct (scan None d r) as [[t d']|]; reflexivity. Qed.
Lemma neutral_app a b : neutral a -> neutral b -> neutral (a ++ b).
Proof.
  intros [A1 A] [B1 B]. split; [now rewrite has_char_app, A1|]. intros d r. rewrite append_assoc, A, B. destruct (scan None d r) as [[t d']|]; [|reflexivity]. now rewrite append_assoc.
Qed.
Definition special (c : ascii) : bool :=
  Ascii.eqb newline c || Ascii.eqb c "#" || Ascii.eqb c quote1 || Ascii.eqb c quote2 || opens c || closes c.
Lemma neutral_char c : special c = false -> neutral (String c "").
Proof.
  unfold special. rewrite !orb_false_iff. intros (((((E0 & E1) & E2) & E3) & E4) & E5). split; [cbn [has_char]; now rewrite E0|].
  intros d r. cbn [String.append scan]. rewrite E1, E2, E3, E4, E5. cbn [orb].
  destruct (scan None d r) as [[t d']|]; reflexivity.
Qed.
Fixpoint no_special (s : string) : bool := match s with "" => true | String c r => negb (special c) && no_special r end%string.
Lemma neutral_plain s : no_special s = true -> neutral s.
Proof.
  induction s as [|c s IH]; intros H; [apply neutral_nil|]. cbn [no_special] in H. apply andb_true_iff in H as [H1 H2].
  change (String c s) with (String c "" ++ s)%string. apply neutral_app; [apply neutral_char; now destruct (special c)|auto].
Qed.
Lemma neutral_paren a : neutral a -> neutral ("(" ++ a ++ ")").
Proof.
  intros [A1 A]. split; [rewrite !has_char_app, A1; reflexivity|]. intros d r. rewrite append_assoc. cbn [String.append scan]. cbn. rewrite append_assoc, A. cbn [String.append scan]. cbn.
  destruct (scan None d r) as [[t d']|]; [|reflexivity]. now rewrite append_assoc.
Qed.
Lemma neutral_bracket a : neutral a -> neutral ("[" ++ a ++ "]").
Proof.
  intros [A1 A]. split; [rewrite !has_char_app, A1; reflexivity|]. intros d r. rewrite append_assoc. cbn [String.append scan]. cbn. rewrite append_assoc, A. cbn [String.append scan]. cbn.
  destruct (scan None d r) as [[t d']|]; [|reflexivity]. now rewrite append_assoc.
Qed.
Lemma scan_quoted k a d r : has_char k a = false -> scan (Some k) d (a ++ String k r) =
  match scan None d r with Some (t, d') => Some ((a ++ String k t)%string, d') | None => None end.
Proof.
  induction a as [|c a IH]; intros H.
  - cbn [String.append scan]. rewrite Ascii.eqb_refl. reflexivity.
  - cbn [has_char] in H. apply orb_false_iff in H as [H1 H2]. cbn [String.append scan].
    assert (E : Ascii.eqb c k = false) by (first [exact H1|rewrite Ascii.eqb_sym; exact H1]). rewrite E, (IH H2).
    destruct (scan None d r) as [[t d']|]; reflexivity.
Qed.
(** text without quotes and newlines *)
Definition nq (s : string) : Prop := has_char quote1 s = false /\ has_char newline s = false.
Lemma nq_app a b : nq a -> nq b -> nq (a ++ b).
Proof. unfold nq. rewrite !has_char_app. now intros [-> ->] [-> ->]. Qed.
Lemma neutral_quoted a : nq a -> neutral ("'" ++ a ++ "'").
Proof.
  intros [A A1]. split; [rewrite !has_char_app, A1; reflexivity|]. intros d r. rewrite append_assoc. cbn [String.append scan]. change (Ascii.eqb "'" "#") with false. change (Ascii.eqb "'" quote1 || _) with true. cbv iota.
  rewrite append_assoc. cbn [String.append]. change "'"%char with quote1. rewrite (scan_quoted quote1 a d r A).
  destruct (scan None d r) as [[t d']|]; [|reflexivity]. now rewrite append_assoc.
Qed.
Lemma neutral_concat sep l : neutral sep -> Forall neutral l -> neutral (String.concat sep l).
Proof.
  intros N. induction 1 as [|a l A _ IH]; [apply neutral_nil|]. destruct l as [|b l]; [exact A|].
  change (String.concat sep (a :: b :: l)) with (a ++ sep ++ String.concat sep (b :: l))%string. apply neutral_app; [exact A|]. now apply neutral_app.
Qed.
Lemma neutral_scan a : neutral a -> forall d, scan None d a = Some (a, d).
Proof. intros [_ N] d. rewrite <- (append_nil_r a), N. cbn [scan]. now rewrite append_nil_r. Qed.
Lemma no_special_app a b : no_special (a ++ b) = no_special a && no_special b.
Proof. induction a as [|c a IH]; [reflexivity|]. cbn [String.append no_special]. rewrite IH. now rewrite andb_assoc. Qed.
Lemma uint_no_special d : no_special (DecimalString.NilEmpty.string_of_uint d) = true.
Proof. induction d as [|d IH|d IH|d IH|d IH|d IH|d IH|d IH|d IH|d IH|d IH]; cbn; auto. Qed.
Lemma str_nat_no_special n : no_special (str_nat n) = true.
Proof. apply uint_no_special. Qed.
Lemma nat_neutral n : neutral (str_nat n).
Proof. apply neutral_plain, str_nat_no_special. Qed.
Lemma no_special_nq s : no_special s = true -> nq s.
Proof.
  induction s as [|c s IH]; [split; reflexivity|]. cbn [no_special]. intros H. apply andb_true_iff in H as [H1 H2]. destruct (IH H2) as [A B].
  unfold special in H1. rewrite !negb_orb, !andb_true_iff in H1. destruct H1 as (((((E0 & E1) & E2) & E3) & E4) & E5).
  unfold nq. cbn [has_char]. rewrite A, B, !orb_false_r. split; [|now destruct (Ascii.eqb newline c)]. rewrite Ascii.eqb_sym. now destruct (Ascii.eqb c quote1).
Qed.

(** ** Statements *)

(** does not start with a blank or a double quote *)
Definition starts (t : string) : bool := match t with "" => false | String c _ => negb (is_blank c) && negb (Ascii.eqb c quote2) end%string.
Fixpoint last_char (t : string) : option ascii := match t with "" => None | String c "" => Some c | String _ r => last_char r end%string.
Definition ends (t : string) : bool := match last_char t with Some c => negb (is_blank c) | None => false end.

Lemma last_char_app a b : last_char (a ++ b) = match last_char b with Some c => Some c | None => last_char a end.
Proof.
  assert (K : forall x r, last_char (String x r) <> None).
  { intros x r; revert x; induction r as [|y r IH]; intros x; [discriminate|]. exact (IH y). }
  induction a as [|c a IH]; [cbn [String.append]; now destruct (last_char b)|]. cbn [String.append].
  destruct a as [|d a].
  - cbn [String.append]. destruct b as [|e b]; [reflexivity|]. change (last_char (String c (String e b))) with (last_char (String e b)).
    specialize (K e b). now destruct (last_char (String e b)).
  - change (last_char (String c (String d a ++ b))) with (last_char (String d a ++ b)). rewrite IH. reflexivity.
Qed.
Lemma last_char_split t c : last_char t = Some c -> exists a, t = (a ++ String c "")%string.
Proof.
  induction t as [|x t IH]; [discriminate|]. destruct t as [|y t].
  - intros [= <-]. exists ""%string. reflexivity.
  - intros E. destruct (IH E) as [a Ea]. exists (String x a). cbn [String.append]. now rewrite <- Ea.
Qed.
Lemma ends_trim t : ends t = true -> trim_end t = t.
Proof.
  unfold ends. destruct (last_char t) as [c|] eqn:E; [|discriminate]. intros H. destruct (last_char_split _ _ E) as [a ->].
  apply trim_end_keep. now destruct (is_blank c).
Qed.
Lemma ends_app a b : ends b = true -> ends (a ++ b) = true.
Proof. unfold ends. rewrite last_char_app. now destruct (last_char b). Qed.
Lemma starts_app a b : starts a = true -> starts (a ++ b) = true.
Proof. destruct a; [discriminate|auto]. Qed.
Lemma starts_drop t : starts t = true -> drop_spaces t = t /\ leading_spaces t = 0 /\ String.prefix triple t = false.
Proof.
  destruct t as [|c t]; [discriminate|]. cbn [starts]. intros H. apply andb_true_iff in H as [H1 H2].
  rewrite drop_spaces_cons, leading_spaces_cons. destruct (is_blank c); [discriminate|]. split; [reflexivity|]. split; [reflexivity|].
  unfold triple. cbn [String.prefix]. destruct (ascii_dec """" c) as [<-|]; [discriminate|reflexivity].
Qed.
Lemma starts_nonempty t : starts t = true -> exists c r, t = String c r.
Proof. destruct t; [discriminate|eauto]. Qed.

Lemma line_simple i t : neutral t -> starts t = true -> ends t = true -> lex_line Top (pad i ++ t) = Some (Top, [(i, t)]).
Proof.
  intros N B E. destruct (starts_drop _ B) as (D & L & P). unfold lex_line. rewrite drop_pad, leading_pad, D, L, P, (neutral_scan _ N), (ends_trim _ E), Nat.add_0_r.
  destruct (starts_nonempty _ B) as (c & r & ->). reflexivity.
Qed.
Lemma line_comment i t : lex_line Top (pad i ++ String "#" t) = Some (Top, []).
Proof. unfold lex_line. now rewrite drop_pad. Qed.
Lemma line_blank i : lex_line Top (pad i) = Some (Top, []).
Proof. unfold lex_line. now rewrite (drop_spaces_blank _ (only_pad i)). Qed.
Lemma line_trailing_comment i t u : neutral t -> starts t = true -> ends t = true ->
  lex_line Top (pad i ++ t ++ "  #" ++ u) = Some (Top, [(i, t)]).
Proof.
  intros N B E. destruct (starts_drop _ (starts_app _ ("  #" ++ u) B)) as (D & L & P). unfold lex_line. rewrite drop_pad, leading_pad, D, L, P, (proj2 N).
  cbn [scan]. cbn. rewrite (trim_end_app _ "  "%string eq_refl), (ends_trim _ E), Nat.add_0_r. destruct (starts_nonempty _ B) as (c & r & ->). reflexivity.
Qed.

(** a statement with one pair of brackets over several lines *)
Lemma line_brackets i j l t d : neutral l -> starts l = true -> ends l = true ->
  lex_line (InBrackets i t (S d)) (pad j ++ l) = Some (InBrackets i (t ++ " " ++ l) (S d), []).
Proof.
  intros N B E. destruct (starts_drop _ B) as (D & _ & _). unfold lex_line. rewrite drop_pad, D, (neutral_scan _ N), (ends_trim _ E).
  destruct (starts_nonempty _ B) as (c & r & ->). reflexivity.
Qed.
Lemma lex_brackets i mids : Forall (fun l => neutral l /\ starts l = true /\ ends l = true) mids -> forall j t d,
  lex (InBrackets i t (S d)) (map (fun l => (pad j ++ l)%string) mids)
  = Some (InBrackets i (t ++ concat_str (map (fun l => " " ++ l) mids))%string (S d), []).
Proof.
  induction 1 as [|l mids (N & B & E) _ IH]; intros j t d; [cbn; now rewrite append_nil_r|].
  cbn [map lex]. rewrite (line_brackets i j l t d N B E). rewrite IH. cbn [concat_str fold_right]. rewrite !append_assoc. reflexivity.
Qed.
Lemma scan_open t d : neutral t -> scan None d (t ++ "(") = Some ((t ++ "(")%string, S d).
Proof. intros [_ N]. rewrite N. reflexivity. Qed.
Lemma piece_multiline i j start mids : neutral start -> starts start = true -> mids <> [] ->
  Forall (fun l => neutral l /\ starts l = true /\ ends l = true) mids ->
  piece i (((pad i ++ start ++ "(")%string :: map (fun l => (pad j ++ l)%string) mids) ++ [(pad i ++ ")")%string])
    [Simple (start ++ "(" ++ concat_str (map (fun l => " " ++ l) mids) ++ " )")%string].
Proof.
  intros N B _ F. exists [(i, (start ++ "(" ++ concat_str (map (fun l => " " ++ l) mids) ++ " )")%string)]. split.
  - unfold logical_lines.
    assert (E : lex_line Top (pad i ++ start ++ "(") = Some (InBrackets i (start ++ "(") 1, [])).
    { destruct (starts_drop _ (starts_app _ "(" B)) as (D & L & P). unfold lex_line. rewrite drop_pad, leading_pad, D, L, P, (scan_open _ _ N), Nat.add_0_r.
      rewrite (ends_trim _ (ends_app start "(" eq_refl)). destruct (starts_nonempty _ B) as (c & r & ->). reflexivity. }
    cbn [app lex]. rewrite E, (lex_app _ _ _ _ _ (lex_brackets i mids F j (start ++ "(") 0)). cbn [lex].
    assert (E2 : forall t, lex_line (InBrackets i t 1) (pad i ++ ")") = Some (Top, [(i, (t ++ " )")%string)])) by (intros t; unfold lex_line; rewrite drop_pad; reflexivity).
    rewrite E2, !append_assoc. reflexivity.
  - apply reads_simple; [|constructor]. unfold is_head.
    assert (K : forall a, ends_with ":" (a ++ ")") = false).
    { induction a as [|c a IH]; [reflexivity|]. cbn [String.append ends_with]. rewrite IH, orb_false_r.
      destruct a as [|x [|y a]]; cbn [String.append]; destruct (Ascii.ascii_dec c ":") as [->|]; apply String.eqb_neq; try congruence; discriminate. }
    replace (start ++ "(" ++ concat_str (map (fun l => " " ++ l) mids) ++ " )")%string with ((start ++ "(" ++ concat_str (map (fun l => " " ++ l) mids) ++ " ") ++ ")")%string; [apply K|].
    now rewrite !append_assoc.
Qed.

(** the last character decides whether a block follows *)
Lemma is_head_last t : is_head t = match last_char t with Some c => Ascii.eqb c ":" | None => false end.
Proof.
  unfold is_head. induction t as [|c t IH]; [reflexivity|]. cbn [ends_with]. destruct t as [|d t].
  - cbn [last_char ends_with String.eqb]. rewrite !orb_false_r. destruct (Ascii.eqb_spec ":" c) as [<-|N]; [reflexivity|].
    destruct (Ascii.eqb_spec c ":") as [->|]; congruence.
  - change (last_char (String c (String d t))) with (last_char (String d t)). rewrite IH.
    replace (String.eqb ":" (String c (String d t))) with false; [reflexivity|]. symmetry. apply String.eqb_neq. discriminate.
Qed.
Lemma piece_statement i t : neutral t -> starts t = true -> ends t = true -> is_head t = false -> piece i [(pad i ++ t)%string] [Simple t].
Proof. intros N B E H. apply piece_simple; [now apply line_simple|exact H]. Qed.

(** ** From text to lines *)

Lemma lines_of_nonempty s : lines_of s <> [].
Proof. induction s as [|c s IH]; [discriminate|]. cbn [lines_of]. destruct (Ascii.eqb c newline); [discriminate|]. now destruct (lines_of s). Qed.
Lemma lines_of_app a b : lines_of (a ++ String newline b) = lines_of a ++ lines_of b.
Proof.
  induction a as [|c a IH]; [reflexivity|]. cbn [String.append lines_of]. rewrite IH. destruct (Ascii.eqb c newline); [reflexivity|].
  pose proof (lines_of_nonempty a) as N. destruct (lines_of a); [congruence|]. reflexivity.
Qed.
Lemma lines_of_one a : has_char newline a = false -> lines_of a = [a].
Proof.
  induction a as [|c a IH]; [reflexivity|]. cbn [has_char lines_of]. intros H. apply orb_false_iff in H as [H1 H2].
  assert (E : Ascii.eqb c newline = false) by (first [exact H1|rewrite Ascii.eqb_sym; exact H1]). now rewrite E, (IH H2).
Qed.
Lemma lines_of_join ls : ls <> [] -> Forall (fun l => has_char newline l = false) ls -> lines_of (join nl ls) = ls.
Proof.
  intros N F. induction F as [|l ls H F IH]; [congruence|]. destruct ls as [|m ls]; [now apply lines_of_one|].
  change (join nl (l :: m :: ls)) with (l ++ String newline (join nl (m :: ls)))%string. rewrite lines_of_app, IH, (lines_of_one _ H); [reflexivity|discriminate].
Qed.
(** text that ends with a newline, followed by other text *)
Lemma lines_of_text a b : lines_of ((a ++ nl) ++ b) = lines_of a ++ lines_of b.
Proof. rewrite append_assoc. apply lines_of_app. Qed.

(** ** Sums *)

Definition text_ok (t : string) : Prop := neutral t /\ starts t = true /\ ends t = true.

Lemma concat_spaced rs c : concat_str (map (fun l => " " ++ l)%string (map (fun r => r ++ " +")%string rs ++ [c])) = (" " ++ String.concat " + " (rs ++ [c]))%string.
Proof.
  induction rs as [|r rs IH]; [cbn [map app concat_str fold_right String.concat]; now rewrite append_nil_r|].
  cbn [map app]. change (concat_str (?x :: ?l)) with (x ++ concat_str l)%string. unfold concat_str in *. cbn [fold_right].
  rewrite IH. replace (String.concat " + " (r :: rs ++ [c])) with (r ++ " + " ++ String.concat " + " (rs ++ [c]))%string by (destruct rs; reflexivity).
  rewrite !append_assoc. reflexivity.
Qed.

Definition sum_lines (i j : nat) (start : string) (rs : list string) : list string :=
  match rs with
  | [c] => [(pad i ++ start ++ c)%string]
  | _ => (pad i ++ start ++ "(")%string
         :: map (fun r => (pad j ++ r ++ " +")%string) (removelast rs)
         ++ map (fun r => (pad j ++ r)%string) (match rev rs with [] => [] | c :: _ => [c] end)
         ++ [(pad i ++ ")")%string]
  end.
Lemma sum_lines_many i j start x l c : sum_lines i j start ((x :: l) ++ [c]) =
  ((pad i ++ start ++ "(")%string :: map (fun l => (pad j ++ l)%string) (map (fun r => r ++ " +")%string (x :: l) ++ [c])) ++ [(pad i ++ ")")%string].
Proof.
  assert (E : sum_lines i j start ((x :: l) ++ [c]) = (pad i ++ start ++ "(")%string
         :: map (fun r => (pad j ++ r ++ " +")%string) (removelast ((x :: l) ++ [c]))
         ++ map (fun r => (pad j ++ r)%string) (match rev ((x :: l) ++ [c]) with [] => [] | c :: _ => [c] end)
         ++ [(pad i ++ ")")%string]) by (destruct l; reflexivity).
  rewrite E, removelast_last, rev_app_distr. cbn [rev app map]. f_equal. f_equal. rewrite map_app, map_map, <- app_assoc. reflexivity.
Qed.
Lemma sum_text_many x l c : sum_text ((x :: l) ++ [c]) = ("(" ++ concat_str (map (fun l => " " ++ l) (map (fun r => r +++ " +") (x :: l) ++ [c])%list) ++ " )")%string.
Proof. rewrite concat_spaced. destruct l; reflexivity. Qed.
Lemma piece_sum i j start rs : neutral start -> starts start = true -> rs <> [] ->
  Forall (fun r => text_ok r /\ is_head r = false) rs ->
  piece i (sum_lines i j start rs) [Simple (start ++ sum_text rs)%string].
Proof.
  intros N B NE F. destruct rs as [|r1 [|r2 rs]]; [congruence| |].
  - apply Forall_cons_iff in F as [((N1 & B1 & E1) & H1) _]. cbn [sum_lines sum_text]. apply piece_statement.
    + now apply neutral_app. + now apply starts_app. + now apply ends_app.
    + rewrite is_head_last, last_char_app. rewrite is_head_last in H1. unfold ends in E1. destruct (last_char r1); [exact H1|discriminate].
  - assert (Q : exists l c, r1 :: r2 :: rs = l ++ [c] /\ l <> []).
    { destruct (@exists_last _ (r2 :: rs)) as (l & c & E); [discriminate|]. exists (r1 :: l), c. rewrite E. split; [reflexivity|discriminate]. }
    destruct Q as (l & c & E & L). rewrite E in *. clear E r1 r2 rs. destruct l as [|x l]; [congruence|]. clear L.
    rewrite sum_lines_many, sum_text_many.
    apply piece_multiline; [exact N|exact B|destruct l; discriminate|].
    apply Forall_app in F as [F1 F2]. apply Forall_app. split.
    + apply Forall_map. eapply Forall_impl; [|exact F1]. cbn beta. intros r ((N1 & B1 & E1) & _). split; [|split].
      * apply neutral_app; [exact N1|now apply neutral_plain]. * now apply starts_app. * now apply ends_app.
    + constructor; [|constructor]. apply Forall_cons_iff in F2 as [(T & _) _]. exact T.
Qed.

Lemma tabs_pad n : str_repeat tab n = pad (4 * n).
Proof. induction n as [|n IH]; [reflexivity|]. cbn [str_repeat]. rewrite IH. replace (4 * S n) with (4 + 4 * n) by lia. now rewrite pad_add. Qed.

(** ** Ordinary lines *)

(** one line that does not start a documentation string *)
Definition no_doc (l : string) : Prop := String.prefix triple (drop_spaces l) = false /\ has_char newline l = false.
Definition no_doc_state (st : lex_state) : Prop := match st with Top => True | InBrackets _ _ d => d <> 0 | InDoc _ _ => False end.

Lemma line_no_doc st l st' out : no_doc_state st -> no_doc l -> lex_line st l = Some (st', out) -> no_doc_state st'.
Proof.
  intros S0 [D _]. revert S0. destruct st as [|i t0 d0|]; [| |intros []]; intros S0; unfold lex_line; rewrite ?D.
  - destruct (scan None 0 _) as [[t d]|]; [|discriminate]. destruct (trim_end t), d; intros [= <- _]; exact I || discriminate.
  - destruct (scan None d0 _) as [[t d]|]; [|discriminate]. destruct d; intros [= <- _]; exact I || discriminate.
Qed.
Lemma line_empty st : no_doc_state st -> lex_line st "" = Some (st, []).
Proof. destruct st as [|i t d|]; [reflexivity| |intros []]. intros N. cbn. destruct d; [now elim N|reflexivity]. Qed.

Lemma pad_no_newline k : has_char newline (pad k) = false.
Proof. induction k as [|k IH]; [reflexivity|]. cbn [pad has_char]. rewrite IH. reflexivity. Qed.
Lemma no_doc_pad k t : no_doc t -> no_doc (pad k ++ t).
Proof. unfold no_doc. now rewrite drop_pad, has_char_app, pad_no_newline. Qed.
Lemma no_doc_starts t : neutral t -> starts t = true -> no_doc t.
Proof. intros [N _] B. destruct (starts_drop _ B) as (D & _ & P). unfold no_doc. now rewrite D. Qed.
Lemma no_doc_empty : no_doc "".
Proof. split; reflexivity. Qed.
Lemma no_doc_lines ls : Forall no_doc ls -> Forall (fun l => has_char newline l = false) ls.
Proof. apply Forall_impl. intros l [_ H]. exact H. Qed.
Lemma sum_lines_no_doc i j start rs : neutral start -> starts start = true -> Forall text_ok rs -> Forall no_doc (sum_lines i j start rs).
Proof.
  intros N B F. assert (D : forall k t, neutral t -> starts t = true -> no_doc (pad k ++ t)) by (intros; apply no_doc_pad, no_doc_starts; assumption).
  assert (G : forall x, In x rs -> starts x = true /\ neutral x) by (rewrite Forall_forall in F; intros x Hx; destruct (F x Hx) as (A1 & A2 & _); auto).
  assert (O : no_doc (pad i ++ start ++ "(")).
  { apply no_doc_pad. destruct N as [N _]. destruct (starts_drop _ (starts_app _ "(" B)) as (D' & _ & P). unfold no_doc. rewrite D', has_char_app, N. auto. }
  assert (M : Forall no_doc ((pad i ++ start ++ "(")%string
         :: map (fun r => (pad j ++ r ++ " +")%string) (removelast rs)
         ++ map (fun r => (pad j ++ r)%string) (match rev rs with [] => [] | c :: _ => [c] end)
         ++ [(pad i ++ ")")%string])).
  { constructor; [exact O|]. apply Forall_app. split; [|apply Forall_app; split].
    - apply Forall_map, Forall_forall. intros x Hx. assert (Ix : In x rs).
      { clear -Hx. induction rs as [|a l IH]; [destruct Hx|]. destruct l; [destruct Hx|]. destruct Hx as [->|Hx]; [now left|right; auto]. }
      destruct (G x Ix) as [G1 G2]. apply D; [apply neutral_app; [exact G2|now apply neutral_plain]|now apply starts_app].
    - apply Forall_map, Forall_forall. intros x Hx. assert (Ix : In x rs) by (apply in_rev; destruct (rev rs); [destruct Hx|]; destruct Hx as [->|[]]; now left).
      destruct (G x Ix). now apply D.
    - constructor; [|constructor]. apply no_doc_pad. split; reflexivity. }
  unfold sum_lines. destruct rs as [|c [|c2 rs]]; [exact M| |exact M]. constructor; [|constructor]. destruct (G c (or_introl eq_refl)) as [G1 G2].
  apply D; [now apply neutral_app|now apply starts_app].
Qed.
Lemma last_char_trim t c : last_char t = Some c -> is_blank c = false -> trim_end t = t.
Proof. intros E B. apply ends_trim. unfold ends. now rewrite E, B. Qed.

(** documentation strings *)
Lemma ends_with_last_ne e t c d : last_char t = Some c -> last_char e = Some d -> c <> d -> ends_with e t = false.
Proof.
  intros Et Ee N. induction t as [|x t IH]; [discriminate|]. cbn [ends_with].
  assert (NE : String.eqb e (String x t) = false) by (apply String.eqb_neq; intros ->; congruence). rewrite NE. cbn [orb].
  destruct t as [|y t]; [|now apply IH]. cbn [ends_with]. rewrite orb_false_r. apply String.eqb_neq. intros ->. discriminate.
Qed.
Lemma prefix_triple a : String.prefix triple (triple ++ a) = true.
Proof. unfold triple. cbn. now destruct a. Qed.
Lemma drop_triple a : drop_spaces (triple ++ a) = (triple ++ a)%string /\ leading_spaces (triple ++ a) = 0.
Proof. split; reflexivity. Qed.
(** on one line *)
Lemma piece_doc i a : a <> ""%string -> piece i [(pad i ++ triple ++ a ++ triple)%string] [Simple (triple ++ a ++ triple)].
Proof.
  intros _. apply piece_simple.
  - unfold lex_line. rewrite drop_pad, leading_pad. destruct (drop_triple (a ++ triple)) as [-> ->]. rewrite prefix_triple.
    rewrite (last_char_trim (triple ++ a ++ triple) """"%char) by (rewrite ?last_char_app; reflexivity).
    assert (L : Nat.leb 6 (String.length (triple ++ a ++ triple)) = true).
    { apply Nat.leb_le. assert (LA : forall x y, String.length (x ++ y) = String.length x + String.length y) by (induction x; intros; cbn; auto).
      rewrite !LA. unfold triple. cbn [String.length]. lia. }
    rewrite L, <- append_assoc, ends_with_app, Nat.add_0_r. reflexivity.
  - rewrite is_head_last, !last_char_app. reflexivity.
Qed.
(** on several lines; the closing quotes have their own line *)
Definition doc_text (first : string) (mids : list string) : string :=
  ((triple ++ first) ++ concat_str (map (String newline) mids) ++ String newline triple)%string.
Lemma piece_doc_lines i first mids :
  (exists c, last_char first = Some c /\ is_blank c = false /\ c <> quote2) ->
  Forall (fun l => starts l = true /\ exists c, last_char l = Some c /\ is_blank c = false /\ c <> quote2) mids ->
  piece i ((pad i ++ triple ++ first)%string :: map (fun l => (pad i ++ l)%string) mids ++ [(pad i ++ triple)%string]) [Simple (doc_text first mids)].
Proof.
  intros (c & Lc & Bc & Nc) F.
  assert (L1 : lex_line Top (pad i ++ triple ++ first) = Some (InDoc i (triple ++ first), [])).
  { unfold lex_line. rewrite drop_pad, leading_pad. destruct (drop_triple first) as [-> ->]. rewrite prefix_triple.
    assert (LT : last_char (triple ++ first) = Some c) by (rewrite last_char_app, Lc; reflexivity).
    rewrite (last_char_trim _ c LT Bc), (ends_with_last_ne triple _ c quote2 LT eq_refl Nc), andb_false_r, Nat.add_0_r. reflexivity. }
  assert (L2 : forall t, lex (InDoc i t) (map (fun l => (pad i ++ l)%string) mids) = Some (InDoc i (t ++ concat_str (map (String newline) mids)), [])).
  { induction F as [|l mids (Sl & x & Lx & Bx & Nx) _ IH]; intros t; [cbn; now rewrite append_nil_r|].
    cbn [map lex].
    assert (K : lex_line (InDoc i t) (pad i ++ l) = Some (InDoc i (t ++ String newline l), [])).
    { unfold lex_line. rewrite drop_pad. destruct (starts_drop _ Sl) as (-> & _ & _).
      rewrite (last_char_trim _ x Lx Bx), (ends_with_last_ne triple _ x quote2 Lx eq_refl Nx). reflexivity. }
    rewrite K, IH. rewrite append_assoc. reflexivity. }
  exists [(i, doc_text first mids)]. split.
  - unfold logical_lines. cbn [lex]. rewrite L1, (lex_app _ _ _ _ _ (L2 _)). cbn [lex]. unfold lex_line. rewrite drop_pad. unfold doc_text. rewrite <- append_assoc. reflexivity.
  - apply reads_simple; [|constructor]. unfold doc_text. rewrite is_head_last, <- append_assoc, last_char_app. reflexivity.
Qed.

(** ** Pieces of text *)

(** complete lines *)
Definition closed (t : string) (b : list stmt) : Prop :=
  exists ls, piece 0 ls b /\ forall r, lines_of (t ++ r) = ls ++ lines_of r.
(** the end of a line and complete lines *)
Definition opened (t : string) (b : list stmt) : Prop :=
  exists ls, piece 0 ls b /\ forall x r, has_char newline x = false -> lines_of (x ++ t ++ r) = x :: ls ++ lines_of r.
(** a line without a statement *)
Definition silent (c : string) : Prop := has_char newline c = false /\ lex_line Top c = Some (Top, []).

Lemma closed_nil : closed "" [].
Proof. exists []. split; [apply piece_nil|reflexivity]. Qed.
Lemma closed_app t u b c : closed t b -> closed u c -> closed (t ++ u) (b ++ c).
Proof.
  intros (l1 & P1 & E1) (l2 & P2 & E2). exists (l1 ++ l2). split; [now apply piece_app|]. intros r. now rewrite append_assoc, E1, E2, app_assoc.
Qed.
Lemma closed_concat {A} (f : A -> string) (g : A -> list stmt) l : (forall x, In x l -> closed (f x) (g x)) -> closed (concat_str (map f l)) (flat_map g l).
Proof.
  induction l as [|a l IH]; intros H; [apply closed_nil|]. cbn [map flat_map]. change (concat_str (f a :: map f l)) with (f a ++ concat_str (map f l))%string.
  apply closed_app; [apply H; now left|]. apply IH. intros; apply H; now right.
Qed.
Lemma opened_closed t b : opened t b -> closed t b.
Proof. intros (ls & P & E). exists (""%string :: ls). split; [apply (piece_app 0 [""%string] ls []); [now apply piece_skip|exact P]|]. intros r. exact (E ""%string r eq_refl). Qed.
Lemma opened_app t u b c : opened t b -> closed u c -> opened (t ++ u) (b ++ c).
Proof.
  intros (l1 & P1 & E1) (l2 & P2 & E2). exists (l1 ++ l2). split; [now apply piece_app|]. intros x r H. now rewrite append_assoc, (E1 x _ H), E2, app_assoc.
Qed.
Lemma opened_concat {A} (f : A -> string) (g : A -> list stmt) l : l <> [] -> (forall x, In x l -> opened (f x) (g x)) -> opened (concat_str (map f l)) (flat_map g l).
Proof.
  destruct l as [|a l]; intros N H; [congruence|]. cbn [map flat_map]. change (concat_str (f a :: map f l)) with (f a ++ concat_str (map f l))%string.
  apply opened_app; [apply H; now left|]. apply closed_concat. intros x Hx. apply opened_closed, H. now right.
Qed.
Lemma closed_silent c t b : silent c -> opened t b -> closed (c ++ t) b.
Proof.
  intros (C1 & C2) (ls & P & E). exists (c :: ls). split; [apply (piece_app 0 [c] ls []); [now apply piece_skip|exact P]|].
  intros r. now rewrite append_assoc, (E _ _ C1).
Qed.
Lemma nl_append r : (nl ++ r)%string = String newline r.
Proof. reflexivity. Qed.
Lemma opened_nl : opened nl [].
Proof. exists []. split; [apply piece_nil|]. intros x r H. rewrite nl_append, lines_of_app, (lines_of_one x H). reflexivity. Qed.
Lemma closed_comment c : silent c -> closed (c ++ nl) [].
Proof. intros C. exact (closed_silent c nl [] C opened_nl). Qed.
Lemma closed_nl : closed nl [].
Proof. apply opened_closed, opened_nl. Qed.
Lemma join_cons_nl ls : join nl (""%string :: ls) = match ls with [] => ""%string | _ => (nl ++ join nl ls)%string end.
Proof. now destruct ls. Qed.
(** a text that starts with an empty line and ends with a newline *)
Lemma opened_lines ls b : ls <> [] -> Forall (fun l => has_char newline l = false) ls -> piece 0 ls b -> opened (join nl (""%string :: ls) ++ nl) b.
Proof.
  intros N F P. exists ls. split; [exact P|]. intros x r H. rewrite join_cons_nl. destruct ls as [|l0 l]; [congruence|]. set (ls := l0 :: l) in *.
  rewrite append_assoc. rewrite append_assoc, nl_append, lines_of_app, (lines_of_one x H). rewrite nl_append, lines_of_app, lines_of_join by assumption. reflexivity.
Qed.
Lemma closed_lines ls b : Forall (fun l => has_char newline l = false) ls -> piece 0 ls b -> closed (concat_str (map (fun l => l ++ nl)%string ls)) b.
Proof.
  intros F P. exists ls. split; [exact P|]. clear P. intros r. induction F as [|a ls A F IH]; [reflexivity|].
  cbn [map]. change (concat_str ((a ++ nl)%string :: ?m)) with ((a ++ nl) ++ concat_str m)%string. rewrite !append_assoc, nl_append, lines_of_app, (lines_of_one a A), IH. reflexivity.
Qed.
Lemma closed_python t c b : closed t b -> silent c -> python (t ++ c) b.
Proof.
  intros (ls & P & E) (C1 & C2). apply (proj1 (piece_python _ _)). rewrite E, (lines_of_one c C1). rewrite <- (app_nil_r b). apply piece_app; [exact P|now apply piece_skip].
Qed.
