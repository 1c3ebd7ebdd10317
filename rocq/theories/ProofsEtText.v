(** Calls of the e^T ansatz with the same text are the same. *)
From Coq Require Import Lia.
From Verif Require Import PyBase PyStr PyBaseFacts ModelHelper ModelW ModelFullCC ModelFullCCPy ModelZhz ModelEt ModelEtPy
  SpecFullCCPy SpecEt SpecEtPy ProofsStr ProofsFullCCLabels ProofsEt ProofsEtPy.
Local Open Scope nat_scope.
Local Open Scope list_scope.

Lemma cut c a b a' b' : has_char c a = false -> has_char c a' = false ->
  (a ++ String c b = a' ++ String c b')%string -> a = a' /\ b = b'.
Proof.
  revert a'. induction a as [|x a IH]; intros [|x' a'] H H' E; cbn in *.
  - now injection E.
  - injection E as <- E. rewrite Ascii.eqb_refl in H'. discriminate.
  - injection E as -> E. rewrite Ascii.eqb_refl in H. discriminate.
  - injection E as -> E. apply orb_false_iff in H as [_ H]. apply orb_false_iff in H' as [_ H'].
    destruct (IH a' H H' E) as [-> ->]. auto.
Qed.
Lemma append_inj_l a b c : (a ++ b = a ++ c)%string -> b = c.
Proof. induction a as [|x a IH]; cbn; intros E; [exact E|]. injection E as E. auto. Qed.
Lemma append_inj_r a b c : (a ++ c = b ++ c)%string -> a = b.
Proof.
  intros E. apply (f_equal chars) in E. rewrite !chars_app in E. apply app_inv_tail in E.
  rewrite <- (of_chars_chars a), <- (of_chars_chars b). now f_equal.
Qed.

Lemma join_inj l : forall l', l <> [] -> l' <> [] ->
  (forall x, In x l -> has_char ","%char x = false) -> (forall x, In x l' -> has_char ","%char x = false) ->
  join ", " l = join ", " l' -> l = l'.
Proof.
  induction l as [|x l IH]; intros l' N N' F F' E; [easy|]. destruct l' as [|x' l']; [easy|].
  destruct l as [|z l], l' as [|z' l'].
  - cbn in E. now subst.
  - exfalso. change (join ", " [x]) with x in E. change (join ", " (x' :: z' :: l')) with (x' +++ (", " +++ join ", " (z' :: l')))%string in E.
    pose proof (F x (or_introl eq_refl)) as H. rewrite E, !has_char_app in H. cbn in H. rewrite orb_true_r in H. discriminate.
  - exfalso. change (join ", " [x']) with x' in E. change (join ", " (x :: z :: l)) with (x +++ (", " +++ join ", " (z :: l)))%string in E.
    pose proof (F' x' (or_introl eq_refl)) as H. rewrite <- E, !has_char_app in H. cbn in H. rewrite orb_true_r in H. discriminate.
  - change (join ", " (x :: z :: l)) with (x +++ String "," (String " " (join ", " (z :: l))))%string in E.
    change (join ", " (x' :: z' :: l')) with (x' +++ String "," (String " " (join ", " (z' :: l'))))%string in E.
    apply cut in E as [-> E]; [|apply F; now left|apply F'; now left]. injection E as E. f_equal.
    apply IH; auto; try discriminate; intros; [apply F|apply F']; now right.
Qed.

Definition plain_operand (o : operand) : Prop := has_char "["%char (fst o) = false /\ has_char "]"%char (fst o) = false.

Lemma operand_inj o o' : plain_operand o -> plain_operand o' -> render_operand o = render_operand o' -> o = o'.
Proof.
  destruct o as [nm [a b]], o' as [nm' [a' b']]. intros [P1 _] [P2 _]. cbn [fst] in *. unfold render_operand, pair_text. cbn [fst snd]. intros E.
  change (nm ++ ("[" ++ ("(" ++ str_nat a ++ ", " ++ str_nat b ++ ")") ++ "]"))%string with
    (nm ++ String "[" (("(" ++ str_nat a ++ ", " ++ str_nat b ++ ")") ++ "]"))%string in E.
  change (nm' ++ ("[" ++ ("(" ++ str_nat a' ++ ", " ++ str_nat b' ++ ")") ++ "]"))%string with
    (nm' ++ String "[" (("(" ++ str_nat a' ++ ", " ++ str_nat b' ++ ")") ++ "]"))%string in E.
  apply cut in E as [-> E]; auto. apply append_inj_r in E. cbn [append] in E. injection E as E.
  apply cut in E as [E1 E2]; [|apply str_nat_no_char; reflexivity..]. injection E2 as E2. apply append_inj_r in E2.
  apply str_nat_inj in E1, E2. now subst.
Qed.
Lemma operand_shape o : plain_operand o -> exists body, render_operand o = (body ++ "]")%string /\ has_char "]"%char body = false.
Proof.
  intros [_ P]. unfold render_operand, pair_text. exists (fst o ++ "[(" ++ str_nat (fst (snd o)) ++ ", " ++ str_nat (snd (snd o)) ++ ")")%string. split.
  - repeat (rewrite ?append_assoc; cbn [append]). reflexivity.
  - rewrite !has_char_app, P, !str_nat_no_char by reflexivity. reflexivity.
Qed.
Lemma operands_inj l : forall l', Forall plain_operand l -> Forall plain_operand l' ->
  join ", " (map render_operand l) = join ", " (map render_operand l') -> l = l'.
Proof.
  assert (J : forall o l, join ", " (map render_operand (o :: l)) = (render_operand o ++ match l with [] => "" | _ => ", " ++ join ", " (map render_operand l) end)%string).
  { intros o [|o2 l2]; cbn [map join]; [now rewrite append_nil_r|reflexivity]. }
  induction l as [|o l IH]; intros [|o' l'] F F' E; [reflexivity| | |].
  - exfalso. apply Forall_inv in F'. destruct (operand_shape o' F') as (b & Eb & _). rewrite J, Eb, append_assoc in E. cbn in E. destruct b; discriminate.
  - exfalso. apply Forall_inv in F. destruct (operand_shape o F) as (b & Eb & _). rewrite J, Eb, append_assoc in E. cbn in E. destruct b; discriminate.
  - apply Forall_cons_iff in F as [Fo F]. apply Forall_cons_iff in F' as [Fo' F']. rewrite !J in E.
    destruct (operand_shape o Fo) as (b & Eb & Nb). destruct (operand_shape o' Fo') as (b' & Eb' & Nb').
    assert (E2 : render_operand o = render_operand o' /\ match l with [] => "" | _ => ", " ++ join ", " (map render_operand l) end%string
      = match l' with [] => "" | _ => ", " ++ join ", " (map render_operand l') end%string).
    { rewrite Eb, Eb', !append_assoc in E. apply (cut "]"%char) in E as [-> E]; [|exact Nb|exact Nb']. rewrite Eb, Eb'. split; [reflexivity|exact E]. }
    destruct E2 as [E1 E2]. apply operand_inj in E1; [|exact Fo|exact Fo']. subst o'. f_equal.
    destruct l as [|u l], l' as [|u' l']; [reflexivity|discriminate|discriminate|]. apply IH; [exact F|exact F'|].
    now apply (append_inj_l ", ") in E2.
Qed.

Definition plain_call (c : ecall) : Prop :=
  c_inputs c <> [] /\
  (forall g x, In g (c_inputs c) -> In x [","; "'"; "-"]%char -> has_char x g = false) /\
  has_char "'"%char (c_output c) = false /\ Forall plain_operand (c_operands c).

Lemma no_char_join c l : (forall g, In g l -> has_char c g = false) -> has_char c ", " = false -> has_char c (join ", " l) = false.
Proof.
  intros F H. induction l as [|g l IH]; [reflexivity|]. destruct l as [|g2 l]; [apply F; now left|].
  change (join ", " (g :: g2 :: l)) with (g +++ (", " +++ join ", " (g2 :: l)))%string. rewrite !has_char_app, H.
  rewrite F by now left. rewrite IH; [reflexivity|]. intros; apply F; now right.
Qed.

Lemma call_inj c c' : plain_call c -> plain_call c' -> render_ecall c = render_ecall c' -> c = c'.
Proof.
  destruct c as [i o l], c' as [i' o' l']. intros (N & F & O & L) (N' & F' & O' & L'). unfold render_ecall. cbn [c_inputs c_output c_operands] in *.
  intros E. apply (append_inj_l "np.einsum('") in E.
  assert (A : forall i o l, ((join ", " i ++ " -> " ++ o ++ "', " ++ join ", " (map render_operand l) ++ ")")
    = (join ", " i ++ " -> " ++ o) ++ String "'" (", " ++ join ", " (map render_operand l) ++ ")"))%string).
  { intros. rewrite !append_assoc. reflexivity. }
  rewrite !A in E. apply cut in E as [E1 E2].
  - apply (append_inj_l ", ") in E2. apply append_inj_r in E2. apply operands_inj in E2; [|exact L|exact L']. subst l'.
    assert (B : forall i o, (join ", " i ++ " -> " ++ o = (join ", " i ++ " ") ++ String "-" ("> " ++ o))%string) by (intros; rewrite append_assoc; reflexivity).
    rewrite !B in E1. apply cut in E1 as [E1 E3].
    + apply append_inj_r in E1. injection E3 as E3. subst o'. apply join_inj in E1; auto; [now subst| |]; intros x Hx; [eapply F|eapply F']; cbn; eauto.
    + rewrite has_char_app, no_char_join; [reflexivity| |reflexivity]. intros; apply F; cbn; auto.
    + rewrite has_char_app, no_char_join; [reflexivity| |reflexivity]. intros; apply F'; cbn; auto.
  - rewrite !has_char_app, O, no_char_join; [reflexivity| |reflexivity]. intros; apply F; cbn; auto.
  - rewrite !has_char_app, O', no_char_join; [reflexivity| |reflexivity]. intros; apply F'; cbn; auto.
Qed.

(** ** The calls of the ansatz *)
Definition lower (x : ascii) : bool := Nat.leb 97 (nat_of_ascii x).
Lemma lower_no_char c l : lower c = false -> forallb lower l = true -> has_char c (of_chars l) = false.
Proof.
  intros H. induction l as [|x l IH]; intros F; [reflexivity|]. cbn [forallb] in F. apply andb_true_iff in F as [F1 F2].
  cbn [of_chars has_char]. rewrite IH by exact F2. destruct (Ascii.eqb_spec x c) as [->|]; [congruence|].
  destruct (Ascii.eqb_spec c x) as [->|]; [congruence|]. reflexivity.
Qed.
Lemma lower_slice l a n : forallb lower l = true -> forallb lower (slice l a n) = true.
Proof.
  intros F. unfold slice. apply forallb_forall. intros x H. rewrite forallb_forall in F. apply F.
  assert (G : In x (skipn a l)) by (rewrite <- (firstn_skipn n (skipn a l)); apply in_or_app; now left).
  rewrite <- (firstn_skipn a l). apply in_or_app. now right.
Qed.

Lemma the_call_plain q m n k c s : plain_call (the_call q m n k c s).
Proof.
  unfold plain_call, the_call. cbn [c_inputs c_output c_operands].
  assert (Ltz : forallb lower (tz c) = true) by (apply lower_slice; reflexivity).
  assert (Lth : forallb lower (th c) = true) by (apply lower_slice; reflexivity).
  assert (Lhz : forallb lower (hz q n) = true) by (apply lower_slice; reflexivity).
  assert (Leh : forallb lower (eh c) = true) by (apply lower_slice; reflexivity).
  assert (Lez : forallb lower (ez c) = true) by (apply lower_slice; reflexivity).
  split; [intros E; apply (f_equal (@List.length _)) in E; rewrite map_length in E; unfold groups in E; rewrite !app_length in E; cbn [List.length] in E; lia|].
  assert (G : forall go, In go (groups q m n k c s) -> (exists l, fst go = of_chars l /\ forallb lower l = true) /\ plain_operand (snd go)).
  { intros go H. unfold groups in H. apply in_app_iff in H as [H|H]; [|apply in_app_iff in H as [H|[<-|[]]]].
    - apply in_map_iff in H as (x & <- & H). cbn [fst snd]. split.
      + exists [x]. split; [reflexivity|]. cbn [forallb]. rewrite andb_true_r.
        apply in_app_iff in H as [H|H]; [rewrite forallb_forall in Ltz; auto|rewrite forallb_forall in Lth; auto].
      + destruct s; split; reflexivity.
    - unfold h_of_side in H. destruct s.
      + destruct m; [destruct n; [destruct H|]|]; destruct H as [<-|[]]; cbn [fst snd];
          (split; [eexists; split; [reflexivity|]; rewrite !forallb_app, Lth, Lhz, Leh; reflexivity|split; reflexivity]).
      + destruct H as [<-|[]]. cbn [fst snd]. split; [exists ("a" :: "c" :: th c ++ hz q n ++ eh c)%char; split; [reflexivity|]|split; reflexivity].
        cbn [forallb]. rewrite !forallb_app, Lth, Lhz, Leh. reflexivity.
    - unfold z_of_side. cbn [fst snd]. split.
      + exists ("c" :: tz c ++ hz q n ++ ez c)%char. split; [reflexivity|]. cbn [forallb]. rewrite !forallb_app, Ltz, Lhz, Lez. reflexivity.
      + destruct s; [destruct m; [destruct n|]|]; split; reflexivity. }
  split; [|split].
  - intros g x H Hx. apply in_map_iff in H as (go & <- & H). apply G in H as ((l & -> & Fl) & _). apply lower_no_char; [|exact Fl].
    destruct Hx as [<-|[<-|[<-|[]]]]; reflexivity.
  - apply lower_no_char; [reflexivity|]. cbn [forallb]. rewrite forallb_app, Leh, Lez. destruct s; reflexivity.
  - apply Forall_forall. intros o H. apply in_map_iff in H as (go & <- & H). now apply G in H.
Qed.
