(** Lemmas about the tokens and math lists of SpecTex. *)
From Coq Require Import List Ascii String Bool Arith Lia.
From Verif Require Import SpecTex.
Import ListNotations.
Open Scope list_scope.

(** ** Tokens *)

Lemma scan_app : forall a b st,
  scan st (a ++ b)%string =
  (fst (scan (fst (scan st a)) b), snd (scan st a) ++ snd (scan (fst (scan st a)) b)).
Proof.
  induction a as [|c a IH]; intros b st; cbn [scan String.append fst snd].
  - destruct (scan st b); reflexivity.
  - destruct (step st c) as [s1 t1]. rewrite IH.
    destruct (scan s1 a) as [s2 t2]; cbn [fst snd].
    destruct (scan s2 b) as [s3 t3]; cbn [fst snd]. now rewrite app_assoc.
Qed.

Lemma scan_two : forall a b st st1 st2 t1 t2,
  scan st a = (st1, t1) -> scan st1 b = (st2, t2) -> scan st (a ++ b)%string = (st2, t1 ++ t2).
Proof. intros * H1 H2. now rewrite scan_app, H1; cbn [fst snd]; rewrite H2. Qed.

(** States in which the next character starts afresh; they differ only on an
    end of line and on blanks. *)
Definition fresh (st : state) : Prop := st = NewLine \/ st = Middle \/ st = Skipping.

(** ** Math lists *)

Scheme field_text_ind2 := Minimality for field_text Sort Prop
with atom_text_ind2 := Minimality for atom_text Sort Prop
with list_text_ind2 := Minimality for list_text Sort Prop.
Combined Scheme math_text_ind from field_text_ind2, atom_text_ind2, list_text_ind2.

Definition starts_field (t : token) : Prop :=
  match t with Command _ | Char _ | Open => True | _ => False end.

Lemma field_text_head : forall ts f, field_text ts f ->
  exists t r, ts = t :: r /\ starts_field t.
Proof.
  intros ts f H. destruct H as [t Ht|ts l _].
  - exists t, []. split; [reflexivity|]. destruct t; cbn in *; tauto.
  - exists Open, (ts ++ [Close]). split; [reflexivity|exact I].
Qed.

Lemma atom_text_head : forall ts a, atom_text ts a ->
  exists t r, ts = t :: r /\ starts_field t.
Proof.
  intros ts a H.
  destruct H as [n f Hf|n f u a Hf _|n f d b Hf _|n f u a d b Hf _ _|n f u a d b Hf _ _];
    destruct (field_text_head _ _ Hf) as [t [r [-> Ht]]]; eexists; eexists; (split; [reflexivity|exact Ht]).
Qed.

Definition no_script_next (r : list token) : Prop :=
  match r with Sup :: _ | Sub :: _ => False | _ => True end.
Definition list_ends (r : list token) : Prop :=
  match r with [] | Close :: _ => True | _ => False end.

Lemma list_no_script : forall ts l r, list_text ts l -> list_ends r -> no_script_next (ts ++ r).
Proof.
  intros ts l r H Hr. destruct H as [|ts a us l Ha Hl].
  - destruct r as [|[] r]; cbn in *; tauto.
  - destruct (atom_text_head _ _ Ha) as [t [r' [-> Ht]]]. cbn. destruct t; cbn in *; tauto.
Qed.

Lemma app_cons_assoc : forall (a b c : list token) x, (a ++ x :: b) ++ c = a ++ x :: (b ++ c).
Proof. intros. now rewrite <- app_assoc. Qed.
Lemma app_cons2_assoc : forall (a b b' c : list token) x y,
  (a ++ x :: b ++ y :: b') ++ c = a ++ x :: b ++ y :: (b' ++ c).
Proof. intros. now rewrite app_cons_assoc, app_cons_assoc. Qed.

Lemma math_text_unique :
  (forall ts f, field_text ts f -> forall ts' f' r r', field_text ts' f' ->
     ts ++ r = ts' ++ r' -> ts = ts' /\ f = f' /\ r = r') /\
  (forall ts a, atom_text ts a -> forall ts' a' r r', atom_text ts' a' ->
     ts ++ r = ts' ++ r' -> no_script_next r -> no_script_next r' -> ts = ts' /\ a = a' /\ r = r') /\
  (forall ts l, list_text ts l -> forall ts' l' r r', list_text ts' l' ->
     ts ++ r = ts' ++ r' -> list_ends r -> list_ends r' -> ts = ts' /\ l = l' /\ r = r').
Proof.
  apply math_text_ind.
  - intros t Ht ts' f' r r' H' E. destruct H' as [t' Ht'|ts' l' H'].
    + cbn in E. injection E as E1 E2. subst. auto.
    + cbn in E. injection E as E1 E2. subst. destruct Ht.
  - intros ts l _ IH ts' f' r r' H' E. destruct H' as [t' Ht'|ts' l' H'].
    + cbn in E. injection E as E1 E2. subst. destruct Ht'.
    + cbn in E. injection E as E. rewrite <- !app_assoc in E. cbn in E.
      destruct (IH _ _ _ _ H' E I I) as [-> [-> E2]].
      injection E2 as E2. auto.
  - intros n f _ IH ts' a' r r' H' E Hr Hr'.
    destruct H' as [n' f' Hf|n' f' u' c' Hf Hu|n' f' d' b' Hf Hd|n' f' u' c' d' b' Hf Hu Hd|n' f' u' c' d' b' Hf Hu Hd].
    + destruct (IH _ _ _ _ Hf E) as [-> [-> ->]]. auto.
    + rewrite app_cons_assoc in E. destruct (IH _ _ _ _ Hf E) as [-> [-> ->]]. destruct Hr.
    + rewrite app_cons_assoc in E. destruct (IH _ _ _ _ Hf E) as [-> [-> ->]]. destruct Hr.
    + rewrite app_cons2_assoc in E. destruct (IH _ _ _ _ Hf E) as [-> [-> ->]]. destruct Hr.
    + rewrite app_cons2_assoc in E. destruct (IH _ _ _ _ Hf E) as [-> [-> ->]]. destruct Hr.
  - intros n f u a _ IHn _ IHu ts' a' r r' H' E Hr Hr'. rewrite app_cons_assoc in E.
    destruct H' as [n' f' Hf|n' f' u' c' Hf Hu|n' f' d' b' Hf Hd|n' f' u' c' d' b' Hf Hu Hd|n' f' u' c' d' b' Hf Hu Hd].
    + destruct (IHn _ _ _ _ Hf E) as [-> [-> <-]]. destruct Hr'.
    + rewrite app_cons_assoc in E. destruct (IHn _ _ _ _ Hf E) as [-> [-> E2]].
      injection E2 as E2. destruct (IHu _ _ _ _ Hu E2) as [-> [-> ->]]. auto.
    + rewrite app_cons_assoc in E. destruct (IHn _ _ _ _ Hf E) as [-> [-> E2]]. discriminate.
    + rewrite app_cons2_assoc in E. destruct (IHn _ _ _ _ Hf E) as [-> [-> E2]].
      injection E2 as E2. destruct (IHu _ _ _ _ Hu E2) as [-> [-> ->]]. destruct Hr.
    + rewrite app_cons2_assoc in E. destruct (IHn _ _ _ _ Hf E) as [-> [-> E2]]. discriminate.
  - intros n f u a _ IHn _ IHu ts' a' r r' H' E Hr Hr'. rewrite app_cons_assoc in E.
    destruct H' as [n' f' Hf|n' f' u' c' Hf Hu|n' f' d' b' Hf Hd|n' f' u' c' d' b' Hf Hu Hd|n' f' u' c' d' b' Hf Hu Hd].
    + destruct (IHn _ _ _ _ Hf E) as [-> [-> <-]]. destruct Hr'.
    + rewrite app_cons_assoc in E. destruct (IHn _ _ _ _ Hf E) as [-> [-> E2]]. discriminate.
    + rewrite app_cons_assoc in E. destruct (IHn _ _ _ _ Hf E) as [-> [-> E2]].
      injection E2 as E2. destruct (IHu _ _ _ _ Hd E2) as [-> [-> ->]]. auto.
    + rewrite app_cons2_assoc in E. destruct (IHn _ _ _ _ Hf E) as [-> [-> E2]]. discriminate.
    + rewrite app_cons2_assoc in E. destruct (IHn _ _ _ _ Hf E) as [-> [-> E2]].
      injection E2 as E2. destruct (IHu _ _ _ _ Hd E2) as [-> [-> ->]]. destruct Hr.
  - intros n f u a d b _ IHn _ IHu _ IHd ts' a' r r' H' E Hr Hr'. rewrite app_cons2_assoc in E.
    destruct H' as [n' f' Hf|n' f' u' c' Hf Hu|n' f' d' b' Hf Hd|n' f' u' c' d' b' Hf Hu Hd|n' f' u' c' d' b' Hf Hu Hd].
    + destruct (IHn _ _ _ _ Hf E) as [-> [-> <-]]. destruct Hr'.
    + rewrite app_cons_assoc in E. destruct (IHn _ _ _ _ Hf E) as [-> [-> E2]].
      injection E2 as E2. destruct (IHu _ _ _ _ Hu E2) as [-> [-> <-]]. destruct Hr'.
    + rewrite app_cons_assoc in E. destruct (IHn _ _ _ _ Hf E) as [-> [-> E2]]. discriminate.
    + rewrite app_cons2_assoc in E. destruct (IHn _ _ _ _ Hf E) as [-> [-> E2]].
      injection E2 as E2. destruct (IHu _ _ _ _ Hu E2) as [-> [-> E3]].
      injection E3 as E3. destruct (IHd _ _ _ _ Hd E3) as [-> [-> ->]]. auto.
    + rewrite app_cons2_assoc in E. destruct (IHn _ _ _ _ Hf E) as [-> [-> E2]]. discriminate.
  - intros n f u a d b _ IHn _ IHu _ IHd ts' a' r r' H' E Hr Hr'. rewrite app_cons2_assoc in E.
    destruct H' as [n' f' Hf|n' f' u' c' Hf Hu|n' f' d' b' Hf Hd|n' f' u' c' d' b' Hf Hu Hd|n' f' u' c' d' b' Hf Hu Hd].
    + destruct (IHn _ _ _ _ Hf E) as [-> [-> <-]]. destruct Hr'.
    + rewrite app_cons_assoc in E. destruct (IHn _ _ _ _ Hf E) as [-> [-> E2]]. discriminate.
    + rewrite app_cons_assoc in E. destruct (IHn _ _ _ _ Hf E) as [-> [-> E2]].
      injection E2 as E2. destruct (IHd _ _ _ _ Hd E2) as [-> [-> <-]]. destruct Hr'.
    + rewrite app_cons2_assoc in E. destruct (IHn _ _ _ _ Hf E) as [-> [-> E2]]. discriminate.
    + rewrite app_cons2_assoc in E. destruct (IHn _ _ _ _ Hf E) as [-> [-> E2]].
      injection E2 as E2. destruct (IHd _ _ _ _ Hd E2) as [-> [-> E3]].
      injection E3 as E3. destruct (IHu _ _ _ _ Hu E3) as [-> [-> ->]]. auto.
  - intros ts' l' r r' H' E Hr Hr'. destruct H' as [|ts' a' us' l' Ha' Hl'].
    + auto.
    + destruct (atom_text_head _ _ Ha') as [t [q [-> Ht]]]. cbn in E. subst r.
      destruct t; cbn in *; tauto.
  - intros ts a us l Ha IHa Hl IHl ts' l' r r' H' E Hr Hr'. destruct H' as [|ts' a' us' l' Ha' Hl'].
    + destruct (atom_text_head _ _ Ha) as [t [q [-> Ht]]]. cbn in E. subst r'.
      destruct t; cbn in *; tauto.
    + rewrite <- !app_assoc in E.
      destruct (IHa _ _ _ _ Ha' E (list_no_script _ _ _ Hl Hr) (list_no_script _ _ _ Hl' Hr'))
        as [-> [-> E2]].
      destruct (IHl _ _ _ _ Hl' E2 Hr Hr') as [-> [-> ->]]. auto.
Qed.

Lemma list_text_unique : forall ts l l', list_text ts l -> list_text ts l' -> l = l'.
Proof.
  intros ts l l' H H'.
  destruct (proj2 (proj2 math_text_unique) ts l H ts l' [] [] H' eq_refl I I) as [_ [E _]].
  exact E.
Qed.

(** The reading of a text is unique. *)
Theorem formula_functional : forall s l l', formula s l -> formula s l' -> l = l'.
Proof. intros s l l' H H'. exact (list_text_unique _ _ _ H H'). Qed.

Lemma list_text_app : forall ts l us m,
  list_text ts l -> list_text us m -> list_text (ts ++ us) (l ++ m).
Proof.
  intros ts l us m H. revert us m.
  induction H as [|ts a vs l Ha Hl IH]; [auto|].
  intros us m Hm. rewrite <- app_assoc. apply one_more; auto.
Qed.

Lemma list_text_one : forall ts a, atom_text ts a -> list_text ts [a].
Proof. intros ts a H. rewrite <- (app_nil_r ts). apply one_more; [exact H|constructor]. Qed.

Lemma no_paragraph :
  (forall ts f, field_text ts f -> ~ In Paragraph ts) /\
  (forall ts a, atom_text ts a -> ~ In Paragraph ts) /\
  (forall ts l, list_text ts l -> ~ In Paragraph ts).
Proof.
  apply math_text_ind; intros; intros Hin.
  - cbn in Hin. destruct Hin as [->|[]]. exact H.
  - cbn in Hin. destruct Hin as [E|Hin]; [discriminate|].
    apply in_app_or in Hin. destruct Hin as [Hin|[E|[]]]; [auto|discriminate].
  - auto.
  - apply in_app_or in Hin. destruct Hin as [Hin|[E|Hin]]; [auto|discriminate|auto].
  - apply in_app_or in Hin. destruct Hin as [Hin|[E|Hin]]; [auto|discriminate|auto].
  - apply in_app_or in Hin. destruct Hin as [Hin|[E|Hin]]; [auto|discriminate|].
    apply in_app_or in Hin. destruct Hin as [Hin|[E|Hin]]; [auto|discriminate|auto].
  - apply in_app_or in Hin. destruct Hin as [Hin|[E|Hin]]; [auto|discriminate|].
    apply in_app_or in Hin. destruct Hin as [Hin|[E|Hin]]; [auto|discriminate|auto].
  - destruct Hin.
  - apply in_app_or in Hin. tauto.
Qed.

(** An empty line cannot be inside a formula. *)
Lemma paragraph_not_formula : forall s l, In Paragraph (tokens s) -> ~ formula s l.
Proof. intros s l H F. exact (proj2 (proj2 no_paragraph) _ _ F H). Qed.
