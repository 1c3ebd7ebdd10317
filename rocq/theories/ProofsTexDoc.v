(** Lemmas about reading documents piece by piece. *)
From Coq Require Import List Ascii String Bool Arith Lia.
From Verif Require Import SpecTex SpecTexDoc ProofsTex.
Import ListNotations.
Open Scope list_scope.

Lemma read_all_app env ts us c : read_all env c (ts ++ us) =
  match read_all env c ts with Some (Running c') => read_all env c' us | o => o end.
Proof.
  revert c. induction ts as [|t ts IH]; intros c; cbn [read_all app]; [reflexivity|].
  destruct (read env c t) as [[c'|]|]; [apply IH|reflexivity|reflexivity].
Qed.

Section Env.
  Variable env : list (string * signature).

  Definition go (q : state * conf) (s : string) : option (state * outcome) :=
    let (st, ts) := scan (fst q) s in
    match read_all env (snd q) ts with Some o => Some (st, o) | None => None end.

  Lemma go_app q a b : go q (a ++ b)%string =
    match go q a with
    | Some (st, Running c) => go (st, c) b
    | Some (st, Done) => Some (fst (scan st b), Done)
    | None => None
    end.
  Proof.
    unfold go. rewrite scan_app. destruct (scan (fst q) a) as [st ts]. cbn [fst snd].
    destruct (scan st b) as [st' us] eqn:E. cbn [fst snd]. rewrite read_all_app.
    destruct (read_all env (snd q) ts) as [[c|]|]; [|now rewrite E|reflexivity]. cbn [fst snd]. now rewrite E.
  Qed.

  (** The name of a command at the end of a piece is complete if no letter
      follows. *)
  Definition flush (q : state * conf) : option (state * conf) :=
    match fst q with
    | Word n => match read env (snd q) (Command n) with Some (Running c) => Some (Skipping, c) | _ => None end
    | _ => Some q
    end.
  Definition first_letter (s : string) : bool := match s with EmptyString => false | String c _ => letter c end.
  Fixpoint last_letter (s : string) : bool :=
    match s with EmptyString => false | String c EmptyString => letter c | String _ r => last_letter r end.

  Definition R (s : string) (q q' : state * conf) : Prop :=
    fresh (fst q) /\ fresh (fst q') /\ exists st c, go q s = Some (st, Running c) /\ flush (st, c) = Some q'.

  Lemma go_word n c c' s : first_letter s = false -> s <> ""%string -> read env c (Command n) = Some (Running c') ->
    go (Word n, c) s = go (Skipping, c') s.
  Proof.
    destruct s as [|x s]; [contradiction|]. cbn [first_letter]. intros L _ E. unfold go. cbn [fst snd scan step]. rewrite L.
    destruct (plain_step Skipping x) as [st t] eqn:P. destruct (scan st s) as [st' ts] eqn:Sc. cbn [app read_all].
    rewrite E. reflexivity.
  Qed.

  Lemma flush_flush q q' : flush q = Some q' -> flush q' = Some q'.
  Proof.
    unfold flush. destruct q as [st c]. cbn [fst snd].
    destruct st; try (intros [= <-]; reflexivity). destruct (read env c (Command name)) as [[c'|]|]; [|discriminate|discriminate].
    intros [= <-]. reflexivity.
  Qed.

  Lemma plain_step_not_word st x s1 t1 n : plain_step st x = (s1, t1) -> s1 <> Word n.
  Proof.
    unfold plain_step. intros E ->.
    repeat match type of E with (if ?b then _ else _) = _ => destruct b end; try discriminate. destruct st; discriminate.
  Qed.

  Lemma last_not_word s st st' ts : s <> ""%string -> last_letter s = false -> scan st s = (st', ts) -> forall n, st' <> Word n.
  Proof.
    revert st st' ts. induction s as [|x s IH]; intros st st' ts N L E n; [contradiction|].
    cbn [scan] in E. destruct (step st x) as [s1 t1] eqn:Es. destruct (scan s1 s) as [s2 t2] eqn:E2. injection E as <- <-.
    destruct s as [|y s]; [|apply (IH s1 s2 t2); [discriminate|exact L|exact E2]].
    cbn [scan] in E2. injection E2 as <- <-. cbn [last_letter] in L. unfold step in Es. destruct st; try rewrite L in Es.
    - exact (plain_step_not_word _ _ _ _ n Es).
    - exact (plain_step_not_word _ _ _ _ n Es).
    - exact (plain_step_not_word _ _ _ _ n Es).
    - injection Es as <- _. discriminate.
    - destruct (plain_step Skipping x) as [u v] eqn:P. injection Es as <- _. exact (plain_step_not_word _ _ _ _ n P).
    - destruct (end_of_line x); injection Es as <- _; discriminate.
  Qed.

  Definition joins (a b : string) : Prop := last_letter a = true -> first_letter b = false.

  Lemma append_nil s : (s ++ "" = s)%string.
  Proof. induction s; cbn; congruence. Qed.

  Lemma R_app a b q q1 q2 : R a q q1 -> R b q1 q2 -> joins a b -> R (a ++ b)%string q q2.
  Proof.
    intros (Fq & _ & st & c & G & F) (_ & Fq2 & st' & c' & G' & F') J. split; [exact Fq|]. split; [exact Fq2|].
    destruct b as [|x b].
    { unfold go in G'. cbn in G'. injection G' as <- <-. rewrite append_nil. exists st, c. split; [exact G|]. rewrite F.
      pose proof (flush_flush _ _ F) as X. rewrite <- surjective_pairing in F'. congruence. }
    exists st', c'. split; [|exact F']. rewrite go_app, G, <- G'.
    destruct (match st with Word _ => true | _ => false end) eqn:W.
    - destruct st as [| | | |n|]; try discriminate. unfold flush in F. cbn [fst snd] in F.
      destruct (read env c (Command n)) as [[c1|]|] eqn:E; try discriminate. injection F as <-.
      apply go_word; [|discriminate|exact E]. apply J. destruct a as [|y a].
      + unfold go in G. cbn in G. injection G as G _. destruct q as [stq cq]. cbn in *. subst stq.
        destruct Fq as [X|[X|X]]; discriminate.
      + destruct (last_letter (String y a)) eqn:L; [reflexivity|]. unfold go in G. destruct (scan (fst q) (String y a)) as [s2 t2] eqn:Sc.
        destruct (read_all env (snd q) t2); [|discriminate]. injection G as -> _.
        exfalso. assert (String y a <> ""%string) as N by discriminate. exact (last_not_word _ _ _ _ N L Sc n eq_refl).
    - assert (flush (st, c) = Some (st, c)) by (unfold flush; cbn; destruct st; try reflexivity; discriminate). congruence.
  Qed.

  (** ** Reading does not depend on what is open further out *)
  Definition local (p : pending) (t : token) : bool :=
    match t, p with Paragraph, _ => false | _, Name _ _ => false | _, _ => true end.
  Definition under (base : list frame) (c : conf) : conf := mkconf (c_mode c) (c_stack c ++ base) (c_pending c).

  Lemma read_free_under base m stack sup sub t c : t <> Paragraph ->
    read_free env m stack sup sub t = Some (Running c) ->
    read_free env m (stack ++ base) sup sub t = Some (Running (under base c)).
  Proof.
    intros Np. unfold read_free. destruct t as [name|x| | | | |]; [| | | | | |contradiction].
    - destruct (String.eqb name "begin"); [intros [= <-]; reflexivity|].
      destruct (String.eqb name "end"); [intros [= <-]; reflexivity|].
      destruct (String.eqb name "left"); [destruct m; [discriminate|intros [= <-]; reflexivity]|].
      destruct (String.eqb name "right").
      { destruct stack as [|[]]; try discriminate. intros [= <-]. reflexivity. }
      destruct (String.eqb name "\").
      { destruct stack as [|[m' p|nm o tb| |] stack]; try discriminate. cbn [app]. intros E.
        repeat (match type of E with match ?x with _ => _ end = _ => destruct x end; try discriminate);
          injection E as <-; reflexivity. }
      destruct (lookup env name) as [sg|]; [|discriminate]. destruct (allows sg m); [|discriminate]. intros [= <-]. reflexivity.
    - destruct (Ascii.eqb x "$").
      { destruct m; [intros [= <-]; reflexivity|]. destruct stack as [|[]]; try discriminate. intros [= <-]. reflexivity. }
      destruct (Ascii.eqb x "&").
      { destruct stack as [|[m' p|nm o tb| |] stack]; try discriminate. cbn [app]. intros E.
        repeat (match type of E with match ?x with _ => _ end = _ => destruct x end; try discriminate);
          injection E as <-; reflexivity. }
      destruct (Ascii.eqb x "#"); [discriminate|]. intros [= <-]. reflexivity.
    - intros [= <-]. reflexivity.
    - destruct stack as [|[]]; try discriminate. intros [= <-]. reflexivity.
    - destruct m; [discriminate|]. destruct sup; [discriminate|]. intros [= <-]. reflexivity.
    - destruct m; [discriminate|]. destruct sub; [discriminate|]. intros [= <-]. reflexivity.
  Qed.

  Lemma read_under base c t c' : local (c_pending c) t = true ->
    read env c t = Some (Running c') -> read env (under base c) t = Some (Running (under base c')).
  Proof.
    destruct c as [m stack p]. cbn [c_pending]. intros L. assert (Np : t <> Paragraph) by (intros ->; discriminate).
    unfold read, under at 1. cbn [c_mode c_stack c_pending].
    destruct p as [sup sub|sup sub|l sup sub|l sup sub| |b|b x].
    - now apply read_free_under.
    - destruct t; try (destruct (single env Math _); [|discriminate]); try (intros [= <-]; reflexivity).
    - destruct l as [|[inner|inner|] l].
      + now apply read_free_under.
      + destruct t; try (destruct (single env inner _); [|discriminate]); try (intros [= <-]; reflexivity).
      + destruct t; try (intros [= <-]; reflexivity); destruct l; try discriminate; now apply read_free_under.
      + destruct t; try discriminate; [destruct (Ascii.eqb c "["); [|discriminate]; intros [= <-]; reflexivity|].
        destruct l as [|[inner| |] l]; try discriminate. intros [= <-]. reflexivity.
    - destruct t; try discriminate. destruct (Ascii.eqb c "]"); intros [= <-]; reflexivity.
    - destruct t; try discriminate. destruct (is_delimiter c); [|discriminate]. intros [= <-]. reflexivity.
    - destruct t; try discriminate. intros [= <-]. reflexivity.
    - destruct t; discriminate.
  Qed.

  Fixpoint read_local (c : conf) (ts : list token) : option conf :=
    match ts with
    | [] => Some c
    | t :: r => if local (c_pending c) t then match read env c t with Some (Running c') => read_local c' r | _ => None end else None
    end.
  Lemma read_local_all base c ts c' : read_local c ts = Some c' -> read_all env (under base c) ts = Some (Running (under base c')).
  Proof.
    revert c. induction ts as [|t ts IH]; intros c; cbn [read_local read_all]; [intros [= <-]; reflexivity|].
    destruct (local (c_pending c) t) eqn:L; [|discriminate]. destruct (read env c t) as [[c1|]|] eqn:E; try discriminate.
    rewrite (read_under base _ _ _ L E). apply IH.
  Qed.

  (** ** Pieces *)
  Definition anywhere : list state := [NewLine; Middle; Skipping].
  Definition inline : list state := [Middle; Skipping].
  Definition line_start : list state := [NewLine].

  Definition J (S0 : list state) (s : string) (E : list state) (c1 c2 : mode * list frame) : Prop :=
    forall st, In st S0 -> fresh st -> forall b1 b2 base, exists st' b1' b2', In st' E /\
      R s (st, mkconf (fst c1) (snd c1 ++ base) (Free b1 b2)) (st', mkconf (fst c2) (snd c2 ++ base) (Free b1' b2')).

  Lemma J_app S0 a E b U c1 c2 c3 : J S0 a E c1 c2 -> J E b U c2 c3 -> joins a b -> J S0 (a ++ b)%string U c1 c3.
  Proof.
    intros A B Jn st Hst F b1 b2 base. destruct (A st Hst F b1 b2 base) as (st1 & x & y & H1 & R1).
    destruct (B st1 H1 (proj1 (proj2 R1)) x y base) as (st2 & x' & y' & H2 & R2). exists st2, x', y'. split; [exact H2|].
    exact (R_app _ _ _ _ _ R1 R2 Jn).
  Qed.
  Lemma J_sub S0 S1 E U s c1 c2 : J S0 s E c1 c2 -> incl S1 S0 -> incl E U -> J S1 s U c1 c2.
  Proof.
    intros A Hi Ho st Hst F b1 b2 base. destruct (A st (Hi _ Hst) F b1 b2 base) as (st1 & x & y & H1 & R1). exists st1, x, y. auto.
  Qed.
  Lemma J_nil S0 c : J S0 "" S0 c c.
  Proof.
    intros st Hst F b1 b2 base. exists st, b1, b2. split; [exact Hst|]. split; [exact F|]. split; [exact F|].
    eexists _, _. split; [reflexivity|]. unfold flush. cbn [fst]. destruct F as [->|[->| ->]]; reflexivity.
  Qed.
  Lemma J_under S0 s E c1 c2 base : J S0 s E c1 c2 -> J S0 s E (fst c1, snd c1 ++ base) (fst c2, snd c2 ++ base).
  Proof.
    intros A st Hst F b1 b2 base'. destruct (A st Hst F b1 b2 (base ++ base')) as (st' & x & y & H & X). exists st', x, y. split; [exact H|].
    cbn [fst snd] in *. now rewrite <- !app_assoc.
  Qed.

  Definition mode_eq_dec : forall a b : mode, {a = b} + {a <> b}.
  Proof. decide equality. Defined.
  Definition argument_eq_dec : forall a b : argument, {a = b} + {a <> b}.
  Proof. decide equality; apply mode_eq_dec. Defined.
  Definition pending_eq_dec : forall a b : pending, {a = b} + {a <> b}.
  Proof. decide equality; try apply bool_dec; try apply string_dec; apply list_eq_dec, argument_eq_dec. Defined.
  Definition frame_eq_dec : forall a b : frame, {a = b} + {a <> b}.
  Proof. decide equality; try apply bool_dec; try apply string_dec; try apply mode_eq_dec; apply pending_eq_dec. Defined.
  Definition state_eq_dec : forall a b : state, {a = b} + {a <> b}.
  Proof. decide equality; apply string_dec. Defined.

  Definition is_fresh (st : state) : bool := match st with NewLine | Middle | Skipping => true | _ => false end.
  Lemma is_fresh_ok st : is_fresh st = true <-> fresh st.
  Proof. destruct st; cbn; split; intros X; try discriminate; try reflexivity; unfold fresh; auto; destruct X as [X|[X|X]]; discriminate. Qed.

  Definition flush_local (st : state) (c : conf) : option (state * conf) :=
    match st with
    | Word n => if local (c_pending c) (Command n) then
                  match read env c (Command n) with Some (Running c') => Some (Skipping, c') | _ => None end else None
    | _ => Some (st, c)
    end.
  Definition check_one (s : string) (E : list state) (c1 c2 : mode * list frame) (st : state) (b1 b2 : bool) : bool :=
    let (st1, ts) := scan st s in
    match read_local (mkconf (fst c1) (snd c1) (Free b1 b2)) ts with
    | Some c => match flush_local st1 c with
                | Some (st', mkconf m k (Free _ _)) =>
                    is_fresh st' && (if in_dec state_eq_dec st' E then true else false) &&
                    (if mode_eq_dec m (fst c2) then true else false) && (if list_eq_dec frame_eq_dec k (snd c2) then true else false)
                | _ => false
                end
    | None => false
    end.
  Definition bools : list (bool * bool) := [(false, false); (false, true); (true, false); (true, true)].
  Definition check (S0 : list state) (s : string) (E : list state) (c1 c2 : mode * list frame) : bool :=
    forallb (fun st => forallb (fun b => check_one s E c1 c2 st (fst b) (snd b)) bools) S0.

  Lemma check_ok S0 s E c1 c2 : check S0 s E c1 c2 = true -> J S0 s E c1 c2.
  Proof.
    intros C st Hst F b1 b2 base. unfold check in C. rewrite forallb_forall in C. specialize (C st Hst). rewrite forallb_forall in C.
    specialize (C (b1, b2)). assert (In (b1, b2) bools) as Hb by (destruct b1, b2; cbn; auto). specialize (C Hb). cbn [fst snd] in C.
    unfold check_one in C. destruct (scan st s) as [st1 ts] eqn:Sc.
    destruct (read_local (mkconf (fst c1) (snd c1) (Free b1 b2)) ts) as [c|] eqn:Rl; [|discriminate].
    destruct (flush_local st1 c) as [[st' [m k p]]|] eqn:Fl; [|discriminate]. destruct p as [x y| | | | | |]; try discriminate.
    apply andb_prop in C as [C D4]. apply andb_prop in C as [C D3]. apply andb_prop in C as [D1 D2].
    destruct (in_dec state_eq_dec st' E) as [Ho|]; [|discriminate]. destruct (mode_eq_dec m (fst c2)) as [->|]; [|discriminate].
    destruct (list_eq_dec frame_eq_dec k (snd c2)) as [->|]; [|discriminate].
    exists st', x, y. split; [exact Ho|]. split; [exact F|]. split; [now apply is_fresh_ok|].
    exists st1, (under base c). split.
    - unfold go. cbn [fst snd]. rewrite Sc. apply (read_local_all base) in Rl. unfold under at 1 in Rl. cbn [c_mode c_stack c_pending] in Rl. now rewrite Rl.
    - unfold flush. cbn [fst snd]. unfold flush_local in Fl. destruct st1; try (injection Fl as <- ->; reflexivity).
      destruct (local (c_pending c) (Command name)) eqn:L; [|discriminate].
      destruct (read env c (Command name)) as [[c'|]|] eqn:Er; try discriminate. injection Fl as <- ->.
      rewrite (read_under base _ _ _ L Er). reflexivity.
  Qed.

  (** Characters that stand for themselves. *)
  Definition plain_char (c : ascii) : bool :=
    let n := nat_of_ascii c in
    negb (Nat.eqb n 10 || Nat.eqb n 32 || existsb (Ascii.eqb c) (list_ascii_of_string "\%{}^_$&#")).
  Definition plain (s : string) : Prop := Forall (fun c => plain_char c = true) (list_ascii_of_string s).

  Lemma plain_char_step st c : fresh st -> plain_char c = true -> step st c = (Middle, [Char c]).
  Proof.
    intros F P. assert (plain_step st c = (Middle, [Char c])) as X.
    { unfold plain_char in P. apply negb_true_iff, orb_false_iff in P as [P1 P2]. apply orb_false_iff in P1 as [P0 P1].
      cbn in P2. repeat (apply orb_false_iff in P2 as [?Q P2]). unfold plain_step, end_of_line, blank. rewrite P0.
      assert (Ascii.eqb c " " = false) as ->.
      { apply Ascii.eqb_neq. intros ->. discriminate. }
      now rewrite Q, Q0, Q1, Q2, Q3, Q4. }
    destruct F as [->|[->| ->]]; exact X.
  Qed.
  Lemma plain_char_read c m k b1 b2 : plain_char c = true -> read env (mkconf m k (Free b1 b2)) (Char c) = Some (Running (mkconf m k (Free false false))).
  Proof.
    intros P. unfold plain_char in P. apply negb_true_iff, orb_false_iff in P as [_ P2]. cbn in P2. repeat (apply orb_false_iff in P2 as [?Q P2]).
    unfold read, read_free. cbn [c_pending c_mode c_stack]. now rewrite Q5, Q6, Q7.
  Qed.

  Lemma plain_go s m k b1 b2 st : fresh st -> plain s ->
    exists b1' b2', go (st, mkconf m k (Free b1 b2)) s = Some (match s with EmptyString => st | _ => Middle end, Running (mkconf m k (Free b1' b2'))).
  Proof.
    revert st b1 b2. induction s as [|c s IH]; intros st b1 b2 F P.
    - exists b1, b2. reflexivity.
    - unfold plain in P. cbn in P. apply Forall_inv in P as Pc. apply Forall_inv_tail in P.
      destruct (IH Middle false false (or_intror (or_introl eq_refl)) P) as (x & y & G). exists x, y.
      unfold go in *. cbn [fst snd scan] in *. rewrite plain_char_step by assumption. destruct (scan Middle s) as [st' ts] eqn:E.
      cbn [app read_all]. rewrite plain_char_read by exact Pc. destruct (read_all env _ ts) as [o|]; [|discriminate]. injection G as -> ->.
      f_equal. f_equal. destruct s; reflexivity.
  Qed.

  (** A text of plain characters. *)
  Lemma J_plain S0 s c : plain s -> s <> ""%string -> J S0 s inline c c.
  Proof.
    intros P N st Hst F b1 b2 base. destruct (plain_go s (fst c) (snd c ++ base) b1 b2 st F P) as (x & y & G). exists Middle, x, y.
    split; [cbn; auto|]. split; [exact F|]. split; [unfold fresh; auto|]. exists Middle, (mkconf (fst c) (snd c ++ base) (Free x y)).
    split; [|reflexivity]. rewrite G. destruct s; [contradiction|reflexivity].
  Qed.
  Lemma J_plain_inline s c : plain s -> J inline s inline c c.
  Proof.
    intros P. destruct s; [apply J_nil|]. now apply J_plain.
  Qed.
  Lemma J_plain_any s c : plain s -> J anywhere s anywhere c c.
  Proof.
    intros P. destruct s; [apply J_nil|]. eapply J_sub; [now apply J_plain|apply incl_refl|]. intros ? [<-|[<-|[]]]; cbn; auto.
  Qed.

  (** ** Literal pieces *)
  Definition after (s : string) (c1 : mode * list frame) : mode * list frame :=
    let (st1, ts) := scan Middle s in
    match read_local (mkconf (fst c1) (snd c1) (Free false false)) ts with
    | Some c => match flush_local st1 c with Some (_, c') => (c_mode c', c_stack c') | None => c1 end
    | None => c1
    end.
  Lemma literal S0 s E c1 : check S0 s E c1 (after s c1) = true -> J S0 s E c1 (after s c1).
  Proof. apply check_ok. Qed.

  Lemma first_letter_app a b : first_letter a = false -> first_letter b = false -> first_letter (a ++ b) = false.
  Proof. destruct a; [auto|]. auto. Qed.
  Lemma first_letter_concat sep l : first_letter sep = false -> Forall (fun s => first_letter s = false) l -> first_letter (String.concat sep l) = false.
  Proof.
    intros Hs. induction 1 as [|s l H F IH]; [reflexivity|]. destruct l as [|s' l]; [exact H|].
    change (String.concat sep (s :: s' :: l)) with (s ++ sep ++ String.concat sep (s' :: l))%string.
    apply first_letter_app; [exact H|]. apply first_letter_app; [exact Hs|exact IH].
  Qed.
  Lemma last_letter_app a b : last_letter b = false -> b <> ""%string -> last_letter (a ++ b) = false.
  Proof.
    intros H N. induction a as [|c a IH]; [exact H|]. cbn [append last_letter]. destruct (a ++ b)%string eqn:E; [|exact IH].
    destruct a, b; try discriminate; contradiction.
  Qed.

  (** Texts one after the other, and with a separator. *)
  Lemma J_concat_nil E c l : Forall (fun s => J E s E c c /\ first_letter s = false) l -> J E (String.concat "" l) E c c.
  Proof.
    induction 1 as [|s l [H F] Fl IH]; [apply J_nil|]. destruct l as [|s' l]; [exact H|].
    change (String.concat "" (s :: s' :: l)) with (s ++ String.concat "" (s' :: l))%string.
    eapply J_app; [exact H|exact IH|]. intros _. apply first_letter_concat; [reflexivity|].
    eapply Forall_impl; [|exact Fl]. now intros ? [].
  Qed.
  Lemma J_concat S0 S1 E sep c l : J E sep S1 c c -> first_letter sep = false -> last_letter sep = false -> sep <> ""%string ->
    incl S1 S0 -> Forall (fun s => J S0 s E c c) l -> l <> [] -> J S0 (String.concat sep l) E c c.
  Proof.
    intros Hs Fs Ls Ns Hi. induction 1 as [|s l H Fl IH]; [contradiction|]. intros _. destruct l as [|s' l]; [exact H|].
    change (String.concat sep (s :: s' :: l)) with (s ++ sep ++ String.concat sep (s' :: l))%string.
    eapply J_app; [exact H| |].
    - eapply J_app; [exact Hs| |].
      + eapply J_sub; [apply IH; discriminate|exact Hi|apply incl_refl].
      + intros X. congruence.
    - intros _. destruct sep; [contradiction|exact Fs].
  Qed.

  (** ** Pieces of the text around the formulas, with all that is open *)
  Definition JT (S0 : list state) (s : string) (E : list state) (c1 c2 : mode * list frame) : Prop :=
    forall st, In st S0 -> fresh st -> forall b1 b2, exists st' b1' b2', In st' E /\
      R s (st, mkconf (fst c1) (snd c1) (Free b1 b2)) (st', mkconf (fst c2) (snd c2) (Free b1' b2')).

  Lemma J_T S0 s E c1 c2 base : J S0 s E c1 c2 -> JT S0 s E (fst c1, snd c1 ++ base) (fst c2, snd c2 ++ base).
  Proof. intros A st Hst F b1 b2. exact (A st Hst F b1 b2 base). Qed.
  Lemma JT_app S0 a E b U c1 c2 c3 : JT S0 a E c1 c2 -> JT E b U c2 c3 -> joins a b -> JT S0 (a ++ b)%string U c1 c3.
  Proof.
    intros A B Jn st Hst F b1 b2. destruct (A st Hst F b1 b2) as (st1 & x & y & H1 & R1).
    destruct (B st1 H1 (proj1 (proj2 R1)) x y) as (st2 & x' & y' & H2 & R2). exists st2, x', y'. split; [exact H2|].
    exact (R_app _ _ _ _ _ R1 R2 Jn).
  Qed.
  Lemma JT_nil S0 c : JT S0 "" S0 c c.
  Proof.
    intros st Hst F b1 b2. exists st, b1, b2. split; [exact Hst|]. split; [exact F|]. split; [exact F|].
    eexists _, _. split; [reflexivity|]. unfold flush. cbn [fst]. destruct F as [->|[->| ->]]; reflexivity.
  Qed.

  Definition checkT_one (s : string) (E : list state) (c1 c2 : mode * list frame) (st : state) (b1 b2 : bool) : bool :=
    let (st1, ts) := scan st s in
    match read_all env (mkconf (fst c1) (snd c1) (Free b1 b2)) ts with
    | Some (Running c) =>
        match flush (st1, c) with
        | Some (st', mkconf m k (Free _ _)) =>
            is_fresh st' && (if in_dec state_eq_dec st' E then true else false) &&
            (if mode_eq_dec m (fst c2) then true else false) && (if list_eq_dec frame_eq_dec k (snd c2) then true else false)
        | _ => false
        end
    | _ => false
    end.
  Definition checkT (S0 : list state) (s : string) (E : list state) (c1 c2 : mode * list frame) : bool :=
    forallb (fun st => forallb (fun b => checkT_one s E c1 c2 st (fst b) (snd b)) bools) S0.

  Lemma checkT_ok S0 s E c1 c2 : checkT S0 s E c1 c2 = true -> JT S0 s E c1 c2.
  Proof.
    intros C st Hst F b1 b2. unfold checkT in C. rewrite forallb_forall in C. specialize (C st Hst). rewrite forallb_forall in C.
    specialize (C (b1, b2)). assert (In (b1, b2) bools) as Hb by (destruct b1, b2; cbn; auto). specialize (C Hb). cbn [fst snd] in C.
    unfold checkT_one in C. destruct (scan st s) as [st1 ts] eqn:Sc.
    destruct (read_all env (mkconf (fst c1) (snd c1) (Free b1 b2)) ts) as [[c|]|] eqn:Rl; try discriminate.
    destruct (flush (st1, c)) as [[st' [m k p]]|] eqn:Fl; [|discriminate]. destruct p as [x y| | | | | |]; try discriminate.
    apply andb_prop in C as [C D4]. apply andb_prop in C as [C D3]. apply andb_prop in C as [D1 D2].
    destruct (in_dec state_eq_dec st' E) as [Ho|]; [|discriminate]. destruct (mode_eq_dec m (fst c2)) as [->|]; [|discriminate].
    destruct (list_eq_dec frame_eq_dec k (snd c2)) as [->|]; [|discriminate].
    exists st', x, y. split; [exact Ho|]. split; [exact F|]. split; [now apply is_fresh_ok|].
    exists st1, c. split; [|exact Fl]. unfold go. cbn [fst snd]. now rewrite Sc, Rl.
  Qed.

  (** ** Whole documents *)
  Definition in_document : mode * list frame := (Text, [Env "document" Text false]).

  Lemma go_done q s o st : go q s = Some (st, o) -> read_all env (snd q) (snd (scan (fst q) s)) = Some o.
  Proof. unfold go. destruct (scan (fst q) s) as [st' ts]. cbn [snd]. destruct (read_all env (snd q) ts); [intros [= _ ->]; reflexivity|discriminate]. Qed.

  Lemma document_processed header ht hb body :
    scan NewLine header = (NewLine, ht) ->
    (forall us, preamble kernel (ht ++ us) = Some (env, hb ++ us)) ->
    (exists b1 b2, read_all env (mkconf Text [Env "document" Text false] (Free false false)) hb
      = Some (Running (mkconf Text [Env "document" Text false] (Free b1 b2)))) ->
    JT line_start body line_start in_document in_document ->
    processed (header ++ (body ++ "\end{document}")).
  Proof.
    intros Sh Pr (b1 & b2 & Rh) B.
    destruct (B NewLine (or_introl eq_refl) (or_introl eq_refl) b1 b2) as (st' & x & y & Hst & Rb). cbn [fst snd in_document] in Rb.
    assert (st' = NewLine) as -> by (destruct Hst as [<-|[]]; reflexivity).
    assert (Re : exists st, go (NewLine, mkconf Text [Env "document" Text false] (Free b1 b2)) (body ++ "\end{document}") = Some (st, Done)
                 /\ st = Middle).
    { destruct Rb as (_ & _ & st1 & c1 & G & F). rewrite go_app, G.
      assert (go (st1, c1) "\end{document}" = go (NewLine, mkconf Text [Env "document" Text false] (Free x y)) "\end{document}") as ->.
      { unfold flush in F. cbn [fst snd] in F. destruct st1 as [| | | |nm|]; try discriminate F; [injection F as ->; reflexivity|].
        destruct (read env c1 (Command nm)) as [[c2|]|]; discriminate F. }
      exists Middle. split; reflexivity. }
    destruct Re as (st & G & ->).
    exists env, (hb ++ snd (scan NewLine (body ++ "\end{document}"))). split.
    - unfold tokens. rewrite scan_app, Sh. cbn [fst snd].
      assert (fst (scan NewLine (body ++ "\end{document}")) = Middle) as ->.
      { unfold go in G. cbn [fst] in G. destruct (scan NewLine (body ++ "\end{document}")) as [s2 t2].
        destruct (read_all env _ t2); [|discriminate]. now injection G as -> _. }
      apply Pr.
    - rewrite read_all_app, Rh. exact (go_done _ _ _ _ G).
  Qed.

  (** ** Small steps *)
  Lemma J_any_inline s c : J anywhere s inline c c -> J inline s inline c c.
  Proof. intros H. eapply J_sub; [exact H| |apply incl_refl]. intros ? [<-|[<-|[]]]; cbn; auto. Qed.
  Lemma J_inline_any S0 s c : J S0 s inline c c -> J S0 s anywhere c c.
  Proof. intros H. eapply J_sub; [exact H|apply incl_refl|]. intros ? [<-|[<-|[]]]; cbn; auto. Qed.
  Lemma incl_start : incl line_start anywhere.
  Proof. intros ? [<-|[]]; cbn; auto. Qed.
  Lemma J_start s c E : J anywhere s E c c -> J line_start s E c c.
  Proof. intros H. eapply J_sub; [exact H|exact incl_start|apply incl_refl]. Qed.
  Lemma J_at S0 s E c1 c2 base d1 d2 : J S0 s E c1 c2 -> d1 = (fst c1, snd c1 ++ base)%list -> d2 = (fst c2, snd c2 ++ base)%list ->
    JT S0 s E d1 d2.
  Proof. intros H -> ->. now apply J_T. Qed.
End Env.

Open Scope string_scope.
Lemma plain_app a b : plain a -> plain b -> plain (a ++ b).
Proof.
  intros A B. unfold plain in *. assert (list_ascii_of_string (a ++ b) = list_ascii_of_string a ++ list_ascii_of_string b)%list as ->.
  { clear. induction a; cbn; congruence. }
  apply Forall_app. auto.
Qed.
Lemma plain_concat sep l : plain sep -> Forall plain l -> plain (String.concat sep l).
Proof.
  intros Hs. induction 1 as [|s l H F IH]; [constructor|]. destruct l; [exact H|].
  apply plain_app; [exact H|]. apply plain_app; [exact Hs|exact IH].
Qed.
Lemma plain_literal s : forallb plain_char (list_ascii_of_string s) = true -> plain s.
Proof. intros H. apply Forall_forall. intros c. rewrite forallb_forall in H. apply H. Qed.

Ltac joint := first [intros _; reflexivity | let X := fresh in intros X; vm_compute in X; discriminate X].
