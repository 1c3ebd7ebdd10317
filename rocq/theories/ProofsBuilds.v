(** Proofs for C128. *)
From Coq Require Import List Arith ZArith Lia Ascii String Permutation.
From Verif Require Import PyBase ModelFullCC ModelTrunc ModelRun ModelCommandLine ModelMain SpecCommandLine SpecBuilds ProofsCommandLine ProofsMain.
Import ListNotations.

(** What is written, over what was there. *)
Definition over (upd : string -> option string) (fs : files) (p : string) : option string :=
  match upd p with Some c => Some c | None => fs p end.

Lemma asked_snoc' ss s : asked (ss ++ [s]) = apply_setting (asked ss) s.
Proof. unfold asked. now rewrite fold_left_app. Qed.

Lemma asked_path ss : 
  match arg_path (ns_args (asked ss)) with Some p => last_path ss p | None => forall p, ~ In (SPath p) ss end.
Proof.
  induction ss as [|s ss IH] using rev_ind; [intros p []|]. rewrite asked_snoc'.
  assert (Other : (forall p, s <> SPath p) -> arg_path (ns_args (apply_setting (asked ss) s)) = arg_path (ns_args (asked ss))).
  { intros N. destruct s; try reflexivity. now destruct (N path). }
  assert (D : (exists p, s = SPath p) \/ forall p, s <> SPath p) by (destruct s; try (right; discriminate); left; eauto).
  destruct D as [[p ->]|N].
  - cbn. exists ss, []. split; [reflexivity|]. intros q [].
  - rewrite (Other N). destruct (arg_path (ns_args (asked ss))) as [p|].
    + destruct IH as (b & a & -> & L). exists b, (a ++ [s])%list. split; [now rewrite <- app_assoc|].
      intros q I. apply in_app_or in I as [I|[I|[]]]; [now apply (L q)|now apply (N q)].
    + intros p I. apply in_app_or in I as [I|[I|[]]]; [now apply (IH p)|now apply (N p)].
Qed.

Section Builds.
  Variable lt : list (list tamp) -> list (list tamp).
  Variable ln : list nat -> list nat.
  Variable lp : list (list (nat * nat)) -> list (list (nat * nat)).
  Variable pt : list (list tamp) -> list (list tamp).
  Variable pn : list nat -> list nat.
  Variable pl : list (list nat) -> list (list nat).
  Variable pc : list (list ascii) -> list (list ascii).
  Notation run := (ModelRun.run lt ln lp pt pn pl pc).
  Notation main := (ModelMain.main lt ln lp pt pn pl pc).

  Lemma run_over fs a : exists upd e, forall f, driver_source f a = driver_source fs a ->
    snd (run f a) = e /\ forall p, fst (run f a) p = over upd f p.
  Proof.
    destruct (driver_source fs a) as [[saved d]|x] eqn:D.
    - set (s := fun p => match saved with Some text => if String.eqb p "../truncs.json" then Some text else None | None => None end).
      assert (S : forall f p, (match saved with Some text => write f "../truncs.json" text | None => f end) p = over s f p).
      { intros f p. unfold s, over, write. destruct saved; [|reflexivity]. now destruct (String.eqb p _). }
      destruct (driver_request a d) as [c|x] eqn:Rq; [destruct (generate lt ln lp pt pn pl pc c) as [text|x] eqn:G|].
      + exists (fun p => if String.eqb p (gc_path c) then Some text else s p), (Ok tt). intros f E. unfold ModelRun.run. rewrite E, Rq, G. split; [reflexivity|].
        intros p. cbn [fst]. unfold write at 1, over. destruct (String.eqb p (gc_path c)); [reflexivity|apply S].
      + exists s, (Err x). intros f E. unfold ModelRun.run. rewrite E, Rq, G. split; [reflexivity|]. intros p. apply S.
      + exists s, (Err x). intros f E. unfold ModelRun.run. rewrite E, Rq. split; [reflexivity|]. intros p. apply S.
    - exists (fun _ => None), (Err x). intros f E. unfold ModelRun.run. rewrite E. now split.
  Qed.

  Lemma source_same f fs a : (forall p, arg_path a = Some p -> f p = fs p) -> driver_source f a = driver_source fs a.
  Proof.
    intros E. unfold driver_source. destruct (arg_t a) as [zs|]; destruct (arg_path a) as [p|]; try reflexivity. now rewrite (E p eq_refl).
  Qed.

  Lemma main_over messages fs ss wss : Forall2 writes ss wss ->
    exists upd e, forall f, (forall p, last_path ss p -> f p = fs p) ->
      snd (main messages f (List.concat wss)) = e /\ forall p, fst (main messages f (List.concat wss)) p = over upd f p.
  Proof.
    intros F. set (a := ns_args (asked ss)). set (log := log_file (asked ss)).
    set (start := fun f : files => match log with Some l => write f l ""%string | None => f end).
    destruct (run_over (start fs) a) as (upd & e & U).
    exists (fun p => match log with Some l => if String.eqb p l then Some messages else upd p | None => upd p end), (Program e).
    intros f E. assert (Ds : driver_source (start f) a = driver_source (start fs) a).
    { apply source_same. intros p Ep. pose proof (asked_path ss) as L. fold a in L. rewrite Ep in L. specialize (E p L).
      unfold start. destruct log as [l|]; [|exact E]. unfold write. now destruct (String.eqb p l). }
    destruct (U (start f) Ds) as [U1 U2]. unfold ModelMain.main. rewrite (command_line ss wss F). fold log. fold a. fold (start f).
    destruct (run (start f) a) as [fs2 r]. cbn [fst snd] in *. split; [now rewrite U1|]. intros p.
    unfold over in *. destruct log as [l|]; [|apply U2]. unfold write. destruct (String.eqb p l) eqn:Pl; [reflexivity|].
    rewrite U2. destruct (upd p); [reflexivity|]. unfold start, write. now rewrite Pl.
  Qed.

  (** A run depends on the file with the truncations only. *)
  Lemma reads_one_file messages fs fs' ss wss : Forall2 writes ss wss -> (forall p, last_path ss p -> fs p = fs' p) ->
    snd (main messages fs (List.concat wss)) = snd (main messages fs' (List.concat wss)) /\
    forall p, fst (main messages fs (List.concat wss)) p = fst (main messages fs' (List.concat wss)) p \/
              (fst (main messages fs (List.concat wss)) p = fs p /\ fst (main messages fs' (List.concat wss)) p = fs' p).
  Proof.
    intros F E. destruct (main_over messages fs' ss wss F) as (upd & e & U).
    destruct (U fs E) as [A B], (U fs' (fun _ _ => eq_refl)) as [A' B']. split; [congruence|].
    intros p. rewrite B, B'. unfold over. destruct (upd p); [now left|now right].
  Qed.

  (** Runs without -p. *)
  Lemma pure messages w : without_path w -> forall fs,
    snd (main messages fs w) = snd (main messages nothing_there w) /\
    forall p, fst (main messages fs w) p = over (fst (main messages nothing_there w)) fs p.
  Proof.
    intros (ss & wss & -> & F & N) fs. destruct (main_over messages fs ss wss F) as (upd & e & U).
    destruct (U fs (fun _ _ => eq_refl)) as [A B].
    assert (E : forall p, last_path ss p -> nothing_there p = fs p).
    { intros p (b & a & -> & _). destruct (N p). apply in_or_app. right. now left. }
    destruct (U nothing_there E) as [A' B']. split; [congruence|]. intros p. rewrite B. unfold over at 2. rewrite B'. unfold over, nothing_there. now destruct (upd p).
  Qed.

  Variable messages : list string -> string.
  Notation program := (fun f w => fst (main (messages w) f w)).
  Notation alone := (fun w => fst (main (messages w) nothing_there w)).

  Lemma last_run ws : Forall without_path ws -> forall fs p,
    (exists before w after c, ws = (before ++ w :: after)%list /\ alone w p = Some c /\ (forall w', In w' after -> alone w' p = None) /\
       in_turn program fs ws p = Some c) \/
    ((forall w, In w ws -> alone w p = None) /\ in_turn program fs ws p = fs p).
  Proof.
    intros F fs p. induction ws as [|w ws IH] using rev_ind; [right; split; [intros w []|reflexivity]|].
    apply Forall_app in F as [F Fw]. inversion Fw as [|? ? Pw _]; subst. unfold in_turn. rewrite fold_left_app. cbn [fold_left].
    fold (in_turn program fs ws). destruct (pure (messages w) w Pw (in_turn program fs ws)) as [_ P]. rewrite (P p). unfold over.
    destruct (fst (main (messages w) nothing_there w) p) as [c|] eqn:C.
    - left. exists ws, w, [], c. repeat split; auto. intros w' [].
    - destruct (IH F) as [(b & w0 & a & c & -> & X & Y & Z)|[X Y]].
      + left. exists b, w0, (a ++ [w])%list, c. split; [now rewrite <- app_assoc|]. split; [exact X|]. split; [|exact Z].
        intros w' I. apply in_app_or in I as [I|[<-|[]]]; [now apply Y|exact C].
      + right. split; [|exact Y]. intros w' I. apply in_app_or in I as [I|[<-|[]]]; [now apply X|exact C].
  Qed.

  Lemma any_order ws ws' : Forall without_path ws -> (forall w, In w ws <-> In w ws') -> forall p,
    (forall w w' c c', In w ws -> In w' ws -> alone w p = Some c -> alone w' p = Some c' -> c = c') ->
    forall fs, in_turn program fs ws p = in_turn program fs ws' p.
  Proof.
    intros F Sm p U fs.
    assert (F' : Forall without_path ws') by (rewrite Forall_forall in *; intros w I; apply F, Sm, I).
    destruct (last_run ws F fs p) as [(b & w & a & c & E & X & _ & Z)|[X Y]]; destruct (last_run ws' F' fs p) as [(b' & w' & a' & c' & E' & X' & _ & Z')|[X' Y']].
    - rewrite Z, Z'. f_equal. apply (U w w' c c'); auto; [rewrite E; apply in_or_app; right; now left|].
      apply Sm. rewrite E'. apply in_or_app. right. now left.
    - assert (I : In w ws) by (rewrite E; apply in_or_app; right; now left). rewrite X' in X by now apply Sm. discriminate.
    - assert (I : In w' ws') by (rewrite E'; apply in_or_app; right; now left). rewrite X in X' by now apply Sm. discriminate.
    - congruence.
  Qed.
End Builds.
