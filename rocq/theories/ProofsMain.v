(** Whole runs from the words of the command line. *)
From Coq Require Import List Arith ZArith Lia Ascii String Bool.
From Verif Require Import PyBase SpecFullCC ModelTrunc ModelRun ModelCommandLine ModelMain SpecTrunc SpecRun SpecCommandLine SpecMain
  ProofsTrunc ProofsRun ProofsCommandLine.
Import ListNotations.
Local Open Scope string_scope.

Lemma asked_snoc ss s : asked (ss ++ [s])%list = apply_setting (asked ss) s.
Proof. unfold asked. rewrite fold_left_app. reflexivity. Qed.

(** ** The log file *)
Lemma asked_std ss : ns_std (asked ss) = true <-> In SStd ss.
Proof.
  induction ss as [|s ss IH] using rev_ind; [cbn; intuition discriminate|]. rewrite asked_snoc, in_app_iff.
  destruct s; cbn; rewrite ?IH; intuition discriminate.
Qed.

Lemma last_cons {A} (f : string -> A) (before after : list A) (ss : list A) v (s : A) :
  (before ++ f v :: after = ss ++ [s] -> (forall w, ~ In (f w) after) -> (forall w, s <> f w) ->
   exists a', after = a' ++ [s] /\ ss = before ++ f v :: a')%list.
Proof.
  intros E N D. destruct after as [|x after] using rev_ind.
  - apply app_inj_tail in E as [_ E]. now destruct (D v).
  - rewrite app_comm_cons, app_assoc in E. apply app_inj_tail in E as [<- <-]. now exists after.
Qed.

Lemma last_option {A} (f : string -> setting) (get : namespace -> A) (g : string -> A) (d : A) :
  (forall v w, f v = f w -> v = w) ->
  get nothing_asked = d -> (forall ns v, get (apply_setting ns (f v)) = g v) ->
  (forall ns s, (forall v, s <> f v) -> get (apply_setting ns s) = get ns) -> (forall s, (exists v, s = f v) \/ forall v, s <> f v) ->
  forall ss, (exists v, get (asked ss) = g v /\ exists before after, ss = (before ++ f v :: after)%list /\ forall w, ~ In (f w) after) \/
             (get (asked ss) = d /\ forall w, ~ In (f w) ss).
Proof.
  intros Inj D G O Dec ss. induction ss as [|s ss IH] using rev_ind; [right; split; [exact D|now intros w []]|].
  rewrite asked_snoc. destruct (Dec s) as [[v ->]|N].
  - left. exists v. split; [apply G|]. exists ss, []. split; [reflexivity|]. now intros w [].
  - rewrite (O _ _ N). destruct IH as [(v & E & b & a & -> & L)|[E L]].
    + left. exists v. split; [exact E|]. exists b, (a ++ [s])%list. split; [now rewrite <- app_assoc|].
      intros w I. apply in_app_or in I as [I|[I|[]]]; [now apply (L w)|now apply (N w)].
    + right. split; [exact E|]. intros w I. apply in_app_or in I as [I|[I|[]]]; [now apply (L w)|now apply (N w)].
Qed.

Lemma last_unique {A} (f : string -> A) b a b' a' v v' :
  (forall v w, f v = f w -> v = w) -> (b ++ f v :: a = b' ++ f v' :: a')%list -> (forall w, ~ In (f w) a) -> (forall w, ~ In (f w) a') -> v = v'.
Proof.
  intros Inj. revert b'. induction b as [|x b IH]; intros [|y b'] E N N'; cbn in E.
  - injection E as E _. now apply Inj.
  - injection E as _ ->. destruct (N v'). apply in_or_app. right. now left.
  - injection E as _ <-. destruct (N' v). apply in_or_app. right. now left.
  - injection E as _ E. now apply (IH b').
Qed.

Lemma asked_log ss :
  (exists v, ns_log (asked ss) = v /\ exists before after, ss = (before ++ SLog v :: after)%list /\ forall w, ~ In (SLog w) after) \/
  (ns_log (asked ss) = "default_logging_file.txt" /\ forall w, ~ In (SLog w) ss).
Proof.
  apply (last_option SLog ns_log (fun v => v)).
  - now intros v w [= ->].
  - reflexivity.
  - reflexivity.
  - intros ns s N. destruct s; try reflexivity. now destruct (N path).
  - intros s. destruct s; try (right; intros v; discriminate). left. now eexists.
Qed.

Lemma log_file_asked ss l : log_file (asked ss) = Some l <-> logs_to ss l.
Proof.
  unfold log_file, logs_to. pose proof (asked_std ss) as S. destruct (ns_std (asked ss)).
  - split; [discriminate|]. intros (N & _). destruct N. now apply S.
  - assert (N : ~ In SStd ss) by (intros I; now apply S in I).
    destruct (asked_log ss) as [(v & -> & b & a & E & L)|[-> L]].
    + destruct (String.eqb v "") eqn:V.
      * apply String.eqb_eq in V as ->. split; [discriminate|]. intros (_ & X & [(b' & a' & E' & L')|(_ & L')]).
        -- destruct X. symmetry. rewrite E in E'. apply (last_unique SLog _ _ _ _ _ _ ltac:(now intros ? ? [= ->]) E' L L').
        -- destruct (L' ""). rewrite E. apply in_or_app. right. now left.
      * apply String.eqb_neq in V. split.
        -- intros [= <-]. split; [exact N|]. split; [exact V|]. left. now exists b, a.
        -- intros (_ & X & [(b' & a' & E' & L')|(_ & L')]).
           ++ rewrite E in E'. f_equal. apply (last_unique SLog _ _ _ _ _ _ ltac:(now intros ? ? [= ->]) E' L L').
           ++ destruct (L' v). rewrite E. apply in_or_app. right. now left.
    + cbn [String.eqb Ascii.eqb Bool.eqb]. split.
      * intros [= <-]. split; [exact N|]. split; [discriminate|]. right. now split.
      * intros (_ & X & [(b' & a' & E' & L')|(-> & L')]); [|reflexivity]. destruct (L l). rewrite E'. apply in_or_app. right. now left.
Qed.

(** ** -rf *)
Lemma asked_remove_f ss :
  (exists v, arg_remove_f (ns_args (asked ss)) = Some v /\ last_remove_f ss v) \/
  (arg_remove_f (ns_args (asked ss)) = None /\ no_remove_f ss).
Proof.
  apply (last_option SRemoveF (fun ns => arg_remove_f (ns_args ns)) Some).
  - now intros v w [= ->].
  - reflexivity.
  - reflexivity.
  - intros ns s N. destruct s; try reflexivity. now destruct (N text).
  - intros s. destruct s; try (right; intros v; discriminate). left. now eexists.
Qed.
Lemma last_remove_f_unique ss v w : last_remove_f ss v -> last_remove_f ss w -> v = w.
Proof.
  intros (b & a & -> & L) (b' & a' & E & L'). apply (last_unique SRemoveF _ _ _ _ _ _ ltac:(now intros ? ? [= ->]) E L L').
Qed.

Lemma remove_f_asked fs ss c : asks fs (ns_args (asked ss)) c ->
  (gc_remove_f c = true <-> exists v, last_remove_f ss v /\ v <> "").
Proof.
  intros (t & saved & _ & _ & _ & _ & _ & _ & R & _). rewrite R.
  destruct (asked_remove_f ss) as [(v & E & L)|[E L]]; rewrite E; split.
  - intros (w & [= <-] & N). now exists v.
  - intros (w & L' & N). exists v. split; [reflexivity|]. now rewrite (last_remove_f_unique _ _ _ L L').
  - intros (w & X & _). discriminate X.
  - intros (w & (b & a & -> & _) & _). destruct (L w). apply in_or_app. right. now left.
Qed.

(** ** Runs *)
Section Main.
  Variable lt : list (list ModelFullCC.tamp) -> list (list ModelFullCC.tamp).
  Variable ln : list nat -> list nat.
  Variable lp : list (list (nat * nat)) -> list (list (nat * nat)).
  Variable pt : list (list ModelFullCC.tamp) -> list (list ModelFullCC.tamp).
  Variable pn : list nat -> list nat.
  Variable pl : list (list nat) -> list (list nat).
  Variable pc : list (list ascii) -> list (list ascii).
  Variable messages : string.
  Notation run := (run lt ln lp pt pn pl pc).
  Notation main := (main lt ln lp pt pn pl pc messages).

  Lemma source_other fs l x a : arg_path a <> Some l -> driver_source (write fs l x) a = driver_source fs a.
  Proof.
    intros N. unfold driver_source. destruct (arg_t a), (arg_path a) as [p|]; try reflexivity.
    unfold write. destruct (String.eqb p l) eqn:E; [|reflexivity]. apply String.eqb_eq in E as ->. congruence.
  Qed.

  Lemma run_other fs l x a : arg_path a <> Some l ->
    snd (run (write fs l x) a) = snd (run fs a) /\ forall p, p <> l -> fst (run (write fs l x) a) p = fst (run fs a) p.
  Proof.
    intros N. unfold ModelRun.run. rewrite (source_other _ _ _ _ N).
    assert (W : forall p, p <> l -> write fs l x p = fs p) by (intros p D; unfold write; now rewrite (proj2 (String.eqb_neq p l) D)).
    assert (V : forall (f g : files) q t, (forall p, p <> l -> f p = g p) -> forall p, p <> l -> write f q t p = write g q t p)
      by (intros f g q t H p D; unfold write; destruct (String.eqb p q); auto).
    destruct (driver_source fs a) as [[saved d]|]; [|now split].
    assert (U : forall p, p <> l -> (match saved with Some text => write (write fs l x) "../truncs.json" text | None => write fs l x end) p =
                                  (match saved with Some text => write fs "../truncs.json" text | None => fs end) p)
      by (destruct saved; auto).
    destruct (driver_request a d) as [c|]; [|now split].
    destruct (generate lt ln lp pt pn pl pc c) as [text|]; [|now split]. split; [reflexivity|]. cbn [fst]. now apply V.
  Qed.

  Lemma main_parsed fs words ns : parse_args words = Done ns ->
    (forall l, log_file ns = Some l -> arg_path (ns_args ns) <> Some l) ->
    snd (main fs words) = Program (snd (run fs (ns_args ns))) /\
    forall p, log_file ns <> Some p -> fst (main fs words) p = fst (run fs (ns_args ns)) p.
  Proof.
    intros E N. unfold ModelMain.main. rewrite E. destruct (log_file ns) as [l|] eqn:L.
    - destruct (run_other fs l "" (ns_args ns) (N l eq_refl)) as [A B].
      destruct (run (write fs l "") (ns_args ns)) as [fs2 r]. cbn [fst snd] in *. split; [now rewrite A|].
      intros p D. assert (D' : p <> l) by congruence. unfold write. rewrite (proj2 (String.eqb_neq p l) D'). now apply B.
    - destruct (run fs (ns_args ns)) as [fs2 r]. now split.
  Qed.

  Lemma main_runs fs ss wss : Forall2 writes ss wss ->
    (forall l, logs_to ss l -> arg_path (ns_args (asked ss)) <> Some l) ->
    snd (main fs (List.concat wss)) = Program (snd (run fs (ns_args (asked ss)))) /\
    forall p, ~ logs_to ss p -> fst (main fs (List.concat wss)) p = fst (run fs (ns_args (asked ss))) p.
  Proof.
    intros F N. destruct (main_parsed fs _ _ (command_line ss wss F)) as [A B].
    - intros l L. apply N. now apply log_file_asked.
    - split; [exact A|]. intros p D. apply B. intros L. apply D. now apply log_file_asked.
  Qed.

  Lemma main_log fs ss wss l : Forall2 writes ss wss -> logs_to ss l -> fst (main fs (List.concat wss)) l = Some messages.
  Proof.
    intros F L. apply log_file_asked in L. unfold ModelMain.main. rewrite (command_line ss wss F), L.
    destruct (run _ _) as [fs2 r]. cbn [fst]. unfold write. now rewrite String.eqb_refl.
  Qed.

  Lemma main_log_truncations fs ss wss l : Forall2 writes ss wss -> logs_to ss l -> arg_path (ns_args (asked ss)) = Some l ->
    fst (main fs (List.concat wss)) l = Some messages /\
    (exists e, snd (main fs (List.concat wss)) = Program (Err e)) /\
    forall p, p <> l -> fst (main fs (List.concat wss)) p = fs p.
  Proof.
    intros F L E. split; [exact (main_log fs ss wss l F L)|]. apply log_file_asked in L. unfold ModelMain.main.
    rewrite (command_line ss wss F), L. unfold ModelRun.run, driver_source. rewrite E.
    assert (W : forall p, p <> l -> write fs l "" p = fs p) by (intros p D; unfold write; now rewrite (proj2 (String.eqb_neq p l) D)).
    assert (V : forall (f : files) p, p <> l -> write f l messages p = f p) by (intros f p D; unfold write; now rewrite (proj2 (String.eqb_neq p l) D)).
    destruct (arg_t (ns_args (asked ss))).
    - cbn [fst snd]. split; [now eexists|]. intros p D. now rewrite V, W.
    - assert (X : write fs l "" l = Some "") by (unfold write; now rewrite String.eqb_refl). rewrite X.
      change (load_from_JSON "") with (@Err dict ValueErr). cbn [bind fst snd]. split; [now eexists|]. intros p D. now rewrite V, W.
  Qed.

  Hypothesis Hlt : set_order lt.
  Hypothesis Hln : set_order ln.
  Hypothesis Hlp : set_order lp.
  Hypothesis Hpt : set_order pt.
  Hypothesis Hpn : set_order pn.
  Hypothesis Hpl : set_order pl.
  Hypothesis Hpc : set_order pc.

  Lemma main_end_to_end fs ss wss : Forall2 writes ss wss ->
    (forall l, logs_to ss l -> arg_path (ns_args (asked ss)) <> Some l) ->
    (snd (main fs (List.concat wss)) = Program (Ok tt) <-> exists c, asks fs (ns_args (asked ss)) c /\ can_write c) /\
    (snd (main fs (List.concat wss)) = Program (Ok tt) ->
     exists c text, asks fs (ns_args (asked ss)) c /\ can_write c /\ content_ok c text /\
       (exists saved, driver_main fs (ns_args (asked ss)) = Ok (saved, c)) /\
       (~ logs_to ss (gc_path c) -> fst (main fs (List.concat wss)) (gc_path c) = Some text) /\
       forall p, p <> gc_path c -> p <> truncations_file -> ~ logs_to ss p -> fst (main fs (List.concat wss)) p = fs p).
  Proof.
    intros F N. destruct (main_runs fs ss wss F N) as [A B]. split.
    - rewrite A, <- (run_ok_iff lt ln lp pt pn pl pc Hlt Hln Hlp Hpt Hpn Hpl Hpc). split; [now intros [= ->]|now intros ->].
    - rewrite A. intros E. assert (E' : snd (run fs (ns_args (asked ss))) = Ok tt) by congruence.
      destruct (run fs (ns_args (asked ss))) as [fs' r] eqn:R. cbn [fst snd] in *. subst r.
      destruct (run_writes_asked lt ln lp pt pn pl pc Hlt Hln Hlp Hpt Hpn Hpl Hpc _ _ _ R) as (saved & c & text & D & As & Cw & Ct & Np & Tx & Rest).
      exists c, text. split; [exact As|]. split; [exact Cw|]. split; [exact Ct|]. split; [now exists saved|]. split.
      + intros NL. rewrite (B _ NL). exact Tx.
      + intros p P1 P2 P3. rewrite (B _ P3). now apply Rest.
  Qed.
End Main.
