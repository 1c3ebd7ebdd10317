(** A check that the names of a program are bound when they are read, for all
    truth values of its conditions, and that calls match. *)
From Coq Require Import List Arith Bool Ascii String Lia.
From Verif Require Import SpecPython SpecNames.
Import ListNotations.
Local Open Scope nat_scope.
Local Open Scope list_scope.

Section StmtInd.
  Variable P : stmt -> Prop.
  Hypothesis HS : forall t, P (Simple t).
  Hypothesis HI : forall c yes no, Forall P yes -> Forall P no -> P (If c yes no).
  Hypothesis HB : forall h body, P (Block h body).
  Fixpoint stmt_induct (s : stmt) : P s :=
    let all := fix all (l : list stmt) : Forall P l :=
      match l with [] => Forall_nil P | x :: r => Forall_cons x (stmt_induct x) (all r) end in
    match s with
    | Simple t => HS t
    | If c yes no => HI c yes no (all yes) (all no)
    | Block h body => HB h body
    end.
End StmtInd.

Lemma member_in x l : member x l = true <-> In x l.
Proof.
  unfold member. rewrite existsb_exists. split.
  - intros (y & H & E). apply String.eqb_eq in E. subst y. exact H.
  - intros H. exists x. split; [exact H|apply String.eqb_refl].
Qed.

(** The names bound at the end ([None]: the end is not reached), if every name
    is bound when it is read. *)
Definition env := list string.
Definition all_in (l : list string) (e : env) : bool := forallb (fun x => member x e) l.
Definition meet (e : env) (a b : option env) : option env :=
  match a, b with
  | None, x => x
  | x, None => x
  | Some _, Some _ => Some e
  end.

Fixpoint flow1 (e : env) (s : stmt) : option (option env) :=
  let go := fix go (e : env) (l : list stmt) : option (option env) :=
    match l with
    | [] => Some (Some e)
    | s :: r => match flow1 e s with None => None | Some None => Some None | Some (Some e') => go e' r end
    end in
  match s with
  | Simple t => if all_in (names_read t) e then Some (if leaves t then None else Some (names_bound t ++ e)) else None
  | If c yes no =>
      if all_in (names_read c) e
      then match go e yes, go e no with Some a, Some b => Some (meet e a b) | _, _ => None end
      else None
  | Block _ _ => Some (Some e)
  end.
Fixpoint flow (e : env) (l : list stmt) : option (option env) :=
  match l with
  | [] => Some (Some e)
  | s :: r => match flow1 e s with None => None | Some None => Some None | Some (Some e') => flow e' r end
  end.

Lemma all_in_incl l e e' : all_in l e = true -> incl e e' -> incl l e'.
Proof. unfold all_in. rewrite forallb_forall. intros H I x X. apply I, member_in, H, X. Qed.

Lemma bound_more ts : forall e e', incl e e' -> bound_when_read e ts -> bound_when_read e' ts.
Proof.
  induction ts as [|t r IH]; intros e e' I H; [exact Logic.I|]. destruct H as [H1 H2]. split; [eapply incl_tran; eassumption|].
  apply (IH _ _ (incl_app_app (incl_refl _) I) H2).
Qed.

(** What the result of the check says about the rest of the statements. *)
Definition goes (r : option env) (rest : list string) : Prop :=
  match r with None => True | Some e => bound_when_read e (until_left rest) end.

Definition sound1 (s : stmt) : Prop := forall flag e r rest,
  flow1 e s = Some r -> goes r rest -> bound_when_read e (until_left (visited1 flag s ++ rest)).

Lemma flow_sound l : Forall sound1 l -> forall flag e r rest,
  flow e l = Some r -> goes r rest -> bound_when_read e (until_left (flat_map (visited1 flag) l ++ rest)).
Proof.
  induction 1 as [|s l H _ IH]; intros flag e r rest F G; cbn [flow flat_map] in *.
  - injection F as <-. exact G.
  - rewrite <- app_assoc. destruct (flow1 e s) as [[e'|]|] eqn:E; [| |discriminate F].
    + apply (H flag e (Some e') _ E). cbn [goes]. apply (IH flag e' r rest F G).
    + apply (H flag e None _ E). exact Logic.I.
Qed.

Definition grows1 (s : stmt) : Prop := forall e e', flow1 e s = Some (Some e') -> incl e e'.
Lemma flow_grows l : Forall grows1 l -> forall e e', flow e l = Some (Some e') -> incl e e'.
Proof.
  induction 1 as [|s l H _ IH]; intros e e' F; cbn [flow] in F; [injection F as <-; apply incl_refl|].
  destruct (flow1 e s) as [[e1|]|] eqn:E; [|discriminate F|discriminate F]. eapply incl_tran; [exact (H e e1 E)|exact (IH e1 e' F)].
Qed.
Lemma flow1_if e c yes no : flow1 e (If c yes no) =
  if all_in (names_read c) e then match flow e yes, flow e no with Some a, Some b => Some (meet e a b) | _, _ => None end else None.
Proof. reflexivity. Qed.
Lemma flow1_grows s : grows1 s.
Proof.
  induction s as [t|c yes no Hy Hn|h body] using stmt_induct; intros e e' F.
  - cbn in F. destruct (all_in (names_read t) e); [|discriminate F]. destruct (leaves t); [discriminate F|]. injection F as <-. apply incl_appr, incl_refl.
  - rewrite flow1_if in F. destruct (all_in (names_read c) e); [|discriminate F].
    destruct (flow e yes) as [a|] eqn:Ea; [|discriminate F]. destruct (flow e no) as [b|] eqn:Eb; [|discriminate F].
    destruct a as [a|], b as [b|]; cbn in F; try discriminate F; injection F as <-; [apply incl_refl|exact (flow_grows yes Hy e a Ea)|exact (flow_grows no Hn e b Eb)].
  - injection F as <-. apply incl_refl.
Qed.
Lemma all_grow l : Forall grows1 l.
Proof. apply Forall_forall. intros s _. apply flow1_grows. Qed.

Lemma meet_goes e a b yes no rest : flow e yes = Some a -> flow e no = Some b -> goes (meet e a b) rest -> goes a rest /\ goes b rest.
Proof.
  intros Ea Eb. destruct a as [a|], b as [b|]; cbn; intros H; auto. split.
  - apply (bound_more _ e a) in H; [exact H|exact (flow_grows yes (all_grow yes) e a Ea)].
  - apply (bound_more _ e b) in H; [exact H|exact (flow_grows no (all_grow no) e b Eb)].
Qed.

Lemma flow1_sound s : sound1 s.
Proof.
  induction s as [t|c yes no Hy Hn|h body] using stmt_induct; intros flag e r rest F G.
  - cbn in *. destruct (all_in (names_read t) e) eqn:A; [|discriminate F]. injection F as <-.
    pose proof (all_in_incl _ _ _ A (incl_refl e)) as I.
    destruct (leaves t); cbn; split; auto.
  - rewrite flow1_if in F.
    destruct (all_in (names_read c) e) eqn:A; [|discriminate F].
    destruct (flow e yes) as [a|] eqn:Ea; [|discriminate F]. destruct (flow e no) as [b|] eqn:Eb; [|discriminate F].
    injection F as <-. apply (meet_goes e a b yes no rest Ea Eb) in G. destruct G as [Ga Gb].
    pose proof (all_in_incl _ _ _ A (incl_refl e)) as I. cbn [visited1 app].
    cbn [until_left]. destruct (leaves c); [split; [exact I|exact Logic.I]|]. split; [exact I|].
    apply (bound_more _ e); [apply incl_appr, incl_refl|].
    destruct (flag c); [exact (flow_sound yes Hy flag e a rest Ea Ga)|exact (flow_sound no Hn flag e b rest Eb Gb)].
  - injection F as <-. exact G.
Qed.

Lemma flow_bound e b flag : flow e b <> None -> bound_when_read e (visited flag b).
Proof.
  intros H. destruct (flow e b) as [r|] eqn:E; [|elim H; reflexivity].
  unfold visited. rewrite <- (app_nil_r (flat_map _ b)). apply (flow_sound b) with (r := r); [|exact E|destruct r; exact Logic.I].
  apply Forall_forall. intros s _. apply flow1_sound.
Qed.

Definition function_ok (prog : list stmt) (more : list string) (h : string) (b : list stmt) : bool :=
  match flow (parameters h ++ module_names prog ++ builtins ++ more) b with Some _ => true | None => false end.
Lemma function_checked prog more h b : function_ok prog more h b = true -> function_resolved prog more h b.
Proof. intros H flag. apply flow_bound. unfold function_ok in H. destruct (flow _ b); [discriminate|discriminate H]. Qed.
Definition functions_ok (prog : list stmt) : bool :=
  forallb (fun s => match s with Block h b => function_ok prog [] h b | _ => true end) prog.
Lemma names_checked prog : functions_ok prog = true -> names_resolved prog.
Proof. unfold functions_ok. rewrite forallb_forall. intros H h b X. apply function_checked, (H _ X). Qed.

(** ** Calls *)
Definition sig_eqb (a b : string * nat) : bool := String.eqb (fst a) (fst b) && Nat.eqb (snd a) (snd b).
Lemma sig_eqb_eq a b : sig_eqb a b = true -> a = b.
Proof. destruct a, b. unfold sig_eqb. cbn. rewrite andb_true_iff, String.eqb_eq, Nat.eqb_eq. intros [-> ->]. reflexivity. Qed.
Definition known (sigs : list (string * nat)) (c : string * nat) : bool := existsb (sig_eqb c) sigs.
Lemma known_in sigs c : known sigs c = true -> In c sigs.
Proof. unfold known. rewrite existsb_exists. intros (x & X & E). apply sig_eqb_eq in E. subst x. exact X. Qed.

Definition calls_ok (prog : list stmt) : bool :=
  let sigs := signatures prog in
  forallb (fun t => forallb (fun c => negb (member (fst c) (map fst sigs)) || known sigs c) (calls t)) (all_lines prog).
Lemma calls_checked prog : calls_ok prog = true -> calls_match prog.
Proof.
  unfold calls_ok. rewrite forallb_forall. intros H t f n T C S. specialize (H t T). rewrite forallb_forall in H.
  specialize (H (f, n) C). cbn [fst] in H. apply orb_true_iff in H. destruct H as [H|H]; [|apply known_in, H].
  apply member_in in S. rewrite S in H. discriminate H.
Qed.
Definition module_calls (m : string) (prog : list stmt) : list (string * nat) := flat_map (calls_of_module m) (all_lines prog).
Lemma module_calls_checked m prog other : forallb (known (signatures other)) (module_calls m prog) = true -> module_calls_match m prog other.
Proof.
  rewrite forallb_forall. intros H t f n T C. apply known_in, H. unfold module_calls. apply in_flat_map. exists t. auto.
Qed.
