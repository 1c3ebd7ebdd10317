(** Proofs for C127. *)
From Coq Require Import List Arith Lia Bool Permutation Ascii String.
From Verif Require Import PyBase ModelFullCC ModelFullCCPy SpecFullCC SpecFullCCPy SpecPython SpecEtText SpecFullCCText SpecPathCalls ProofsFullCCText.
Import ListNotations.
Local Open Scope string_scope.

Lemma chars_app a b : list_ascii_of_string (a ++ b) = (list_ascii_of_string a ++ list_ascii_of_string b)%list.
Proof. induction a as [|c a IH]; [reflexivity|]. cbn. now rewrite IH. Qed.

Lemma quote_app a b : quote_free a -> quote_free b -> quote_free (a ++ b).
Proof. intros A B c I. rewrite chars_app, in_app_iff in I. destruct I; [now apply A|now apply B]. Qed.

Lemma quote_check s : forallb (fun c => negb (Ascii.eqb c "'" || Ascii.eqb c """")) (list_ascii_of_string s) = true -> quote_free s.
Proof.
  intros E c I. rewrite forallb_forall in E. specialize (E _ I). rewrite negb_true_iff, orb_false_iff in E. destruct E as [E1 E2].
  split; intros ->; [now rewrite Ascii.eqb_refl in E1|now rewrite Ascii.eqb_refl in E2].
Qed.

Lemma quote_concat sep l : quote_free sep -> Forall quote_free l -> quote_free (String.concat sep l).
Proof.
  intros S F. induction F as [|x l Hx _ IH]; [intros c []|]. destruct l as [|y l]; [exact Hx|].
  change (String.concat sep (x :: y :: l)) with (x ++ sep ++ String.concat sep (y :: l)).
  apply quote_app; [exact Hx|]. now apply quote_app.
Qed.

Lemma quote_shape k : quote_free (shape_text k).
Proof.
  unfold shape_text. repeat apply quote_app; try (now apply quote_check). apply quote_concat; [now apply quote_check|].
  apply Forall_forall. intros x I. apply repeat_spec in I as ->. now apply quote_check.
Qed.

Lemma quote_contract c : quote_free (contract_text c).
Proof.
  unfold contract_text. repeat apply quote_app; try (now apply quote_check). apply quote_concat; [now apply quote_check|].
  apply Forall_forall. intros x I. apply in_map_iff in I as (k & <- & _). apply quote_shape.
Qed.

Lemma str_app_assoc (a b c : string) : (a ++ b) ++ c = a ++ (b ++ c).
Proof. induction a as [|x a IH]; [reflexivity|]. cbn. now rewrite IH. Qed.

Lemma contract_start k c : exists r, contract_text (k :: c) = "oe.contract_expression((A, A" ++ r.
Proof.
  unfold contract_text, shape_text. cbn [map]. destruct (map _ c) as [|y r] eqn:E.
  - eexists. reflexivity.
  - eexists. change (String.concat ", " (?x :: ?y :: ?r)) with (x ++ ", " ++ String.concat ", " (y :: r)). rewrite <- E. cbn. reflexivity.
Qed.

(** One statement of the function of the paths. *)
Lemma statement_without name t l :
  quote_free name -> list_adds name t l -> Forall (fun c => c <> []) l -> call_without_equation t.
Proof.
  intros Q [(c & -> & ->)|(L & ->)] F.
  - inversion F as [|? ? Nc _]; subst. destruct c as [|k c]; [contradiction|]. split.
    + destruct (contract_start k c) as [r ->]. exists (name ++ ".append("), (r ++ ")"). now rewrite !str_app_assoc.
    + apply quote_app; [exact Q|]. apply quote_app; [now apply quote_check|]. apply quote_app; [apply quote_contract|now apply quote_check].
  - destruct l as [|x l]; [cbn in L; lia|]. inversion F as [|? ? Nc _]; subst. destruct x as [|k c]; [contradiction|]. split.
    + destruct l as [|y l]; [cbn in L; lia|]. destruct (contract_start k c) as [r E].
      change (map contract_text ((k :: c) :: y :: l)) with (contract_text (k :: c) :: contract_text y :: map contract_text l).
      change (String.concat ", " (?a :: ?b :: ?r)) with (a ++ ", " ++ String.concat ", " (b :: r)).
      rewrite E. exists (name ++ ".extend([ "). eexists. rewrite !str_app_assoc. reflexivity.
    + apply quote_app; [exact Q|]. apply quote_app; [now apply quote_check|]. apply quote_app; [|now apply quote_check].
      apply quote_concat; [now apply quote_check|]. apply Forall_forall. intros s I. apply in_map_iff in I as (d & <- & _). apply quote_contract.
Qed.

Lemma adds_something name t l : list_adds name t l -> l <> [].
Proof. intros [(c & -> & _)|(L & _)]; [discriminate|]. intros ->. cbn in L. lia. Qed.

Lemma shapes_nonempty {X} (f : X -> next_call) l : Forall (fun c : list nat => c <> []) (map (fun x => shapes (f x)) l).
Proof. apply Forall_forall. intros c I. apply in_map_iff in I as (x & <- & _). discriminate. Qed.

(** The statements of a branch. *)
Lemma statements_without name ts l :
  quote_free name -> in_order (list_adds name) ts l -> Forall (fun c => c <> []) l ->
  Forall call_without_equation ts /\ (l = [] <-> ts = []).
Proof.
  intros Q (ls & F & ->). induction F as [|t l0 ts ls A _ IH]; intros Fl; [split; [constructor|tauto]|].
  cbn [List.concat] in Fl. apply Forall_app in Fl as [F1 F2]. destruct (IH F2) as [X _]. split.
  - constructor; [eapply statement_without; eassumption|exact X].
  - pose proof (adds_something _ _ _ A) as N. split; [|discriminate]. cbn [List.concat]. intros E. apply app_eq_nil in E as [E _]. contradiction.
Qed.

Lemma group_names g : In g groups -> quote_free (path_list_name g).
Proof. intros [<-|[<-|[<-|[]]]]; now apply quote_check. Qed.

Lemma defines_paths_impl prog m n g (D D' : list stmt -> Prop) : (forall b, D b -> D' b) -> defines_cc_paths prog m n g D -> defines_cc_paths prog m n g D'.
Proof. intros I (doc & ours & A & B & C). exists doc, ours. auto. Qed.

Lemma group_without prog so calls_of H cc S m n g l :
  In g groups -> group_functions prog so calls_of H cc S m n g l -> paths_without_equation prog m n g.
Proof.
  intros Ig (bares & what & D & _ & _ & _ & _ & Dp). exists bares, what. split; [exact D|].
  eapply defines_paths_impl; [|exact Dp]. intros b (Nb & [(-> & _ & Z)|Ex]) flag; cbv zeta.
  - specialize (Z (fun i => flag (cc_h_condition i)) (fun j => flag (cc_t_condition j))). split; [now right|].
    intros X. destruct X. now apply map_eq_nil in Z.
  - destruct (Ex flag) as (ts & E & O). cbn [map app] in E. rewrite E.
    destruct (statements_without _ _ _ (group_names g Ig) O (shapes_nonempty (fun pc => snd (without_subscripts pc)) _)) as [X [Y1 Y2]]. split.
    + intros Z. left. apply Y1. now rewrite Z.
    + intros Z. split; [|exact X]. intros ->. apply Z. specialize (Y2 eq_refl). now apply map_eq_nil in Y2.
Qed.

Lemma file_without sot so son soc H cc S P text prog :
  set_order sot -> set_order so -> set_order son -> set_order soc -> 1 <= cc <= 6 -> S <= 6 -> H <= 5 ->
  generate_full_cc_python sot so son soc H cc S P = Ok text -> python text prog ->
  forall m n, m + n <= cc -> m + n <= P -> Forall (paths_without_equation prog m n) groups.
Proof.
  intros Hsot Hso Hson Hsoc C1 C2 C3 E R m n A B.
  destruct (cc_file_functions sot so son soc H cc S P text prog Hsot Hso Hson Hsoc C1 C2 C3 E R m n A B) as (terms & _ & F2).
  apply Forall_forall. intros g Ig. assert (X : exists l, group_functions prog so (einsum_calls son soc) H cc S m n g l).
  { clear - F2 Ig. induction F2 as [|g' l gs ls G _ IH]; [destruct Ig|]. destruct Ig as [->|Ig]; [now exists l|now apply IH]. }
  destruct X as [l G]. eapply group_without; eassumption.
Qed.

(** The last terms: none is left only if there was none. *)
Lemma lasts_some {X Y} (f : X -> Y) l l' : lasts f l l' -> l <> [] -> l' <> [].
Proof.
  induction 1 as [|x l l' _ _ _|x y l l' I _ _ IH]; [contradiction|discriminate|]. intros _. apply IH. intros ->. destruct I.
Qed.
Lemma lasts_in {X Y} (f : X -> Y) l l' : lasts f l l' -> forall x, In x l' -> In x l.
Proof. induction 1 as [|x l l' _ _ IH|x y l l' _ _ _ IH]; intros z I; [destruct I|destruct I as [->|I]; [now left|right; now apply IH]|right; now apply IH]. Qed.

Lemma active_all s : active (fun _ => true) (fun _ => true) s = true.
Proof. destruct s as [[i j] p]. cbn. now rewrite !orb_true_r. Qed.

(** The contraction of h_1 with t^1 is requested of every file. *)
Lemma something_to_add prog so calls_of H cc S g l :
  In g groups -> 1 <= H -> 1 <= cc -> 1 <= S ->
  group_terms H cc S 0 0 fully_connected l -> group_functions prog so calls_of H cc S 0 0 g l ->
  paths_fail prog 0 0 g.
Proof.
  intros Ig LH Lc LS (_ & _ & Cov) G.
  assert (Rq : requested 0 0 H cc S true true 0 1 [mkt 1 0 0 0] 0 0).
  { unfold requested, contraction, amplitude, total, up, down. cbn. repeat split; try lia; repeat constructor; cbn; lia. }
  assert (K : fully_connected [mkt 1 0 0 0]) by (repeat constructor; intros [A B]; discriminate).
  destruct (Cov _ _ _ _ _ Rq K) as (us' & t & Pm & Ds & It). apply Permutation_length_1_inv in Pm as ->.
  destruct G as (bares & what & D & (surv & calls & Ls & Cs & _ & W) & _ & _ & _ & Dp).
  assert (Iw : In t (with_amplitudes l)) by (apply filter_In; split; [exact It|now rewrite Ds]).
  assert (N : what (fun _ => true) (fun _ => true) <> []).
  { assert (Ns : surv <> []) by (apply (lasts_some _ _ _ Ls); intros Z; rewrite Z in Iw; destruct Iw).
    destruct surv as [|t0 surv]; [contradiction|]. intros Z. specialize (W (fun _ => true) (fun _ => true)). rewrite Z in W.
    apply Permutation_nil in W. cbn [flat_map] in W. rewrite active_all in W. apply app_eq_nil in W as [W _]. apply map_eq_nil in W.
    apply (Cs t0 (lasts_in _ _ _ Ls t0 (or_introl eq_refl))). exact W. }
  eapply defines_paths_impl; [|exact Dp]. intros b (Nb & [(-> & _ & Z)|Ex]).
  - destruct N. specialize (Z (fun _ => true) (fun _ => true)). now apply map_eq_nil in Z.
  - destruct (Ex (fun _ => true)) as (ts & E & O). cbn [map app] in E. rewrite E.
    destruct (statements_without _ _ _ (group_names g Ig) O (shapes_nonempty (fun pc => snd (without_subscripts pc)) _)) as [X [Y1 Y2]].
    destruct ts as [|t0 ts]; [destruct N; specialize (Y2 eq_refl); now apply map_eq_nil in Y2|].
    exists t0. split; [now left|now inversion X].
Qed.

Lemma file_fails sot so son soc H cc S P text prog :
  set_order sot -> set_order so -> set_order son -> set_order soc -> 1 <= cc <= 6 -> 1 <= S <= 6 -> 1 <= H <= 5 ->
  generate_full_cc_python sot so son soc H cc S P = Ok text -> python text prog ->
  paths_fail prog 0 0 ("fully_connected", "connected").
Proof.
  intros Hsot Hso Hson Hsoc C1 C2 C3 E R.
  destruct (cc_file_functions sot so son soc H cc S P text prog Hsot Hso Hson Hsoc C1 ltac:(lia) ltac:(lia) E R 0 0 ltac:(lia) ltac:(lia)) as (terms & F1 & F2).
  unfold kinds in F1. inversion F1 as [|k1 t1 ks ts1 G1 F1a]; subst. unfold groups in F2. inversion F2 as [|? ? ? ? X1 F2a]; subst.
  eapply something_to_add; [now left| | | |exact G1|exact X1]; lia.
Qed.
