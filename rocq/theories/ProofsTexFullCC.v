(** The documents of the full coupled cluster equations are processed. *)
From Coq Require Import List Ascii String Bool Arith Lia.
From Verif Require Import PyBase ModelFullCC ModelFullCCPy SpecFullCC SpecFullCCPy SpecPrefactor SpecLatexW SpecFullCCLatex ModelHeaders.
From Verif Require Import ModelTrunc ProofsTrunc SpecTex SpecTexDoc ProofsTex ProofsTexW ProofsTexDoc.
Import ListNotations.
Open Scope string_scope.

Definition vecc_env : list (string * signature) := Eval vm_compute in
  match preamble kernel (tokens full_vecc_latex_header) with Some (env, _) => env | None => [] end.

Local Notation J := (J vecc_env).
Local Notation JT := (JT vecc_env).

Definition M : mode * list frame := (Math, []).
(** Inside of split, behind the & of a row. *)
Definition Sp : mode * list frame := (Math, [Env "split" Math true]).

Ltac lit := refine (literal _ _ _ inline _ _); vm_compute; reflexivity.
Ltac lit_to := apply check_ok; vm_compute; reflexivity.

(** ** Letters and numbers *)
Lemma plain_letters l : incl l (summed_letters ++ free_letters)%list -> plain (string_of_list_ascii l).
Proof.
  intros H. unfold plain. rewrite list_ascii_of_string_of_list_ascii. apply Forall_forall. intros c Hc. apply H in Hc.
  revert c Hc. apply Forall_forall. vm_compute. repeat constructor.
Qed.

Lemma incl_letters_from l k n : incl (letters_from l k n) l.
Proof.
  unfold letters_from. intros c Hc. assert (In c (skipn k l)) as H by (rewrite <- (firstn_skipn n (skipn k l)); apply in_or_app; now left).
  rewrite <- (firstn_skipn k l). apply in_or_app. now right.
Qed.
Lemma summed_all k n : incl (letters_from summed_letters k n) (summed_letters ++ free_letters)%list.
Proof. eapply incl_tran; [apply incl_letters_from|apply incl_appl, incl_refl]. Qed.
Lemma free_all k n : incl (letters_from free_letters k n) (summed_letters ++ free_letters)%list.
Proof. eapply incl_tran; [apply incl_letters_from|apply incl_appr, incl_refl]. Qed.


Lemma plain_number n : plain (str_nat n).
Proof.
  unfold plain. generalize (str_nat_digits n). generalize (str_nat n). induction s as [|c s IH]; cbn [all_digits list_ascii_of_string]; [constructor|].
  intros H. apply andb_prop in H as [Hc Hs]. constructor; [|now apply IH].
  apply digit_char_cases in Hc. cbn in Hc. repeat destruct Hc as [<-|Hc]; try reflexivity. destruct Hc.
Qed.

(** ** Amplitudes and Hamiltonians *)
Definition letters_ok (l : list ascii) : Prop := incl l (summed_letters ++ free_letters)%list.

Lemma J_letters l c : letters_ok l -> J inline (string_of_list_ascii l) inline c c.
Proof. intros H. apply J_plain_inline, plain_letters, H. Qed.

Ltac letters := eapply J_app; [apply J_letters; eassumption| |joint].

Lemma J_up_down (name : string) (a b c d : list ascii) : name = "\bt" \/ name = "\bh" ->
  letters_ok a -> letters_ok b -> letters_ok c -> letters_ok d ->
  J anywhere (name ++ "^{\blue{" ++ string_of_list_ascii a ++ "}\red{" ++ string_of_list_ascii b
         ++ "}}_{\blue{" ++ string_of_list_ascii c ++ "}\red{" ++ string_of_list_ascii d ++ "}}") inline M M.
Proof.
  intros [->| ->] A B C D.
  - change ("\bt" ++ "^{\blue{" ++ ?x) with ("\bt^{\blue{" ++ x).
    eapply J_app; [lit| |joint]. letters. eapply J_app; [lit| |joint]. letters. eapply J_app; [lit| |joint]. letters.
    eapply J_app; [lit| |joint]. letters. lit_to.
  - change ("\bh" ++ "^{\blue{" ++ ?x) with ("\bh^{\blue{" ++ x).
    eapply J_app; [lit| |joint]. letters. eapply J_app; [lit| |joint]. letters. eapply J_app; [lit| |joint]. letters.
    eapply J_app; [lit| |joint]. letters. lit_to.
Qed.
Lemma J_up (a b : list ascii) : letters_ok a -> letters_ok b ->
  J anywhere ("\bt^{\blue{" ++ string_of_list_ascii a ++ "}\red{" ++ string_of_list_ascii b ++ "}}") inline M M.
Proof. intros A B. eapply J_app; [lit| |joint]. letters. eapply J_app; [lit| |joint]. letters. lit_to. Qed.
Lemma J_down (a b : list ascii) : letters_ok a -> letters_ok b ->
  J anywhere ("\bt_{\blue{" ++ string_of_list_ascii a ++ "}\red{" ++ string_of_list_ascii b ++ "}}") inline M M.
Proof. intros A B. eapply J_app; [lit| |joint]. letters. eapply J_app; [lit| |joint]. letters. lit_to. Qed.

Definition label_ok (x : tlabel) : Prop := letters_ok (l_mh x) /\ letters_ok (l_mo x) /\ letters_ok (l_nh x) /\ letters_ok (l_no x).

Lemma append_assoc_s (a b c : string) : (a ++ b) ++ c = a ++ (b ++ c).
Proof. induction a; cbn; congruence. Qed.

Lemma J_amplitude x : label_ok x -> J anywhere (amplitude_text x) inline M M.
Proof.
  intros (A & B & C & D). unfold amplitude_text, index_text.
  destruct (l_mh x ++ l_mo x)%list eqn:E1; destruct (l_nh x ++ l_no x)%list eqn:E2.
  - lit_to.
  - exact (J_down _ _ C D).
  - rewrite append_nil. exact (J_up _ _ A B).
  - pose proof (J_up_down "\bt" _ _ _ _ (or_introl eq_refl) A B C D) as X. cbn [append] in *. repeat (rewrite append_assoc_s; cbn [append]). exact X.
Qed.
Lemma amplitude_first x : first_letter (amplitude_text x) = false.
Proof. reflexivity. Qed.


Lemma J_amplitudes xs : Forall label_ok xs -> J inline (String.concat "" (map amplitude_text xs)) inline M M.
Proof.
  intros H. apply J_concat_nil. apply Forall_map. eapply Forall_impl; [|exact H]. intros x Hx. split; [|apply amplitude_first].
  apply J_any_inline, J_amplitude, Hx.
Qed.
Lemma amplitudes_first xs : first_letter (String.concat "" (map amplitude_text xs)) = false.
Proof. apply first_letter_concat; [reflexivity|]. apply Forall_map, Forall_forall. intros x _. apply amplitude_first. Qed.

Lemma J_hamiltonian r su eu sl el : letters_ok su -> letters_ok eu -> letters_ok sl -> letters_ok el ->
  J anywhere (hamiltonian_text r su eu sl el) inline M M.
Proof.
  intros A B C D. destruct r; [lit_to|]. unfold hamiltonian_text.
  change ("\bh^{\blue{" ++ ?x) with ("\bh" ++ "^{\blue{" ++ x). apply (J_up_down "\bh"); auto.
Qed.
Lemma hamiltonian_first r su eu sl el : first_letter (hamiltonian_text r su eu sl el) = false.
Proof. destruct r; reflexivity. Qed.

(** ** Prefactors *)
Lemma J_power x k : x = "f" \/ x = "\bar{f}" -> J anywhere (power_text x k) anywhere M M.
Proof.
  intros H. destruct k as [|[|k]]; [apply J_nil| |].
  - destruct H as [->| ->]; apply J_inline_any; lit_to.
  - unfold power_text. apply J_inline_any. destruct H as [->| ->].
    + change ("f" ++ "^{" ++ ?y) with ("f^{" ++ y). eapply J_app; [lit| |joint]. eapply J_app; [apply J_plain_inline, plain_number| |joint]. lit_to.
    + change ("\bar{f}" ++ "^{" ++ ?y) with ("\bar{f}^{" ++ y). eapply J_app; [lit| |joint]. eapply J_app; [apply J_plain_inline, plain_number| |joint]. lit_to.
Qed.
Lemma power_bar_first k : first_letter (power_text "\bar{f}" k) = false.
Proof. destruct k as [|[|k]]; reflexivity. Qed.

Lemma plain_side (l : list nat) : plain (match l with [] => "1" | _ => String.concat "" (map (fun n => str_nat n ++ "!") l) end).
Proof.
  destruct l; [apply plain_literal; reflexivity|]. apply plain_concat; [constructor|]. apply Forall_map, Forall_forall. intros x _.
  apply plain_app; [apply plain_number|apply plain_literal; reflexivity].
Qed.
Lemma J_fraction num den : J anywhere (fraction_text num den) anywhere M M.
Proof.
  assert (X : J anywhere ("\frac{" ++ (match num with [] => "1" | _ => String.concat "" (map (fun n => str_nat n ++ "!") num) end) ++ "}{"
     ++ (match den with [] => "1" | _ => String.concat "" (map (fun n => str_nat n ++ "!") den) end) ++ "}") anywhere M M).
  { apply J_inline_any. eapply J_app; [lit| |joint]. eapply J_app; [apply J_plain_inline, plain_side| |joint].
    eapply J_app; [lit| |joint]. eapply J_app; [apply J_plain_inline, plain_side| |joint]. lit_to. }
  unfold fraction_text. destruct num, den; try exact X. apply J_nil.
Qed.
Lemma fraction_first num den : first_letter (fraction_text num den) = false.
Proof. destruct num, den; reflexivity. Qed.

(** ** Terms *)
Lemma incl_flat {A} (f : A -> list ascii) xs l : flat_map f xs = l -> letters_ok l -> Forall (fun x => letters_ok (f x)) xs.
Proof. intros <- H. apply Forall_forall. intros x Hx c Hc. apply H, in_flat_map. eauto. Qed.

Lemma J_term k gap hm hn f fbar ts num den s : term_text k gap hm hn f fbar ts num den s -> J anywhere s inline M M.
Proof.
  intros (su & sl & eu & el & xs & _ & _ & _ & _ & _ & E1 & E2 & E3 & E4 & E5 & ->).
  assert (L1 : letters_ok (su ++ sl)%list) by (rewrite E1; apply summed_all).
  assert (L2 : letters_ok (eu ++ el)%list) by (rewrite E4; apply free_all).
  assert (A : letters_ok su) by (intros c Hc; apply L1, in_or_app; now left).
  assert (B : letters_ok sl) by (intros c Hc; apply L1, in_or_app; now right).
  assert (C : letters_ok eu) by (intros c Hc; apply L2, in_or_app; now left).
  assert (D : letters_ok el) by (intros c Hc; apply L2, in_or_app; now right).
  assert (X : Forall label_ok xs).
  { pose proof (incl_flat _ _ _ E2 A) as F1. pose proof (incl_flat _ _ _ E3 B) as F2.
    assert (F3 : Forall (fun x => letters_ok (l_no x ++ l_mo x)%list) xs) by (eapply incl_flat; [exact E5|apply free_all]).
    rewrite Forall_forall in *. intros x Hx. specialize (F1 x Hx). specialize (F2 x Hx). specialize (F3 x Hx).
    repeat split; auto; intros c Hc; apply F3, in_or_app; auto. }
  eapply J_app; [apply J_power; auto| |].
  - eapply J_app; [apply J_power; auto| |].
    + eapply J_app; [apply J_fraction| |].
      * eapply J_app; [apply J_hamiltonian; assumption|apply J_amplitudes, X|]. intros _. apply amplitudes_first.
      * intros _. apply first_letter_app; [apply hamiltonian_first|apply amplitudes_first].
    + intros _. apply first_letter_app; [apply fraction_first|]. apply first_letter_app; [apply hamiltonian_first|apply amplitudes_first].
  - intros _. apply first_letter_app; [apply power_bar_first|]. apply first_letter_app; [apply fraction_first|].
    apply first_letter_app; [apply hamiltonian_first|apply amplitudes_first].
Qed.

(** ** Sums *)
Definition good (s : string) : Prop := J anywhere s inline M M.

Lemma J_join ss : Forall good ss -> ss <> [] -> J anywhere (String.concat " + " ss) inline M M.
Proof.
  intros F N. eapply J_concat with (S1 := inline); [lit_to|reflexivity|reflexivity|discriminate| |exact F|exact N].
  intros ? [<-|[<-|[]]]; cbn; auto.
Qed.
Lemma J_sum ss : Forall good ss -> good (sum_text ss).
Proof.
  intros F. unfold sum_text, good. eapply J_app with (E := inline) (c2 := M); [lit_to| |joint]. destruct ss as [|s ss].
  - lit_to.
  - eapply J_app; [apply J_any_inline, J_join; [exact F|discriminate]|lit_to|]. joint.
Qed.

Lemma J_lift S0 s E : J S0 s E M M -> J S0 s E Sp Sp.
Proof. intros H. exact (J_under _ _ _ _ _ _ [Env "split" Math true] H). Qed.


Lemma J_lines lines : lines <> [] -> Forall (fun l => l <> [] /\ Forall good l) lines -> J anywhere (lines_text lines) inline Sp Sp.
Proof.
  intros N F. unfold lines_text. change ("(" ++ newline ++ ?x) with (("(" ++ newline) ++ x).
  eapply J_app with (E := line_start) (c2 := Sp); [lit_to| |joint].
  eapply J_app with (E := inline) (c2 := Sp); [|lit_to|joint].
  eapply J_sub; [|exact incl_start|apply incl_refl].
  eapply J_concat with (S1 := line_start) (S0 := anywhere); [lit_to|reflexivity|reflexivity|discriminate|exact incl_start| |].
  - apply Forall_map. eapply Forall_impl; [|exact F]. intros l [Nl Fl]. apply J_lift, J_join; assumption.
  - now destruct lines.
Qed.

Lemma J_plain_text ss text : Forall good ss -> plain_text ss text -> J anywhere text inline Sp Sp.
Proof.
  intros F [[_ ->]|(L & lines & rest & F7 & Lr & -> & ->)].
  - apply J_lift, J_sum, F.
  - apply J_lines.
    + intros ->. cbn in L. lia.
    + apply Forall_app in F as [F _]. rewrite Forall_forall in *. intros l Hl. split; [intros ->; specialize (F7 _ Hl); discriminate|].
      apply Forall_forall. intros s Hs. apply F, in_concat. eauto.
Qed.

(** ** Parts *)
Lemma forall2_good {A} (P : A -> string -> Prop) l ss : (forall t s, P t s -> good s) -> Forall2 P l ss -> Forall good ss.
Proof. intros H. induction 1; constructor; eauto. Qed.

Lemma J_factor ts s : factor_text ts s -> J inline s inline M M /\ first_letter s = false.
Proof.
  intros (xs & _ & E1 & E2 & E3 & ->). split; [|apply amplitudes_first]. apply J_amplitudes.
  assert (N : letters_ok []) by (intros ? []).
  pose proof (incl_flat _ _ _ E1 N) as F1. pose proof (incl_flat _ _ _ E2 N) as F2.
  assert (F3 : Forall (fun x => letters_ok (l_no x ++ l_mo x)%list) xs) by (eapply incl_flat; [exact E3|apply free_all]).
  rewrite Forall_forall in *. intros x Hx. specialize (F1 x Hx). specialize (F2 x Hx). specialize (F3 x Hx).
  repeat split; auto; intros c Hc; apply F3, in_or_app; auto.
Qed.

Lemma J_plain_part om on l text : plain_part om on l text -> J anywhere text inline Sp Sp.
Proof.
  intros (ss & F & T). eapply J_plain_text; [|exact T]. eapply forall2_good; [|exact F].
  intros t s (hm & hn & us & f & fbar & num & den & _ & _ & X). exact (J_term _ _ _ _ _ _ _ _ _ _ X).
Qed.

Lemma J_linked_part om on l text : l <> [] -> linked_part om on l text -> J anywhere text inline Sp Sp.
Proof.
  intros N (fs & texts & _ & Hf & _ & F & ->).
  eapply J_concat with (S1 := line_start); [lit_to|reflexivity|reflexivity|discriminate|exact incl_start| |].
  - clear - F. induction F as [|p s fs texts X F IH]; constructor; [|exact IH].
    destruct X as (ss & common & Fs & Fc & ->). apply J_factor in Fc as [Jc Lc]. apply J_lift.
    eapply J_app; [apply J_sum; eapply forall2_good; [|exact Fs]|exact Jc|intros _; exact Lc].
    intros t s (hm & hn & us & f & fbar & num & den & _ & _ & X). exact (J_term _ _ _ _ _ _ _ _ _ _ X).
  - intros ->. inversion F; subst. destruct l as [|t l]; [contradiction|]. apply (Hf (loose (snd t))). exists t. cbn; auto.
Qed.

Lemma J_unlinked_part om on l text : unlinked_part om on l text -> J anywhere text inline Sp Sp.
Proof.
  intros (ss & common & Fs & Fc & ->). apply J_factor in Fc as [Jc Lc]. apply J_lift.
  eapply J_app; [apply J_sum; eapply forall2_good; [|exact Fs]|exact Jc|intros _; exact Lc].
  intros t s (hm & hn & us & us1 & us2 & f & fbar & num & den & _ & _ & _ & X). exact (J_term _ _ _ _ _ _ _ _ _ _ X).
Qed.

Lemma J_part_or what (P : list term -> string -> Prop) l text :
  In what ["fully connected"; "linked disconnected"; "unlinked disconnected"] ->
  (forall text', l <> [] -> P l text' -> J anywhere text' inline Sp Sp) ->
  part_or what P l text -> J anywhere text inline Sp Sp.
Proof.
  intros Hw H. destruct l as [|t l]; cbn [part_or]; [|apply H; discriminate].
  intros ->. destruct Hw as [<-|[<-|[<-|[]]]]; lit_to.
Qed.

Lemma J_break : J inline section_break line_start Sp Sp.
Proof. lit_to. Qed.


Lemma J_rhs om on a b c text : rhs_text om on a b c text -> J line_start text inline Sp Sp.
Proof.
  intros (x & y & z & Hx & Hy & Hz & ->).
  apply J_part_or in Hx; [|cbn; auto|intros t _ X; exact (J_plain_part _ _ _ _ X)].
  apply J_part_or in Hy; [|cbn; auto|intros t N X; exact (J_linked_part _ _ _ _ N X)].
  apply J_part_or in Hz; [|cbn; auto|intros t _ X; exact (J_unlinked_part _ _ _ _ X)].
  apply J_start. eapply J_app; [exact Hx| |intros _; reflexivity].
  eapply J_app; [exact J_break| |joint]. apply J_start.
  eapply J_app; [exact Hy| |intros _; reflexivity].
  eapply J_app; [exact J_break|apply J_start, Hz|joint].
Qed.

Lemma J_equation om on a b c text : equation_text om on a b c text -> J line_start text inline Sp Sp.
Proof.
  unfold equation_text. destruct (om + on); [|apply J_rhs]. intros (_ & _ & x & Hx & ->). apply J_plain_part in Hx.
  apply J_start. eapply J_app; [exact Hx|lit_to|joint].
Qed.

(** ** Left hand sides *)
Lemma J_pair x : letters_ok (fst x) -> letters_ok (snd x) -> J anywhere (pair_text x) inline M M.
Proof.
  intros A B. unfold pair_text. eapply J_app; [lit| |joint]. letters. eapply J_app; [lit| |joint]. letters. lit_to.
Qed.
Definition pair_ok (x : list ascii * list ascii) : Prop := letters_ok (fst x) /\ letters_ok (snd x).

Lemma J_product xs : Forall pair_ok xs -> J inline (product_text xs) inline M M.
Proof.
  intros H. apply J_concat_nil. apply Forall_map. eapply Forall_impl; [|exact H]. intros x [A B]. split; [|reflexivity].
  apply J_any_inline, J_pair; assumption.
Qed.
Lemma product_first xs : first_letter (product_text xs) = false.
Proof. apply first_letter_concat; [reflexivity|]. apply Forall_map, Forall_forall. reflexivity. Qed.

Definition P0 : mode * list frame := after vecc_env "\dv{" M.
Lemma J_derivatives xs before : Forall pair_ok xs -> J inline before inline M M -> first_letter before = false ->
  Forall (fun s => J inline s inline M M /\ first_letter s = false) (derivative_texts before xs).
Proof.
  intros H. revert before. induction H as [|x xs [A B] F IH]; intros before Hb Lb; cbn [derivative_texts]; constructor.
  - split; [|now apply first_letter_app]. eapply J_app; [exact Hb| |joint]. eapply J_app; [lit| |joint].
    eapply J_app; [apply J_any_inline; exact (J_under _ _ _ _ _ _ (snd P0) (J_pair x A B))| |intros _; reflexivity].
    change ("}{\tau}" ++ ?y) with ("}{\tau}" ++ y). eapply J_app with (c2 := M) (E := inline); [lit_to|apply J_product, F|]. intros _. apply product_first.
  - apply IH; [|now apply first_letter_app]. eapply J_app; [exact Hb|apply J_any_inline, J_pair; assumption|intros _; reflexivity].
Qed.

Lemma labelled_ok g xs : labelled g xs -> Forall pair_ok xs.
Proof.
  intros [_ [n E]]. assert (F : Forall (fun x => letters_ok (fst x ++ snd x)%list) xs) by (eapply incl_flat; [exact E|apply summed_all]).
  eapply Forall_impl; [|exact F]. intros x H. split; intros c Hc; apply H, in_or_app; auto.
Qed.

Lemma J_lhs om on text : lhs_text om on text -> J anywhere text inline M M.
Proof.
  unfold lhs_text. destruct (om + on) eqn:Eo; [intros ->; lit_to|]. intros (gs & xss & _ & _ & _ & F & ->).
  assert (K : Forall (Forall pair_ok) xss).
  { clear - F. induction F; constructor; [eapply labelled_ok; eassumption|assumption]. }
  assert (T : Forall (fun s => J inline s inline M M /\ first_letter s = false) (flat_map (derivative_texts "") xss ++ map epsilon_text xss)%list).
  { apply Forall_app. split.
    - apply Forall_forall. intros s Hs. apply in_flat_map in Hs as (xs & Hx & Hs). rewrite Forall_forall in K.
      pose proof (J_derivatives xs "" (K _ Hx) (J_nil _ _ _) eq_refl) as D. rewrite Forall_forall in D. now apply D.
    - apply Forall_map. eapply Forall_impl; [|exact K]. intros xs Hx. unfold epsilon_text. split; [|apply first_letter_app; [apply product_first|reflexivity]].
      eapply J_app; [apply J_product, Hx|lit_to|joint]. }
  revert T. generalize (flat_map (derivative_texts "") xss ++ map epsilon_text xss)%list as l. intros l T.
  eapply J_app; [lit| |joint]. destruct l as [|s l]; [lit_to|].
  eapply J_app with (E := inline) (c2 := (Math, [LeftRight])); [|lit_to|intros _; reflexivity].
  refine (J_under _ _ _ _ M M [LeftRight] _).
  eapply J_concat with (S1 := inline); [lit_to|reflexivity|reflexivity|discriminate|apply incl_refl| |discriminate].
  eapply Forall_impl; [|exact T]. now intros ? [].
Qed.

(** ** Sections *)
Definition Al : list frame := [Env "align" Text false; Env "document" Text false].


Lemma J_ladder cmd l : cmd = "\up{" \/ cmd = "\down{" -> letters_ok l ->
  J inline (String.concat "" (map (fun c => cmd ++ String c "}") l)) inline M M.
Proof.
  intros Hc L. apply J_concat_nil, Forall_map, Forall_forall. intros c Hin. apply L in Hin. split.
  - apply J_any_inline. revert c Hin. apply Forall_forall.
    destruct Hc as [->| ->]; cbn [app summed_letters free_letters list_ascii_of_string]; repeat constructor; lit_to.
  - destruct Hc as [->| ->]; reflexivity.
Qed.
Lemma ladder_first cmd l : cmd = "\up{" \/ cmd = "\down{" -> first_letter (String.concat "" (map (fun c => cmd ++ String c "}") l)) = false.
Proof. intros [->| ->]; apply first_letter_concat; [reflexivity|apply Forall_map, Forall_forall; reflexivity|reflexivity|apply Forall_map, Forall_forall; reflexivity]. Qed.

Lemma J_omega om on : J inline (omega_text om on) inline M M.
Proof.
  unfold omega_text. destruct (om + on); [lit_to|].
  eapply J_app; [apply J_ladder; [auto|apply summed_all]|apply J_ladder; [auto|apply summed_all]|].
  intros _. now apply ladder_first; right.
Qed.
Definition D : mode * list frame := (Text, [Env "document" Text false]).

Lemma J_align om on lhs rhs : J anywhere lhs inline M M -> J line_start rhs inline Sp Sp ->
  JT line_start (align_text om on lhs rhs) line_start D D.
Proof.
  intros L Rr. unfold align_text.
  change (JT line_start (("\begin{align}\begin{split}" ++ newline ++ "    \hat{\Omega} = ") ++ (omega_text om on
    ++ ((newline ++ "\\ LHS &=" ++ newline ++ "    ") ++ (lhs ++ ((newline ++ "\\ RHS &=" ++ newline ++ "%" ++ newline ++ "%" ++ newline) ++ (rhs
    ++ (newline ++ "\end{split}\end{align}" ++ newline ++ newline))))))) line_start D D).
  eapply JT_app with (E := inline) (c2 := (Math, Env "split" Math false :: Al)); [apply checkT_ok; vm_compute; reflexivity| |joint].
  eapply JT_app with (E := inline) (c2 := (Math, Env "split" Math false :: Al));
    [apply (J_at _ _ _ _ M M (Env "split" Math false :: Al)); [apply J_omega|reflexivity|reflexivity]| |joint].
  eapply JT_app with (E := anywhere) (c2 := (Math, Env "split" Math true :: Al)); [apply checkT_ok; vm_compute; reflexivity| |joint].
  eapply JT_app with (E := inline) (c2 := (Math, Env "split" Math true :: Al));
    [apply (J_at _ _ _ _ M M (Env "split" Math true :: Al)); [exact L|reflexivity|reflexivity]| |intros _; reflexivity].
  eapply JT_app with (E := line_start) (c2 := (Math, Env "split" Math true :: Al)); [apply checkT_ok; vm_compute; reflexivity| |joint].
  eapply JT_app with (E := inline) (c2 := (Math, Env "split" Math true :: Al));
    [apply (J_at _ _ _ _ Sp Sp Al); [exact Rr|reflexivity|reflexivity]| |intros _; reflexivity].
  apply checkT_ok; vm_compute; reflexivity.
Qed.

Lemma JT_heading k : JT line_start (heading_text k) line_start D D.
Proof.
  destruct k as [|[|k]]; [apply checkT_ok; vm_compute; reflexivity|apply checkT_ok; vm_compute; reflexivity|].
  do 7 (destruct k as [|k]; [apply checkT_ok; vm_compute; reflexivity|]).
  replace (heading_text (S (S (S (S (S (S (S (S (S k)))))))))) with ("\newpage" ++ newline ++ "\subsection{ Equations}" ++ newline ++ newline);
    [apply checkT_ok; vm_compute; reflexivity|]. destruct k; reflexivity.
Qed.
Lemma heading_first k : first_letter (heading_text k) = false.
Proof. destruct k as [|[|k]]; reflexivity. Qed.

Lemma JT_sections H cc S0 ground rf p os text : sections H cc S0 ground rf p os text ->
  JT line_start text line_start D D.
Proof.
  induction 1 as [p|p o r lhs rhs a b c text L _ Q X IH]; [apply JT_nil|].
  apply J_lhs in L. apply J_equation in Q.
  eapply JT_app with (E := line_start) (c2 := D); [apply checkT_ok; vm_compute; reflexivity| |joint].
  eapply JT_app with (E := line_start) (c2 := D); [destruct (Nat.ltb p (g_rank o)); [apply JT_heading|apply JT_nil]| |intros _; reflexivity].
  eapply JT_app; [apply J_align; assumption|exact IH|]. intros _. destruct X; reflexivity.
Qed.

(** ** The documents *)
Definition body_tokens (header : string) : list token :=
  match preamble kernel (tokens header) with Some (_, hb) => hb | None => [] end.
Definition vecc_body : list token := Eval vm_compute in body_tokens full_vecc_latex_header.
Definition vecc_ground_body : list token := Eval vm_compute in body_tokens ground_state_vecc_latex_header.

Lemma full_cc_processed H cc S0 P ground rf text : latex_text H cc S0 P ground rf text ->
  processed (ground_state_vecc_latex_header ++ text) /\ processed (full_vecc_latex_header ++ text).
Proof.
  intros (os & body & _ & _ & _ & Q & ->). apply JT_sections in Q. split.
  - eapply (document_processed vecc_env) with (hb := vecc_ground_body); [vm_compute; reflexivity| | |exact Q].
    + intros us. vm_compute. reflexivity.
    + eexists _, _. vm_compute. reflexivity.
  - eapply (document_processed vecc_env) with (hb := vecc_body); [vm_compute; reflexivity| | |exact Q].
    + intros us. vm_compute. reflexivity.
    + eexists _, _. vm_compute. reflexivity.
Qed.
