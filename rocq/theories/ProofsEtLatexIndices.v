(** Proofs about the indices read from the printed text of the e^T
    equations. *)
From Coq Require Import Lia Factorial.
From Verif Require Import PyBase PyStr PyBaseFacts ModelHelper ModelW ModelLatexW ModelFullCC ModelFullCCPy ModelFullCCLatex ModelZhz ModelEt ModelEtPy ModelEtLatex
  ProofsHelper ProofsW ProofsStr ProofsFullCC ProofsFullCCLabels ProofsFullCCBuckets ProofsFullCCLatexText ProofsFullCCLatex ProofsFullCCLatexFile
  SpecFullCC SpecFullCCPy SpecLatexW SpecFullCCLatex SpecZhz ProofsZhz ProofsZhzLatex ProofsZhzFile ProofsZhzEquation ProofsFullCCLatexIndices
  SpecEt SpecEtPy ProofsEt ProofsEtPy SpecEtLatex ProofsEtLatex ProofsEtLatexTerm.
Open Scope string_scope.

Definition eT_colour (p : string) : Prop := p = "\blue{" \/ p = "\magenta{" \/ p = "\red{".
Definition keeps (p : string) (m : ascii) (s : string) (out : list ascii) : Prop :=
  forall rest, scan p m 0 (s ++ rest) = (map (fun c => (m, c)) out ++ scan p m 0 rest)%list.

Lemma keeps_nil p m : keeps p m "" [].
Proof. intros rest. reflexivity. Qed.
Lemma keeps_app p m s o s' o' : keeps p m s o -> keeps p m s' o' -> keeps p m (s ++ s') (o ++ o')%list.
Proof. intros H H' rest. now rewrite append_assoc, H, H', map_app, app_assoc. Qed.
Lemma keeps_reads p s : (forall m, keeps p m s []) -> reads p s [].
Proof. intros H m rest. exists m. apply H. Qed.
Lemma keeps_concat {A} p m (f : A -> string) (g : A -> list ascii) l : (forall x, keeps p m (f x) (g x)) ->
  keeps p m (concat_str (map f l)) (flat_map g l).
Proof.
  intros H. induction l as [|x l IH]; [apply keeps_nil|]. cbn [map flat_map]. change (concat_str (?a :: ?l)) with (a ++ concat_str l). now apply keeps_app.
Qed.
Lemma scan_dull3 p m cs rest : eT_colour p -> Forall dull cs -> scan p m 0 (of_chars cs ++ rest) = scan p m 0 rest.
Proof.
  intros Hp H. induction H as [|c cs Hc H IH]; [reflexivity|].
  change (of_chars (c :: cs) ++ rest) with (String c (of_chars cs ++ rest)). cbn [scan].
  destruct (Nat.eqb_spec 0 (String.length p)); [destruct Hp as [->|[->| ->]]; discriminate|].
  assert (N : next_state p 0 c = 0).
  { destruct Hc as (H1 & _). destruct Hp as [->|[->| ->]]; unfold next_state; cbn [String.get]; destruct (Ascii.eqb_spec c "\"%char); congruence. }
  rewrite N. destruct Hc as (_ & _ & H3 & H4).
  destruct (Ascii.eqb_spec c "^"%char); [congruence|]. destruct (Ascii.eqb_spec c "_"%char); [congruence|]. exact IH.
Qed.

(** A coloured group. *)
Lemma keeps_group p c m l : eT_colour p -> eT_colour c -> Forall dull l ->
  keeps p m (c ++ of_chars l ++ "}") (if String.eqb p c then l else []).
Proof.
  intros Hp Hc Hl rest. repeat (rewrite append_assoc; cbn [append]).
  destruct Hp as [->|[->| ->]]; destruct Hc as [->|[->| ->]]; cbn [String.eqb Ascii.eqb Bool.eqb andb map app].
  all: try (match goal with |- scan ?p ?m 0 _ = _ => change (scan p m (String.length p) (of_chars l ++ "}" ++ rest) = (map (fun c => (m, c)) l ++ scan p m 0 rest)%list) end;
    now apply scan_inside).
  all: match goal with |- scan ?p ?m 0 _ = _ => change (scan p m 0 (of_chars l ++ "}" ++ rest) = scan p m 0 rest) end;
    rewrite scan_dull3; [reflexivity|unfold eT_colour; auto|exact Hl].
Qed.

Lemma letters_dull3 l i n : l = inner_letters \/ l = outer_letters -> Forall dull (letters_from l i n).
Proof.
  intros Hl. apply Forall_forall. intros c Hc. unfold letters_from in Hc.
  assert (I : In c l). { rewrite <- (firstn_skipn i l). apply in_or_app. right. rewrite <- (firstn_skipn n (skipn i l)). apply in_or_app. now left. }
  destruct Hl as [-> | ->]; cbn in I; repeat (destruct I as [<-|I]; [repeat split; discriminate|]); easy.
Qed.

(** The letters of the amplitudes. *)
Definition hl (k : pairs) (i : nat) : list ascii := if with_z k i then [] else letters_from inner_letters i 1.
Definition zl (k : pairs) (i : nat) : list ascii := if with_z k i then letters_from inner_letters i 1 else [].
Lemma hl_text k i : in_h_text k i = of_chars (hl k i).
Proof. unfold in_h_text, hl, summed. destruct (with_z k i); [reflexivity|apply string_of_chars]. Qed.
Lemma zl_text k i : in_z_text k i = of_chars (zl k i).
Proof. unfold in_z_text, zl, summed. destruct (with_z k i); [apply string_of_chars|reflexivity]. Qed.
Lemma hl_dull k i : Forall dull (hl k i).
Proof. unfold hl. destruct (with_z k i); [constructor|apply letters_dull3; now left]. Qed.
Lemma zl_dull k i : Forall dull (zl k i).
Proof. unfold zl. destruct (with_z k i); [apply letters_dull3; now left|constructor]. Qed.

Lemma skip_skip {A} n a (l : list A) : skipn n (skipn a l) = skipn (a + n) l.
Proof. revert l. induction a as [|a IH]; intros l; [reflexivity|]. destruct l as [|x l]; [now rewrite !skipn_nil|]. cbn [skipn Nat.add]. apply IH. Qed.
Lemma letters_join l a n m : (letters_from l a n ++ letters_from l (a + n) m)%list = letters_from l a (n + m).
Proof.
  unfold letters_from. replace (skipn (a + n) l) with (skipn n (skipn a l)) by (now rewrite skip_skip).
  rewrite <- (firstn_skipn n (skipn a l)) at 3. rewrite firstn_app, firstn_firstn. replace (Nat.min (n + m) n) with n by lia. f_equal.
  rewrite firstn_length. destruct (Nat.le_ge_cases n (List.length (skipn a l))) as [L|L].
  - rewrite Nat.min_l by exact L. f_equal. lia.
  - rewrite (skipn_all2 _ L). now rewrite !firstn_nil.
Qed.
Lemma letters_each l a n : flat_map (fun i => letters_from l i 1) (seq a n) = letters_from l a n.
Proof.
  revert a. induction n as [|n IH]; intros a; [reflexivity|]. cbn [seq flat_map]. rewrite IH.
  replace (S a) with (a + 1)%nat by lia. now rewrite letters_join.
Qed.
Lemma letters_none l a : letters_from l a 0 = [].
Proof. reflexivity. Qed.
Lemma seq_split k : seq 0 (k_t k) = (seq 0 (k_zt k) ++ seq (k_zt k) (k_ht k))%list.
Proof. unfold k_t. now rewrite seq_app. Qed.
Lemma hl_all k : flat_map (hl k) (seq 0 (k_t k)) = letters_from inner_letters (k_zt k) (k_ht k).
Proof.
  rewrite seq_split, flat_map_app, flat_map_nil.
  - rewrite <- letters_each. apply flat_map_ext_in. intros i Hi. apply in_seq in Hi. unfold hl, with_z. destruct (Nat.ltb_spec i (k_zt k)); [lia|reflexivity].
  - intros i Hi. apply in_seq in Hi. unfold hl, with_z. destruct (Nat.ltb_spec i (k_zt k)); [reflexivity|lia].
Qed.
Lemma zl_all k : flat_map (zl k) (seq 0 (k_t k)) = letters_from inner_letters 0 (k_zt k).
Proof.
  rewrite seq_split, flat_map_app, (flat_map_nil _ (seq (k_zt k) (k_ht k))).
  - rewrite app_nil_r, <- letters_each. apply flat_map_ext_in. intros i Hi. apply in_seq in Hi. unfold zl, with_z. destruct (Nat.ltb_spec i (k_zt k)); [reflexivity|lia].
  - intros i Hi. apply in_seq in Hi. unfold zl, with_z. destruct (Nat.ltb_spec i (k_zt k)); [lia|reflexivity].
Qed.

(** What a text of the operators has in the three colours. *)
Definition pick {A} (p : string) (blue magenta red : list A) : list A :=
  if p =? "\blue{" then blue else if p =? "\magenta{" then magenta else red.

Lemma keeps_empty p m out : keeps p m "" out -> out = [].
Proof. intros H. specialize (H ""). cbn in H. destruct out; [reflexivity|discriminate]. Qed.

Definition plain_name (name : string) : Prop := name = "\bt" \/ name = "\bs" \/ name = "\bh" \/ name = "\bz".
Lemma keeps_name p m name : eT_colour p -> plain_name name -> keeps p m name [].
Proof.
  intros Hp Hn rest. destruct Hn as [->|[->|[->| ->]]]; destruct Hp as [->|[->| ->]]; reflexivity.
Qed.
Lemma reads_braces p tidied mark s out : eT_colour p -> mark = "^"%char \/ mark = "_"%char -> keeps p mark s out ->
  reads p (braces_text tidied (String mark "") s) (map (fun c => (mark, c)) out).
Proof.
  intros Hp Hm H. unfold braces_text. destruct (tidied && (s =? "")) eqn:E.
  - apply andb_true_iff in E as [_ E]. apply String.eqb_eq in E. subst s. rewrite (keeps_empty _ _ _ H). apply reads_nil.
  - intros m rest. exists mark. rewrite !append_assoc.
    assert (A : scan p m 0 (String mark "" ++ "{" ++ s ++ "}" ++ rest) = scan p mark 0 (s ++ "}" ++ rest))
      by (destruct Hm as [-> | ->]; destruct Hp as [->|[->| ->]]; reflexivity).
    rewrite A, H. f_equal. destruct Hp as [->|[->| ->]]; reflexivity.
Qed.
Lemma reads_operator p tidied name m n up down U D : eT_colour p -> plain_name name -> (m + n = 0 -> U = [] /\ D = [])%nat ->
  keeps p "^" up U -> keeps p "_" down D ->
  reads p (operator_text tidied name m n up down) (map (fun c => ("^"%char, c)) U ++ map (fun c => ("_"%char, c)) D)%list.
Proof.
  intros Hp Hn H0 HU HD. unfold operator_text. destruct (m + n)%nat.
  - destruct (H0 eq_refl) as [-> ->]. cbn [map]. apply reads_app; [now apply keeps_reads; intros; apply keeps_name|].
    intros m' rest. exists "_"%char. destruct Hp as [->|[->| ->]]; reflexivity.
  - change (map (fun c => ("^"%char, c)) U ++ map (fun c => ("_"%char, c)) D)%list
      with ([] ++ map (fun c => ("^"%char, c)) U ++ map (fun c => ("_"%char, c)) D)%list.
    apply reads_app; [now apply keeps_reads; intros; apply keeps_name|]. apply reads_app.
    + apply (reads_braces p tidied "^"); auto.
    + apply (reads_braces p tidied "_"); auto.
Qed.
Lemma reads_derivative p x out : eT_colour p -> reads p x out -> reads p (eT_derivative x) out.
Proof.
  intros Hp H. unfold eT_derivative. replace out with ([] ++ out ++ [])%list by (now rewrite app_nil_r).
  apply reads_app; [|apply reads_app; [exact H|]]; apply keeps_reads; intros m rest; destruct Hp as [->|[->| ->]]; reflexivity.
Qed.

Ltac colours := unfold eT_colour; auto.

Section Term.
  Variables (p : string) (tidied : bool) (s : side) (k : pairs).
  Hypothesis Hp : eT_colour p.

  Lemma pick_group c l : eT_colour c -> Forall dull l ->
    forall m, keeps p m (c ++ of_chars l ++ "}") (pick p (if c =? "\blue{" then l else []) (if c =? "\magenta{" then l else []) (if c =? "\red{" then l else [])).
  Proof.
    intros Hc Hl m. pose proof (keeps_group p c m l Hp Hc Hl) as H. destruct Hp as [->|[->| ->]]; destruct Hc as [->|[->| ->]]; exact H.
  Qed.
  Lemma pick_app {A} (a b c a' b' c' : list A) : (pick p a b c ++ pick p a' b' c')%list = pick p (a ++ a') (b ++ b') (c ++ c').
  Proof. unfold pick. destruct (p =? _); [reflexivity|]. now destruct (p =? _). Qed.
  Lemma pick_nil {A} : pick p [] [] [] = @nil A.
  Proof. unfold pick. destruct (p =? _); [reflexivity|]. now destruct (p =? _). Qed.
  Lemma pick_map {A B} (f : A -> B) a b c : map f (pick p a b c) = pick p (map f a) (map f b) (map f c).
  Proof. unfold pick. destruct (p =? _); [reflexivity|]. now destruct (p =? _). Qed.
  Lemma pick_flat {A} (f g h : nat -> list A) l : flat_map (fun i => pick p (f i) (g i) (h i)) l = pick p (flat_map f l) (flat_map g l) (flat_map h l).
  Proof. induction l as [|x l IH]; cbn [flat_map]; [now rewrite pick_nil|]. now rewrite IH, pick_app. Qed.

  Lemma t_index i m : keeps p m ("\magenta{}\blue{" ++ in_h_text k i ++ "}\magenta{" ++ in_z_text k i ++ "}\red{}") (pick p (hl k i) (zl k i) []).
  Proof.
    rewrite hl_text, zl_text.
    change ("\magenta{}\blue{" ++ of_chars (hl k i) ++ "}\magenta{" ++ of_chars (zl k i) ++ "}\red{}")
      with (("\magenta{" ++ of_chars [] ++ "}") ++ "\blue{" ++ of_chars (hl k i) ++ "}" ++ ("\magenta{" ++ of_chars (zl k i) ++ "}" ++ ("\red{" ++ of_chars [] ++ "}"))).
    assert (E : forall a b c : string, a ++ "\blue{" ++ b ++ "}" ++ c = a ++ ("\blue{" ++ b ++ "}") ++ c) by (intros; now rewrite !append_assoc).
    rewrite E. assert (E' : forall b c : string, "\magenta{" ++ b ++ "}" ++ c = ("\magenta{" ++ b ++ "}") ++ c) by (intros; now rewrite !append_assoc).
    rewrite (E' (of_chars (zl k i))).
    replace (pick p (hl k i) (zl k i) []) with (pick p [] [] [] ++ pick p (hl k i) [] [] ++ pick p [] (zl k i) [] ++ pick p [] [] [])%list.
    - apply keeps_app; [exact (pick_group "\magenta{" [] ltac:(colours) (Forall_nil _) m)|].
      apply keeps_app; [exact (pick_group "\blue{" _ ltac:(colours) (hl_dull k i) m)|].
      apply keeps_app; [exact (pick_group "\magenta{" _ ltac:(colours) (zl_dull k i) m)|].
      exact (pick_group "\red{" [] ltac:(colours) (Forall_nil _) m).
    - rewrite !pick_app. cbn [app]. now rewrite !app_nil_r.
  Qed.

  Lemma reads_ts : reads p (eT_ts_text tidied s k) (map (fun c => ("_"%char, c)) (pick p (letters_from inner_letters (k_zt k) (k_ht k)) (letters_from inner_letters 0 (k_zt k)) [])).
  Proof.
    rewrite <- hl_all, <- zl_all. replace (@nil ascii) with (flat_map (fun _ : nat => @nil ascii) (seq 0 (k_t k))) by (now rewrite flat_map_nil).
    rewrite <- pick_flat. unfold eT_ts_text. destruct (k_t k) as [|q] eqn:Eq.
    - cbn [seq flat_map map]. apply keeps_reads. intros m rest. destruct Hp as [->|[->| ->]]; reflexivity.
    - unfold each_t. rewrite Eq, concat_empty_sep. clear Eq. induction (seq 0 (S q)) as [|i l IH]; [apply reads_nil|].
      cbn [map flat_map]. rewrite map_app. change (concat_str (?a :: ?l)) with (a ++ concat_str l). apply reads_app; [|exact IH].
      change (map (fun c => ("_"%char, c)) (pick p (hl k i) (zl k i) []))
        with (map (fun c => ("^"%char, c)) [] ++ map (fun c => ("_"%char, c)) (pick p (hl k i) (zl k i) []))%list.
      apply reads_operator; [exact Hp|destruct s; unfold plain_name; auto|intros; lia|apply keeps_nil|apply t_index].
  Qed.

  Lemma each_group c m (f : nat -> list ascii) : eT_colour c -> (forall i, Forall dull (f i)) -> 
    keeps p m (each_t k (fun i => c ++ of_chars (f i) ++ "}"))
      (let l := flat_map f (seq 0 (k_t k)) in pick p (if c =? "\blue{" then l else []) (if c =? "\magenta{" then l else []) (if c =? "\red{" then l else [])).
  Proof.
    intros Hc Hf. cbv zeta. unfold each_t. rewrite concat_empty_sep. 
    assert (E : forall b : bool, (if b then flat_map f (seq 0 (k_t k)) else []) = flat_map (fun i => if b then f i else []) (seq 0 (k_t k))).
    { intros [|]; [reflexivity|]. now rewrite flat_map_nil. }
    rewrite !E, <- pick_flat. apply keeps_concat. intros i. now apply pick_group.
  Qed.

  Lemma h_up_index : keeps p "^" (eT_h_up k) (pick p (letters_from inner_letters (k_zt k) (k_ht k)) [] (letters_from outer_letters 0 (k_hp k))).
  Proof.
    unfold eT_h_up. destruct (k_up k) eqn:E.
    - unfold k_up in E. replace (k_ht k) with 0 by lia. replace (k_hp k) with 0 by lia. rewrite !letters_none, pick_nil. apply keeps_nil.
    - replace (pick p (letters_from inner_letters (k_zt k) (k_ht k)) [] (letters_from outer_letters 0 (k_hp k)))
        with (pick p (letters_from inner_letters (k_zt k) (k_ht k)) [] [] ++ pick p [] [] [] ++ pick p [] [] (letters_from outer_letters 0 (k_hp k)))%list
        by (rewrite !pick_app; cbn [app]; now rewrite !app_nil_r).
      apply keeps_app.
      + rewrite <- hl_all. pose proof (each_group "\blue{" "^" (hl k) ltac:(colours) (hl_dull k)) as G.
        unfold each_t in *. rewrite (map_ext _ (fun i => "\blue{" ++ of_chars (hl k i) ++ "}")) by (intros; now rewrite hl_text). exact G.
      + change ("\blue{}\red{" ++ free 0 (k_hp k) ++ "}") with (("\blue{" ++ of_chars [] ++ "}") ++ ("\red{" ++ free 0 (k_hp k) ++ "}")).
        apply keeps_app; [exact (pick_group "\blue{" [] ltac:(colours) (Forall_nil _) "^")|].
        unfold free. rewrite string_of_chars. apply (pick_group "\red{"); [colours|apply letters_dull3; now right].
  Qed.
  Lemma h_down_index : keeps p "_" (eT_h_down k) (pick p (letters_from inner_letters (k_t k) (k_zh k)) [] []).
  Proof.
    unfold eT_h_down, k_down. destruct (k_zh k) eqn:E.
    - rewrite letters_none, pick_nil. apply keeps_nil.
    - change ("\blue{" ++ summed (k_t k) (S n) ++ "}\red{}") with ("\blue{" ++ summed (k_t k) (S n) ++ "}" ++ ("\red{" ++ of_chars [] ++ "}")).
      assert (X : forall b c : string, "\blue{" ++ b ++ "}" ++ c = ("\blue{" ++ b ++ "}") ++ c) by (intros; now rewrite !append_assoc). rewrite X.
      replace (pick p (letters_from inner_letters (k_t k) (S n)) [] []) with (pick p (letters_from inner_letters (k_t k) (S n)) [] [] ++ pick p [] [] [])%list
        by (rewrite pick_app; now rewrite !app_nil_r).
      apply keeps_app; [|exact (pick_group "\red{" [] ltac:(colours) (Forall_nil _) "_")].
      unfold summed. rewrite string_of_chars. apply (pick_group "\blue{"); [colours|apply letters_dull3; now left].
  Qed.
  Lemma z_up_index : keeps p "^" (eT_z_up k) (pick p (letters_from inner_letters (k_t k) (k_zh k)) (letters_from inner_letters 0 (k_zt k)) (letters_from outer_letters (k_hp k) (k_zp k))).
  Proof.
    unfold eT_z_up. destruct (k_z k) eqn:E.
    - unfold k_z in E. replace (k_zt k) with 0 by lia. replace (k_zh k) with 0 by lia. replace (k_zp k) with 0 by lia. rewrite !letters_none, pick_nil. apply keeps_nil.
    - replace (pick p (letters_from inner_letters (k_t k) (k_zh k)) (letters_from inner_letters 0 (k_zt k)) (letters_from outer_letters (k_hp k) (k_zp k)))
        with (pick p [] (letters_from inner_letters 0 (k_zt k)) [] ++ pick p (letters_from inner_letters (k_t k) (k_zh k)) [] [] ++ pick p [] [] (letters_from outer_letters (k_hp k) (k_zp k)))%list
        by (rewrite !pick_app; cbn [app]; now rewrite !app_nil_r).
      apply keeps_app; [|apply keeps_app].
      + rewrite <- zl_all. pose proof (each_group "\magenta{" "^" (zl k) ltac:(colours) (zl_dull k)) as G.
        unfold each_t in *. rewrite (map_ext _ (fun i => "\magenta{" ++ of_chars (zl k i) ++ "}")) by (intros; now rewrite zl_text). exact G.
      + destruct (k_zh k) eqn:Ez; [rewrite letters_none, pick_nil; apply keeps_nil|].
        unfold summed. rewrite string_of_chars. apply (pick_group "\blue{"); [colours|apply letters_dull3; now left].
      + unfold free. rewrite string_of_chars. apply (pick_group "\red{"); [colours|apply letters_dull3; now right].
  Qed.

  Lemma reads_h : reads p (eT_h_text tidied s k)
    (map (fun c => ("^"%char, c)) (pick p (letters_from inner_letters (k_zt k) (k_ht k)) [] (letters_from outer_letters 0 (k_hp k)))
     ++ map (fun c => ("_"%char, c)) (pick p (letters_from inner_letters (k_t k) (k_zh k)) [] []))%list.
  Proof.
    assert (Z : (k_up k + k_down k = 0)%nat -> 
       pick p (letters_from inner_letters (k_zt k) (k_ht k)) [] (letters_from outer_letters 0 (k_hp k)) = [] /\
       pick p (letters_from inner_letters (k_t k) (k_zh k)) [] [] = []).
    { unfold k_up, k_down. intros H. replace (k_ht k) with 0 by lia. replace (k_hp k) with 0 by lia. replace (k_zh k) with 0 by lia.
      rewrite !letters_none, pick_nil. auto. }
    assert (O : forall name, plain_name name -> reads p (operator_text tidied name (k_up k) (k_down k) (eT_h_up k) (eT_h_down k))
      (map (fun c => ("^"%char, c)) (pick p (letters_from inner_letters (k_zt k) (k_ht k)) [] (letters_from outer_letters 0 (k_hp k)))
       ++ map (fun c => ("_"%char, c)) (pick p (letters_from inner_letters (k_t k) (k_zh k)) [] []))%list).
    { intros name Hn. apply reads_operator; [exact Hp|exact Hn|exact Z|apply h_up_index|apply h_down_index]. }
    unfold eT_h_text. destruct s; [|apply O; unfold plain_name; auto].
    destruct (k_up k + k_down k)%nat eqn:E.
    - destruct (Z eq_refl) as [-> ->]. apply keeps_reads. intros m rest. destruct Hp as [->|[->| ->]]; reflexivity.
    - apply reads_derivative; [exact Hp|]. apply O. unfold plain_name. auto.
  Qed.
  Lemma reads_z : reads p (eT_z_text tidied s k)
    (map (fun c => ("^"%char, c)) (pick p (letters_from inner_letters (k_t k) (k_zh k)) (letters_from inner_letters 0 (k_zt k)) (letters_from outer_letters (k_hp k) (k_zp k)))).
  Proof.
    assert (O : reads p (operator_text tidied "\bz" (k_z k) 0 (eT_z_up k) "")
      (map (fun c => ("^"%char, c)) (pick p (letters_from inner_letters (k_t k) (k_zh k)) (letters_from inner_letters 0 (k_zt k)) (letters_from outer_letters (k_hp k) (k_zp k))))).
    { rewrite <- app_nil_r. change (@nil (ascii * ascii)) with (map (fun c : ascii => ("_"%char, c)) []).
      apply reads_operator; [exact Hp|unfold plain_name; auto| |apply z_up_index|apply keeps_nil].
      unfold k_z. intros H. replace (k_zt k) with 0 by lia. replace (k_zp k) with 0 by lia. replace (k_zh k) with 0 by lia. rewrite !letters_none, pick_nil. auto. }
    unfold eT_z_text. destruct s; [|exact O]. destruct (k_up k + k_down k)%nat; [|exact O]. now apply reads_derivative.
  Qed.
End Term.

Lemma reads_plain3 p s : eT_colour p -> has_char "\" s = false -> has_char "}" s = false -> has_char "^" s = false -> has_char "_" s = false -> reads p s [].
Proof.
  intros Hp H1 H2 H3 H4. apply keeps_reads. intros m rest.
  assert (E : exists cs, s = of_chars cs /\ Forall dull cs).
  { clear - H1 H2 H3 H4. induction s as [|c s IH]; [exists []; split; [reflexivity|constructor]|].
    cbn [has_char] in *. apply orb_false_iff in H1 as [A1 B1], H2 as [A2 B2], H3 as [A3 B3], H4 as [A4 B4].
    destruct (IH B1 B2 B3 B4) as (cs & -> & D). exists (c :: cs). split; [reflexivity|]. constructor; [|exact D].
    repeat split; intros ->; cbn in *; discriminate. }
  destruct E as (cs & -> & D). now apply scan_dull3.
Qed.
Lemma reads_number3 p n : eT_colour p -> reads p (str_nat n) [].
Proof. intros Hp. apply reads_plain3; [exact Hp|apply str_nat_no_char; reflexivity..]. Qed.
Lemma reads_const p s : (forall m rest, scan p m 0 (s ++ rest) = scan p m 0 rest) -> reads p s [].
Proof. intros H m rest. exists m. apply H. Qed.
Ltac const3 Hp := apply reads_const; intros; destruct Hp as [->|[->| ->]]; reflexivity.
Lemma reads_nils p s s' : reads p s [] -> reads p s' [] -> reads p (s ++ s') [].
Proof. intros H H'. change (@nil (ascii * ascii)) with (@nil (ascii * ascii) ++ [])%list. now apply reads_app. Qed.

Lemma reads_power p n : eT_colour p -> reads p (power_text "\bar{f}" n) [].
Proof.
  intros Hp. destruct n as [|[|n]]; unfold power_text; [apply reads_nil|const3 Hp|].
  apply reads_nils; [const3 Hp|]. apply reads_nils; [intros m rest; exists "^"%char; destruct Hp as [->|[->| ->]]; reflexivity|].
  apply reads_nils; [now apply reads_number3|const3 Hp].
Qed.
Lemma reads_numbers p l : eT_colour p -> reads p (String.concat "" (map eT_number_text l)) [].
Proof.
  intros Hp. rewrite concat_empty_sep. induction l as [|[n b] l IH]; [apply reads_nil|]. cbn [map].
  change (concat_str (?a :: ?l)) with (a ++ concat_str l). apply reads_nils; [|exact IH]. unfold eT_number_text. cbn [fst snd]. destruct b.
  - apply reads_nils; [now apply reads_number3|const3 Hp].
  - apply reads_nils; [const3 Hp|]. apply reads_nils; [now apply reads_number3|const3 Hp].
Qed.
Lemma reads_quotient p num den : eT_colour p -> reads p (eT_quotient_text num den) [].
Proof.
  intros Hp.
  assert (M : forall l, reads p (match l with [] => "1" | _ => String.concat "" (map eT_number_text l) end) []).
  { intros [|x l]; [const3 Hp|now apply reads_numbers]. }
  assert (G : reads p ("\frac{" ++ (match num with [] => "1" | _ => String.concat "" (map eT_number_text num) end)
      ++ "}{" ++ (match den with [] => "1" | _ => String.concat "" (map eT_number_text den) end) ++ "}") []).
  { repeat apply reads_nils; try apply M; const3 Hp. }
  unfold eT_quotient_text. destruct num, den; try exact G. apply reads_nil.
Qed.

Lemma term_reads tidied s k text p : eT_colour p -> eT_term_text tidied s k text ->
  reads p text
    (map (fun c => ("_"%char, c)) (pick p (letters_from inner_letters (k_zt k) (k_ht k)) (letters_from inner_letters 0 (k_zt k)) [])
     ++ (map (fun c => ("^"%char, c)) (pick p (letters_from inner_letters (k_zt k) (k_ht k)) [] (letters_from outer_letters 0 (k_hp k)))
         ++ map (fun c => ("_"%char, c)) (pick p (letters_from inner_letters (k_t k) (k_zh k)) [] []))
     ++ map (fun c => ("^"%char, c)) (pick p (letters_from inner_letters (k_t k) (k_zh k)) (letters_from inner_letters 0 (k_zt k)) (letters_from outer_letters (k_hp k) (k_zp k))))%list.
Proof.
  intros Hp (pre & (num & den & -> & _) & ->).
  change (reads p ?t ?l) with (reads p t ([] ++ [] ++ l)%list).
  apply reads_app; [now apply reads_power|]. apply reads_app; [now apply reads_quotient|].
  apply reads_app; [now apply reads_ts|]. apply reads_app; [now apply reads_h|now apply reads_z].
Qed.

Lemma at_same c l : map snd (filter (fun x => Ascii.eqb (fst x) c) (map (fun d => (c, d)) l)) = (l : list ascii).
Proof. induction l as [|x l IH]; [reflexivity|]. cbn [map filter fst]. rewrite Ascii.eqb_refl. cbn [map snd]. now rewrite IH. Qed.
Lemma at_other c d l : Ascii.eqb d c = false -> map snd (filter (fun x => Ascii.eqb (fst x) c) (map (fun y => (d, y)) l)) = @nil ascii.
Proof. intros H. induction l as [|x l IH]; [reflexivity|]. cbn [map filter fst]. now rewrite H. Qed.

Theorem printed_letters tidied s k text : eT_term_text tidied s k text ->
  (summed_upper text = letters_from inner_letters (k_zt k) (k_ht k + k_zh k) /\ summed_lower text = letters_from inner_letters (k_zt k) (k_ht k + k_zh k)) /\
  (z_upper text = letters_from inner_letters 0 (k_zt k) /\ z_lower text = letters_from inner_letters 0 (k_zt k)) /\
  free_upper text = letters_from outer_letters 0 (k_zp k + k_hp k) /\ free_lower text = [].
Proof.
  intros T. unfold summed_upper, summed_lower, z_upper, z_lower, free_upper, free_lower, letters_at.
  rewrite !(reads_indices "\blue{" _ _ (term_reads _ _ _ _ "\blue{" (or_introl eq_refl) T)).
  rewrite !(reads_indices "\magenta{" _ _ (term_reads _ _ _ _ "\magenta{" (or_intror (or_introl eq_refl)) T)).
  rewrite !(reads_indices "\red{" _ _ (term_reads _ _ _ _ "\red{" (or_intror (or_intror eq_refl)) T)).
  unfold pick. cbn [String.eqb Ascii.eqb Bool.eqb andb].
  rewrite !filter_app, !map_app, !at_same, !(at_other "^" "_"), !(at_other "_" "^") by reflexivity. cbn [app map filter]. rewrite !app_nil_r.
  assert (J : (letters_from inner_letters (k_zt k) (k_ht k) ++ letters_from inner_letters (k_t k) (k_zh k))%list = letters_from inner_letters (k_zt k) (k_ht k + k_zh k))
    by exact (letters_join _ _ _ _).
  rewrite !J. repeat split. rewrite Nat.add_comm. apply (letters_join outer_letters 0).
Qed.

(** How many letters are missing. *)
Lemma letters_len l a n : List.length (letters_from l a n) = Nat.min n (List.length l - a).
Proof. unfold letters_from. now rewrite firstn_length, skipn_length. Qed.
Theorem letters_last tidied s k text : eT_term_text tidied s k text ->
  (enough_letters k <->
   (List.length (summed_upper text) + List.length (z_upper text) = k_t k + k_zh k /\ List.length (free_upper text) = k_zp k + k_hp k)%nat).
Proof.
  intros T. destruct (printed_letters _ _ _ _ T) as ((E1 & _) & (E2 & _) & E3 & _). rewrite E1, E2, E3, !letters_len.
  change (List.length inner_letters) with 5. change (List.length outer_letters) with 7. unfold enough_letters, k_t. lia.
Qed.

(** ** Time derivatives *)
Definition adds (n : nat) (a : string) : Prop := forall b, occurrences_of "\dv{" (a ++ b) = (n + occurrences_of "\dv{" b)%nat.
Lemma adds_app n m a b : adds n a -> adds m b -> adds (n + m) (a ++ b).
Proof. intros H H' c. rewrite append_assoc, H, H'. lia. Qed.
Lemma adds_0 a b : adds 0 a -> adds 0 b -> adds 0 (a ++ b).
Proof. exact (adds_app 0 0 a b). Qed.
Lemma adds_nil : adds 0 "".
Proof. intros b. reflexivity. Qed.
Lemma adds_total n a : adds n a -> occurrences_of "\dv{" a = n.
Proof. intros H. specialize (H ""). rewrite append_nil_r in H. cbn [occurrences_of String.prefix] in H. lia. Qed.
Lemma adds_plain a : has_char "\" a = false -> adds 0 a.
Proof.
  intros H b. induction a as [|x a IH]; [reflexivity|]. cbn [has_char] in H. apply orb_false_iff in H as [H1 H2].
  change (String x a ++ b) with (String x (a ++ b)). cbn [occurrences_of String.prefix]. rewrite (IH H2).
  destruct (ascii_dec "\" x) as [<-|N]; [discriminate|reflexivity].
Qed.
Lemma adds_letters l i n : l = inner_letters \/ l = outer_letters -> adds 0 (string_of_list_ascii (letters_from l i n)).
Proof.
  intros Hl. apply adds_plain. rewrite string_of_chars. pose proof (letters_dull3 l i n Hl) as D. induction D as [|c cs Hc _ IH]; [reflexivity|].
  change (of_chars (c :: cs)) with (String c (of_chars cs)). cbn [has_char]. rewrite IH, orb_false_r. destruct Hc as (H1 & _).
  apply Ascii.eqb_neq. congruence.
Qed.
Lemma adds_each k f : (forall i, adds 0 (f i)) -> adds 0 (each_t k f).
Proof.
  intros H. unfold each_t. rewrite concat_empty_sep. induction (seq 0 (k_t k)) as [|i l IH]; [apply adds_nil|].
  cbn [map]. change (concat_str (?a :: ?l)) with (a ++ concat_str l). now apply adds_0.
Qed.
Lemma adds_summed i n : adds 0 (summed i n).
Proof. apply adds_letters. now left. Qed.
Lemma adds_free i n : adds 0 (free i n).
Proof. apply adds_letters. now right. Qed.
Lemma adds_in_h k i : adds 0 (in_h_text k i).
Proof. unfold in_h_text. destruct (with_z k i); [apply adds_nil|apply adds_summed]. Qed.
Lemma adds_in_z k i : adds 0 (in_z_text k i).
Proof. unfold in_z_text. destruct (with_z k i); [apply adds_summed|apply adds_nil]. Qed.
Ltac no_dv := repeat apply adds_0;
  first [apply adds_summed | apply adds_free | apply adds_in_h | apply adds_in_z | apply adds_nil | (intros ?; reflexivity) | idtac].
Lemma adds_operator tidied name m n up down : plain_name name -> adds 0 up -> adds 0 down -> adds 0 (operator_text tidied name m n up down).
Proof.
  intros Hn U D. assert (N : adds 0 name) by (destruct Hn as [->|[->|[->| ->]]]; intros b; reflexivity).
  unfold operator_text. destruct (m + n)%nat; [apply adds_0; [exact N|intros b; reflexivity]|].
  assert (B : forall mark s, mark = "^" \/ mark = "_" -> adds 0 s -> adds 0 (braces_text tidied mark s)).
  { intros mark s Hm Hs. unfold braces_text. destruct (tidied && _); [apply adds_nil|].
    apply adds_0; [destruct Hm as [-> | ->]; intros b; reflexivity|]. apply adds_0; [intros b; reflexivity|]. apply adds_0; [exact Hs|intros b; reflexivity]. }
  apply adds_0; [exact N|]. apply adds_0; apply B; auto.
Qed.
Lemma adds_derivative n x : adds n x -> adds (1 + n) (eT_derivative x).
Proof.
  intros H. unfold eT_derivative. replace (1 + n)%nat with (1 + (n + 0))%nat by lia. apply adds_app; [intros b; destruct b; reflexivity|].
  apply adds_app; [exact H|intros b; reflexivity].
Qed.

Theorem one_derivative tidied s k text : eT_term_text tidied s k text ->
  occurrences_of "\dv{" text = match s with LHS => 1 | RHS => 0 end.
Proof.
  intros (pre & (num & den & -> & _) & ->). apply adds_total.
  change (match s with LHS => 1 | RHS => 0 end) with (0 + (0 + (0 + match s with LHS => 1 | RHS => 0 end)))%nat.
  assert (P : forall n, adds 0 (str_nat n)) by (intros; apply adds_plain, str_nat_no_char; reflexivity).
  apply adds_app.
  { destruct (k_t k + k_zh k)%nat as [|[|n]]; unfold power_text; [apply adds_nil|intros b; reflexivity|].
    apply adds_0; [intros b; reflexivity|]. apply adds_0; [intros b; reflexivity|]. apply adds_0; [apply P|intros b; reflexivity]. }
  apply adds_app.
  { assert (J : forall l, adds 0 (String.concat "" (map eT_number_text l))).
    { intros l. rewrite concat_empty_sep. induction l as [|[n b] l IH]; [apply adds_nil|]. cbn [map].
      change (concat_str (?a :: ?l)) with (a ++ concat_str l). apply adds_0; [|exact IH]. unfold eT_number_text. cbn [fst snd]. destruct b.
      - apply adds_0; [apply P|intros b; reflexivity].
      - apply adds_0; [intros b; reflexivity|]. apply adds_0; [apply P|intros b; reflexivity]. }
    assert (M : forall l, adds 0 (match l with [] => "1" | _ => String.concat "" (map eT_number_text l) end)) by (intros [|x l]; [intros b; reflexivity|apply J]).
    assert (G : adds 0 ("\frac{" ++ (match num with [] => "1" | _ => String.concat "" (map eT_number_text num) end)
      ++ "}{" ++ (match den with [] => "1" | _ => String.concat "" (map eT_number_text den) end) ++ "}")).
    { apply adds_0; [intros b; reflexivity|]. apply adds_0; [apply M|]. apply adds_0; [intros b; reflexivity|]. apply adds_0; [apply M|intros b; reflexivity]. }
    unfold eT_quotient_text. destruct num, den; first [exact G | apply adds_nil]. }
  apply adds_app.
  { unfold eT_ts_text. destruct (k_t k) eqn:E; [intros b; reflexivity|]. apply adds_each. intros i.
    apply adds_operator; [destruct s; unfold plain_name; auto|apply adds_nil|no_dv]. }
  assert (HU : adds 0 (eT_h_up k)).
  { unfold eT_h_up. destruct (k_up k); [apply adds_nil|]. apply adds_0; [apply adds_each; intros i; no_dv|no_dv]. }
  assert (HD : adds 0 (eT_h_down k)) by (unfold eT_h_down; destruct (k_down k); [apply adds_nil|no_dv]).
  assert (ZU : adds 0 (eT_z_up k)).
  { unfold eT_z_up. destruct (k_z k); [apply adds_nil|]. apply adds_0; [apply adds_each; intros i; no_dv|]. apply adds_0; [destruct (k_zh k); no_dv|no_dv]. }
  assert (H0 : forall name, plain_name name -> adds 0 (operator_text tidied name (k_up k) (k_down k) (eT_h_up k) (eT_h_down k)))
    by (intros; now apply adds_operator).
  assert (Z0 : adds 0 (operator_text tidied "\bz" (k_z k) 0 (eT_z_up k) "")) by (apply adds_operator; [unfold plain_name; auto|exact ZU|apply adds_nil]).
  unfold eT_h_text, eT_z_text. destruct s.
  - destruct (k_up k + k_down k)%nat.
    + apply (adds_app 0 1); [intros b; reflexivity|]. exact (adds_derivative 0 _ Z0).
    + apply (adds_app 1 0); [|exact Z0]. apply (adds_derivative 0). apply H0. unfold plain_name. auto.
  - apply (adds_app 0 0); [|exact Z0]. apply H0. unfold plain_name. auto.
Qed.

(** ** Free letters *)
Theorem eT_free_letters_differ tidied s k text : eT_term_text tidied s k text ->
  forall x, In x (free_upper text) -> ~ In x (letters_from summed_letters 0 (k_zp k + k_hp k)).
Proof.
  intros T x Hx Hy. destruct (printed_letters _ _ _ _ T) as (_ & _ & E & _). rewrite E in Hx. apply in_slice in Hx. apply in_slice in Hy. cbn in Hx, Hy.
  repeat (destruct Hx as [<-|Hx]; [repeat (destruct Hy as [Hy|Hy]; [discriminate|]); contradiction|]). contradiction.
Qed.

(** ** The printed divisor and the value *)
Lemma fact_sum_ge a b : fact a * fact b <= fact (a + b).
Proof.
  induction b as [|b IH]; [rewrite Nat.add_0_r; cbn; lia|]. replace (a + S b)%nat with (S (a + b)) by lia.
  change (fact (S b)) with (S b * fact b)%nat. change (fact (S (a + b))) with (S (a + b) * fact (a + b))%nat.
  apply Nat.le_trans with (S b * (fact a * fact b))%nat; [lia|]. apply Nat.mul_le_mono; lia.
Qed.
Lemma fact_sum_eq a b : (fact a * fact b = fact (a + b) <-> a = 0 \/ b = 0)%nat.
Proof.
  split.
  - intros E. destruct b as [|b]; [now right|]. destruct a as [|a]; [now left|exfalso].
    replace (S a + S b)%nat with (S (S a + b)) in E by lia.
    change (fact (S b)) with (S b * fact b)%nat in E. change (fact (S (S a + b))) with (S (S a + b) * fact (S a + b))%nat in E.
    pose proof (fact_sum_ge (S a) b) as G. pose proof (lt_O_fact (S a)) as A. pose proof (lt_O_fact b) as B.
    assert (X : S b * (fact (S a) * fact b) < S (S a + b) * fact (S a + b)).
    { apply Nat.lt_le_trans with (S (S a + b) * (fact (S a) * fact b))%nat.
      - apply Nat.mul_lt_mono_pos_r; [apply Nat.mul_pos_pos; assumption|lia].
      - apply Nat.mul_le_mono_l. exact G. }
    lia.
  - intros [-> | ->]; [cbn [fact Nat.add]; lia|rewrite Nat.add_0_r; cbn [fact]; lia].
Qed.
Theorem divisors k :
  (latex_divisor k * (fact (k_zt k) * fact (k_ht k)) = all_factorials k * fact (k_t k))%nat /\
  (latex_divisor k = all_factorials k <-> k_zt k = 0 \/ k_ht k = 0).
Proof.
  unfold latex_divisor, all_factorials. set (r := (fact (k_zp k) * fact (k_hp k) * fact (k_zh k))%nat). split; [ring|].
  rewrite <- fact_sum_eq. unfold k_t.
  assert (R : r <> 0) by (subst r; pose proof (fact_neq_0 (k_zp k)); pose proof (fact_neq_0 (k_hp k)); pose proof (fact_neq_0 (k_zh k)); nia).
  replace (r * fact (k_zt k) * fact (k_ht k))%nat with (r * (fact (k_zt k) * fact (k_ht k)))%nat by ring.
  split; [intros E; apply Nat.mul_cancel_l in E; auto|intros <-; reflexivity].
Qed.
Theorem same_as_python P q m n k c : complete P q m n k c ->
  (exists num den, build_eT_zhz_python_prefactor (tt_ts (written P q m n k c)) (tt_h (written P q m n k c)) (tt_z (written P q m n k c)) = Ok (num, den) /\
     (num * all_factorials (pairs_of c) = den)%nat /\ den <> 0) /\
  (latex_divisor (pairs_of c) * (fact (k_zt (pairs_of c)) * fact (k_ht (pairs_of c))) = all_factorials (pairs_of c) * fact q)%nat /\
  (latex_divisor (pairs_of c) = all_factorials (pairs_of c) <-> k_zt (pairs_of c) = 0 \/ k_ht (pairs_of c) = 0).
Proof.
  intros C. destruct (divisors (pairs_of c)) as [D1 D2]. destruct (written_ts _ _ _ _ _ _ C) as (Eq & _). rewrite <- Eq in D1. split; [|auto].
  eexists _, _. split; [exact (ProofsEtPy.prefactor_value _ _ _ _ _ _ C)|]. split.
  - rewrite <- (ProofsEtPy.weight_value _ _ _ _ _ _ C). f_equal. unfold all_factorials, pair_permutations, pairs_of. cbn [k_zp k_zh k_zt k_hp k_ht]. ring.
  - pose proof (fact_neq_0 m). pose proof (fact_neq_0 n). pose proof (fact_neq_0 k). nia.
Qed.
Theorem free_letters_of_term tidied s k text : eT_term_text tidied s k text -> k_zp k + k_hp k <= 7 ->
  List.length (free_upper text) = (k_zp k + k_hp k)%nat /\
  forall x, In x (free_upper text) -> ~ In x (letters_from summed_letters 0 (k_zp k + k_hp k)).
Proof.
  intros T L. split; [|exact (eT_free_letters_differ _ _ _ _ T)].
  destruct (printed_letters _ _ _ _ T) as (_ & _ & E & _). rewrite E, letters_len. change (List.length outer_letters) with 7. lia.
Qed.
