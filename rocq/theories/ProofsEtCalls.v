(** Proofs about the form of the calls, the values of the prefactors and the
    term that is left out. *)
From Coq Require Import Lia.
From Verif Require Import PyBase PyStr PyBaseFacts ModelHelper ModelW ModelFullCC ModelFullCCPy ModelZhz ModelEt ModelEtPy
  SpecFullCCPy SpecEt SpecEtPy ProofsW ProofsStr ProofsFullCCLabels ProofsFullCCPy ProofsResidual ProofsZhzLatex ProofsEt ProofsEtPy ProofsEtBody ProofsEtText ProofsEtGen.
Local Open Scope nat_scope.
Local Open Scope list_scope.

(** ** Form *)
Lemma occ_of_chars x l : occurrences x (of_chars l) = count_occ ascii_dec l x.
Proof. unfold occurrences. f_equal. induction l as [|a l IH]; [reflexivity|]. cbn. now rewrite IH. Qed.
Lemma occ_singles x (f : ascii -> string * operand) l : (forall a, fst (f a) = of_chars [a]) ->
  list_sum (map (occurrences x) (map fst (map f l))) = count_occ ascii_dec l x.
Proof.
  intros F. induction l as [|a l IH]; [reflexivity|]. cbn [map]. rewrite F. unfold list_sum in *. cbn [fold_right]. rewrite IH, occ_of_chars.
  cbn [count_occ]. destruct (ascii_dec a x); reflexivity.
Qed.
Lemma length_chars l : String.length (of_chars l) = List.length l.
Proof. induction l as [|a l IH]; [reflexivity|]. cbn. now rewrite IH. Qed.

Lemma twice_or_once (su ex : list ascii) x : NoDup (su ++ ex) ->
  let i := 2 * count_occ ascii_dec su x + count_occ ascii_dec ex x in
  let o := count_occ ascii_dec ex x in
  (i = 0 /\ o = 0) \/ (i = 2 /\ o = 0) \/ (i = 1 /\ o = 1).
Proof.
  intros N. apply (proj1 (NoDup_count_occ ascii_dec _)) with (x := x) in N. rewrite count_occ_app in N. cbv zeta. lia.
Qed.

Lemma realises_well_formed s P q m n k c call : complete P q m n k c -> realises_eT s m n k c call -> well_formed_call P call.
Proof.
  intros C (tz & th & hz & eh & ez & L1 & L2 & L3 & L4 & L5 & N & E1 & E2 & E3).
  pose proof (sums _ _ _ _ _ _ C) as S0. destruct (counts _ _ _ _ _ _ C) as (K1 & K2 & K3 & K4).
  unfold well_formed_call. rewrite E1, E2, E3. clear E1 E2 E3.
  split; [now rewrite !map_length|]. split; [|split].
  - assert (G : forall l : list (string * operand), Forall (fun go => String.length (fst go) = electronic_axes (fst (snd go)) + fst (snd (snd go)) + snd (snd (snd go))) l ->
      Forall2 (fun g o => String.length g = electronic_axes (fst o) + fst (snd o) + snd (snd o)) (map fst l) (map snd l)).
    { induction 1; constructor; auto. }
    apply G. rewrite !Forall_app. split; [|split].
    + apply Forall_forall. intros go H. apply in_map_iff in H as (a & <- & _). destruct s; reflexivity.
    + unfold h_of_side. destruct s; [destruct m; [destruct n|]|]; repeat constructor; cbn [fst snd]; cbn [electronic_axes String.eqb Ascii.eqb Bool.eqb orb];
        rewrite length_chars; cbn [List.length]; rewrite ?app_length; unfold electronic_axes; cbn; lia.
    + repeat constructor. unfold z_of_side. cbn [fst snd]. rewrite length_chars. cbn [List.length]. rewrite !app_length.
      destruct s; [destruct m; [destruct n|]|]; unfold electronic_axes; cbn; lia.
  - intros x. cbv zeta. rewrite !(map_app fst), !(map_app (occurrences x)).
    assert (A : list_sum (map (occurrences x) (map fst (map (fun l => (of_chars [l], t_of_side s)) (tz ++ th)))) = count_occ ascii_dec (tz ++ th) x)
      by (now apply occ_singles).
    rewrite !list_sum_app.
    rewrite A. unfold z_of_side. cbn [map fst]. rewrite !occ_of_chars.
    assert (B : list_sum (map (occurrences x) (map fst (h_of_side s m n (th ++ hz ++ eh))))
      = match s with RHS => count_occ ascii_dec ["a"; "c"]%char x | LHS => 0 end + count_occ ascii_dec (th ++ hz ++ eh) x).
    { unfold h_of_side. destruct s; [destruct m; [destruct n|]|]; cbn [map fst]; unfold list_sum; cbn [fold_right]; rewrite ?occ_of_chars, ?Nat.add_0_r; try lia.
      - assert (th = []) as -> by (destruct th; [reflexivity|cbn in *; lia]). assert (hz = []) as -> by (destruct hz; [reflexivity|cbn in *; lia]).
        assert (eh = []) as -> by (destruct eh; [reflexivity|cbn in *; lia]). reflexivity.
      - change ("a" :: "c" :: th ++ hz ++ eh)%char with (["a"; "c"]%char ++ (th ++ hz ++ eh)). rewrite (count_occ_app _ ["a"; "c"]%char). lia. }
    rewrite B. unfold list_sum. cbn [fold_right].
    change ("c" :: tz ++ hz ++ ez)%char with (["c"]%char ++ (tz ++ hz ++ ez)). change (result_letter s :: eh ++ ez) with ([result_letter s] ++ eh ++ ez).
    destruct s; cbn [result_letter electronic] in *.
    + pose proof (twice_or_once (tz ++ th ++ hz) (["c"]%char ++ eh ++ ez) x) as T.
      cbv zeta in T. rewrite !count_occ_app in *. 
      replace (0 + (count_occ ascii_dec th x + (count_occ ascii_dec hz x + count_occ ascii_dec eh x))) with (count_occ ascii_dec th x + (count_occ ascii_dec hz x + count_occ ascii_dec eh x)) by lia.
      match goal with |- context [?i = 0 /\ ?o = 0] => replace i with (2 * (count_occ ascii_dec tz x + (count_occ ascii_dec th x + count_occ ascii_dec hz x)) + (count_occ ascii_dec ["c"%char] x + (count_occ ascii_dec eh x + count_occ ascii_dec ez x))) by lia end.
      apply T. rewrite <- !app_assoc. clear - N. eapply Permutation_NoDup; [|exact N].
      change (["c"]%char ++ ?l) with ("c"%char :: l). rewrite (app_assoc th), (app_assoc tz). rewrite <- !app_assoc. rewrite (app_assoc th), (app_assoc tz).
      rewrite (app_assoc th _ ("c"%char :: eh ++ ez)), (app_assoc tz _ ("c"%char :: eh ++ ez)). apply Permutation_middle.
    + pose proof (twice_or_once (["c"]%char ++ tz ++ th ++ hz) (["a"]%char ++ eh ++ ez) x) as T.
      cbv zeta in T. change ["a"; "c"]%char with (["a"] ++ ["c"])%char. rewrite !count_occ_app in *.
      match goal with |- context [?i = 0 /\ ?o = 0] => replace i with (2 * (count_occ ascii_dec ["c"%char] x + (count_occ ascii_dec tz x + (count_occ ascii_dec th x + count_occ ascii_dec hz x))) + (count_occ ascii_dec ["a"%char] x + (count_occ ascii_dec eh x + count_occ ascii_dec ez x))) by lia end.
      apply T. clear - N. eapply Permutation_NoDup; [|exact N].
      change (["a"; "c"]%char ++ ?l) with ("a"%char :: ("c"%char :: l)). change (["a"]%char ++ eh ++ ez) with ("a"%char :: eh ++ ez).
      transitivity ("a"%char :: (["c"%char] ++ tz ++ th ++ hz) ++ (eh ++ ez)); [|apply Permutation_middle].
      apply perm_skip. cbn [app]. apply perm_skip. rewrite <- !app_assoc. reflexivity.
  - rewrite length_chars. cbn [List.length]. rewrite app_length. lia.
Qed.
