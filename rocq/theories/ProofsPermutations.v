(** Proofs about the lines with permutations. *)
From Coq Require Import List Arith Lia String Ascii.
From Verif Require Import PyBase ModelPermutations SpecPermutations.
Import ListNotations.
Open Scope string_scope.

Lemma both_length {A B} (Q : A -> B -> Prop) l l' : Forall2 Q l l' -> List.length l = List.length l'.
Proof. induction 1; cbn; auto. Qed.

Lemma skipn_at {A} (a b : list A) : skipn (List.length a) (a ++ b) = b.
Proof. induction a; cbn; auto. Qed.
Lemma firstn_at {A} (a b : list A) : firstn (List.length a) (a ++ b) = a.
Proof. induction a; cbn; [reflexivity|now f_equal]. Qed.

Lemma slice_at {A} (used piece rest : list A) :
  slice (List.length used) (List.length piece + List.length used) (used ++ piece ++ rest) = piece.
Proof. unfold slice. rewrite skipn_at. replace (_ + _ - _) with (List.length piece) by lia. apply firstn_at. Qed.

Lemma add_spread : forall fs ts chars os, spread fs ts chars os -> forall pre used,
  add_characters (used ++ chars) ts (List.length pre) (List.length used) (pre ++ fs) = Ok (pre ++ os)%list.
Proof.
  induction 1 as [|f fs t ts piece rest os R D IH]; intros pre used; [reflexivity|]. cbn [add_characters].
  unfold py_nth. rewrite nth_error_app2, Nat.sub_diag by lia. cbn [nth_error bind].
  unfold rank_is in R. rewrite R. replace (2 + List.length piece - 2) with (List.length piece) by lia. rewrite slice_at, firstn_at.
  replace (skipn (S (List.length pre)) (pre ++ f :: fs)) with fs.
  2:{ replace (pre ++ f :: fs)%list with ((pre ++ [f]) ++ fs)%list by now rewrite <- app_assoc.
      replace (S (List.length pre)) with (List.length (pre ++ [f])) by (rewrite app_length; cbn; lia). now rewrite skipn_at. }
  specialize (IH (pre ++ [(f ++ concat_str piece)%string])%list (used ++ piece)%list). rewrite !app_length in IH. cbn [List.length] in IH.
  rewrite <- !app_assoc in IH. cbn [app] in IH |- *. rewrite Nat.add_1_r in IH. exact IH.
Qed.

Lemma spread_exists : forall fs ts rs chars, ranks_are ts rs -> List.length fs = List.length ts -> list_sum rs = List.length chars ->
  exists os, spread fs ts chars os.
Proof.
  induction fs as [|f fs IH]; intros ts rs chars R L Sm; destruct R as [|t r ts rs Rt R]; try discriminate L.
  - cbn in Sm. destruct chars; [|discriminate Sm]. exists []. constructor.
  - cbn in L, Sm. change (fold_right _ _ rs) with (list_sum rs) in Sm.
    destruct (IH ts rs (skipn r chars) R) as [os D]; [lia|rewrite skipn_length; lia|].
    exists ((f ++ concat_str (firstn r chars)) :: os). rewrite <- (firstn_skipn r chars) at 1. apply spread_cons; [|exact D].
    rewrite firstn_length_le by lia. exact Rt.
Qed.

(** subscripts depend on the ranks only *)
Lemma spread_ranks : forall fs ts chars os, spread fs ts chars os -> forall ts', Forall2 (fun t t' => String.length t = String.length t') ts ts' ->
  spread fs ts' chars os.
Proof.
  induction 1 as [|f fs t ts piece rest os R D IH]; intros ts' F; inversion F as [|? t' ? ts'' E F']; subst; [constructor|].
  apply spread_cons; [unfold rank_is in *; congruence|]. now apply IH.
Qed.

Lemma all_ones : forall rs, Forall (fun r => 1 <= r) rs -> list_sum rs = List.length rs -> Forall (fun r => r = 1) rs.
Proof.
  induction rs as [|r rs IH]; intros P E; [constructor|]. inversion P as [|? ? Hr P']; subst. cbn in E.
  change (fold_right _ _ rs) with (list_sum rs) in E.
  assert (List.length rs <= list_sum rs).
  { clear -P'. induction P' as [|x l Hx P' IH']; cbn; [lia|]. change (fold_right _ _ l) with (list_sum l). lia. }
  constructor; [lia|apply IH; [exact P'|lia]].
Qed.

Lemma mapM_forall2 {A B} (f : A -> res B) (Q : A -> B -> Prop) : forall l, (forall x, In x l -> exists y, f x = Ok y /\ Q x y) ->
  exists ys, mapM f l = Ok ys /\ Forall2 Q l ys.
Proof.
  induction l as [|x l IH]; intros Hy; cbn; [exists []; split; [reflexivity|constructor]|].
  destruct (Hy x) as (y & E & q); [now left|]. rewrite E. cbn. destruct IH as (ys & E' & F); [intros z I; apply Hy; now right|].
  rewrite E'. cbn. exists (y :: ys). split; [reflexivity|now constructor].
Qed.

Lemma einsums_of (perm_t : list (list string)) : forall p_group, List.length p_group <= List.length perm_t ->
  mapM (fun i => do c <- py_nth (map (join ", ") p_group) i; do a <- py_nth (map (join ", ") perm_t) i; Ok ("np.einsum('" ++ c ++ "', " ++ a ++ ")"))
       (range 0 (List.length p_group))
  = Ok (map (fun x => einsum_call (fst x) (snd x)) (combine p_group perm_t)).
Proof.
  intros p_group L. unfold range. rewrite Nat.sub_0_r.
  assert (G : forall (p t pre pre' : list (list string)), List.length p <= List.length t -> List.length pre = List.length pre' ->
    mapM (fun i => do c <- py_nth (map (join ", ") (pre ++ p)) i; do a <- py_nth (map (join ", ") (pre' ++ t)) i; Ok ("np.einsum('" ++ c ++ "', " ++ a ++ ")"))
         (seq (List.length pre) (List.length p)) = Ok (map (fun x => einsum_call (fst x) (snd x)) (combine p t))).
  { induction p as [|x p IH]; intros t pre pre' Lp E; [reflexivity|]. destruct t as [|y t]; [cbn in Lp; lia|].
    cbn [List.length seq mapM]. unfold py_nth at 1 2.
    rewrite !nth_error_map, !nth_error_app2 by lia. rewrite <- E, Nat.sub_diag. cbn [nth_error option_map bind].
    specialize (IH t (pre ++ [x])%list (pre' ++ [y])%list). rewrite !app_length in IH. cbn [List.length] in IH. rewrite <- !app_assoc in IH. cbn [app] in IH.
    rewrite Nat.add_1_r in IH. rewrite IH by (cbn in Lp; lia). reflexivity. }
  exact (G p_group perm_t [] [] L eq_refl).
Qed.

Section Lines.
  Variables (l_t : list (list string)) (l_fix : list string) (l_perm : list (list string)) (n : nat).
  Hypothesis some : l_t <> [].
  Hypothesis groups_ok : forall g, In g l_t -> List.length g = List.length l_fix /\
    exists rs, ranks_are g rs /\ Forall (fun r => 1 <= r) rs /\ list_sum rs = n.
  Hypothesis chars_ok : forall cs, In cs l_perm -> List.length cs = n.

  Lemma made_of cs : In cs l_perm -> exists made, mapM (fun t_group => add_characters cs t_group 0 0 l_fix) l_t = Ok made /\
    Forall2 (fun g os => spread l_fix g cs os) l_t made.
  Proof.
    intros I. apply mapM_forall2. intros g Ig. destruct (groups_ok g Ig) as (L & rs & R & _ & E).
    destruct (spread_exists l_fix g rs cs R) as [os D]; [lia|rewrite (chars_ok cs I); exact E|].
    exists os. split; [|exact D]. exact (add_spread _ _ _ _ D [] []).
  Qed.

  Definition calls_are (cs : list string) (calls : list string) : Prop :=
    (List.length l_fix = n -> exists os, calls = [einsum_call os (hd [] l_t)] /\ forall g, In g l_t -> spread l_fix g cs os) /\
    (List.length l_fix <> n -> Forall2 (fun g call => exists os, spread l_fix g cs os /\ call = einsum_call os g) l_t calls).

  Lemma line_of W prefactor cs : In cs l_perm -> exists p_group, permute_group l_t l_fix n cs = Ok p_group /\
    exists line, permutation_line l_t W prefactor p_group = Ok line /\ exists calls, line = sum_line W prefactor calls /\ calls_are cs calls.
  Proof.
    intros I. destruct (made_of cs I) as (made & E & F). unfold permute_group. rewrite E. cbn [bind].
    assert (Lm : List.length made = List.length l_t) by (symmetry; eapply both_length, F).
    destruct (Nat.eqb_spec (List.length l_fix) n) as [En|En].
    - destruct (rev made) as [|os rest] eqn:Er.
      { apply (f_equal (@List.length _)) in Er. rewrite rev_length, Lm in Er. destruct l_t; [now elim some|discriminate Er]. }
      exists [os]. split; [reflexivity|]. unfold permutation_line. rewrite einsums_of.
      2:{ destruct l_t; [now elim some|cbn; lia]. }
      cbn [bind]. eexists. split; [reflexivity|]. unfold calls_are. destruct l_t as [|g0 gs] eqn:El; [now elim some|]. exists [einsum_call os g0].
      split; [reflexivity|]. split; [|contradiction]. intros _. exists os. split; [reflexivity|]. intros g Ig.
      assert (Io : In os made) by (apply in_rev; rewrite Er; now left).
      assert (exists g', In g' (g0 :: gs) /\ spread l_fix g' cs os) as (g' & Ig' & D).
      { clear -F Io. induction F; [destruct Io|]. destruct Io as [<-|Io]; [eexists; split; [now left|eassumption]|].
        destruct (IHF Io) as (g' & I' & D). exists g'. split; [now right|exact D]. }
      assert (Ones : forall h, In h (g0 :: gs) -> Forall (fun t => String.length t = 3) h).
      { intros h Ih. destruct (groups_ok h Ih) as (L & rs & R & P & Sm). assert (Lr := both_length _ _ _ R).
        assert (O : Forall (fun r => r = 1) rs) by (apply all_ones; [exact P|lia]). clear -R O. induction R; [constructor|].
        inversion O; subst. unfold rank_is in *. constructor; [assumption|now apply IHR]. }
      apply (spread_ranks _ _ _ _ D). destruct (groups_ok g Ig) as [Lg _]. destruct (groups_ok g' Ig') as [Lg' _].
      assert (L : List.length g' = List.length g) by lia. assert (O := Ones g Ig). assert (O' := Ones g' Ig'). clear -L O O'.
      revert g L O. induction O' as [|t' g' Et' O' IH]; intros g L O; destruct O as [|t g Et O]; try discriminate L; constructor; [congruence|].
      apply IH; [cbn in L; lia|exact O].
    - exists made. split; [reflexivity|]. unfold permutation_line. rewrite einsums_of by lia. cbn [bind]. eexists. split; [reflexivity|].
      eexists. split; [reflexivity|]. split; [contradiction|]. intros _. clear -F. induction F; cbn; constructor; [|exact IHF].
      eexists. split; [eassumption|reflexivity].
  Qed.

  Theorem lines_of W prefactor : exists perms lines,
    permutation_function l_t l_fix l_perm n = Ok perms /\ write_permutations l_t perms W prefactor = Ok (concat_str lines) /\
    Forall2 (fun cs line => exists calls, line = sum_line W prefactor calls /\ calls_are cs calls) l_perm lines.
  Proof.
    assert (G : forall l, (forall cs, In cs l -> In cs l_perm) -> exists perms lines,
      mapM (permute_group l_t l_fix n) l = Ok perms /\ mapM (permutation_line l_t W prefactor) perms = Ok lines /\
      Forall2 (fun cs line => exists calls, line = sum_line W prefactor calls /\ calls_are cs calls) l lines).
    { induction l as [|cs l IH]; intros Hl; [exists [], []; repeat split; constructor|].
      destruct (line_of W prefactor cs) as (p & E & line & E' & Hc); [apply Hl; now left|].
      destruct IH as (perms & lines & E1 & E2 & F); [intros; apply Hl; now right|].
      exists (p :: perms), (line :: lines). cbn. rewrite E, E1. cbn. rewrite E', E2. cbn. repeat split. now constructor. }
    destruct (G l_perm (fun _ I => I)) as (perms & lines & E1 & E2 & F). exists perms, lines. unfold permutation_function, write_permutations.
    rewrite E1, E2. repeat split. exact F.
  Qed.
End Lines.

(** A product with more amplitudes than fixed parts. *)
Lemma add_too_many cs : forall g i p cur, List.length cur < i + List.length g -> i <= List.length cur ->
  add_characters cs g i p cur = Err IndexErr.
Proof.
  induction g as [|t g IH]; intros i p cur L Li; cbn [add_characters List.length] in *; [lia|]. unfold py_nth.
  destruct (nth_error cur i) as [x|] eqn:E; [|reflexivity]. cbn [bind].
  assert (i < List.length cur) by (apply nth_error_Some; congruence).
  apply IH; rewrite !app_length, firstn_length, skipn_length; cbn [List.length]; lia.
Qed.

Lemma add_enough cs : forall g i p cur, i + List.length g <= List.length cur -> exists r, add_characters cs g i p cur = Ok r.
Proof.
  induction g as [|t g IH]; intros i p cur L; cbn [add_characters List.length] in *; [eauto|]. unfold py_nth.
  destruct (nth_error cur i) as [x|] eqn:E; [|apply nth_error_None in E; lia]. cbn [bind].
  apply IH. rewrite !app_length, firstn_length, skipn_length; cbn [List.length]; lia.
Qed.

Theorem when_it_fails l_t l_fix l_perm n : (forall e, permutation_function l_t l_fix l_perm n = Err e <->
  l_perm <> [] /\ ((e = IndexErr /\ exists g, In g l_t /\ List.length l_fix < List.length g) \/
                   (e = UnboundLocalErr /\ l_t = [] /\ List.length l_fix = n))).
Proof.
  assert (Dec : (exists g, In g l_t /\ List.length l_fix < List.length g) \/ (forall g, In g l_t -> List.length g <= List.length l_fix)).
  { clear. induction l_t as [|g l [(h & I & L)|A]]; [right; intros g []|left; exists h; split; [now right|exact L]|].
    destruct (Nat.lt_ge_cases (List.length l_fix) (List.length g)) as [L|L]; [left; exists g; split; [now left|exact L]|].
    right. intros h [<-|I]; auto. }
  assert (Bad : (exists g, In g l_t /\ List.length l_fix < List.length g) -> forall cs, permute_group l_t l_fix n cs = Err IndexErr).
  { intros (g & I & L) cs. unfold permute_group.
    assert (M : mapM (fun t_group => add_characters cs t_group 0 0 l_fix) l_t = Err IndexErr).
    { clear -I L. induction l_t as [|h l IH]; [destruct I|]. cbn.
      destruct (Nat.lt_ge_cases (List.length l_fix) (List.length h)) as [Lh|Lh]; [now rewrite add_too_many by (cbn; lia)|].
      destruct (add_enough cs h 0 0 l_fix) as [r ->]; [cbn; lia|]. cbn. destruct I as [->|I]; [lia|]. now rewrite IH. }
    now rewrite M. }
  assert (Good : (forall g, In g l_t -> List.length g <= List.length l_fix) -> forall cs,
     (l_t = [] /\ List.length l_fix = n -> permute_group l_t l_fix n cs = Err UnboundLocalErr) /\
     (~ (l_t = [] /\ List.length l_fix = n) -> exists r, permute_group l_t l_fix n cs = Ok r)).
  { intros A cs. unfold permute_group.
    destruct (mapM_forall2 (fun t_group => add_characters cs t_group 0 0 l_fix) (fun _ _ => True) l_t) as (made & E & F).
    { intros g I. destruct (add_enough cs g 0 0 l_fix) as [r Er]; [apply A, I|]. exists r. now split. }
    rewrite E. cbn. apply both_length in F. split.
    - intros [-> ->]. destruct made; [|discriminate F]. now rewrite Nat.eqb_refl.
    - intros N. destruct (Nat.eqb_spec (List.length l_fix) n) as [En|En]; [|eauto]. destruct (rev made) as [|x r] eqn:Er; [|eauto].
      exfalso. apply N. split; [|exact En]. apply (f_equal (@List.length _)) in Er. rewrite rev_length, <- F in Er. now destruct l_t. }
  intros e. unfold permutation_function. destruct Dec as [B|A].
  - destruct l_perm as [|cs l]; cbn; [split; [discriminate|now intros [[] _]]|]. rewrite (Bad B). cbn. split.
    + intros [= <-]. split; [discriminate|]. now left.
    + intros [_ [[-> _]|[-> [-> _]]]]; [reflexivity|]. destruct B as (g & [] & _).
  - assert (NB : ~ exists g, In g l_t /\ List.length l_fix < List.length g) by (intros (g & I & L); apply A in I; lia).
    assert (D : (l_t = [] /\ List.length l_fix = n) \/ ~ (l_t = [] /\ List.length l_fix = n)).
    { destruct l_t; [|right; now intros [[=] _]]. destruct (Nat.eq_dec (List.length l_fix) n); [now left|right; now intros [_ ?]]. }
    destruct D as [D|D].
    + destruct l_perm as [|cs l]; cbn; [split; [discriminate|now intros [[] _]]|]. rewrite (proj1 (Good A cs) D). cbn. split.
      * intros [= <-]. split; [discriminate|]. right. now split.
      * intros [_ [[-> B]|[-> _]]]; [now elim NB|reflexivity].
    + destruct (mapM_forall2 (permute_group l_t l_fix n) (fun _ _ => True) l_perm) as (ys & E & _).
      { intros cs _. destruct (proj2 (Good A cs) D) as [r Er]. exists r. now split. }
      rewrite E. split; [discriminate|]. intros [_ [[_ B]|[_ B]]]; [now elim NB|now elim D].
Qed.

Theorem permutation_lines l_t l_fix l_perm n W prefactor :
  l_t <> [] -> (forall g, In g l_t -> product_of_rank l_fix n g) -> (forall cs, In cs l_perm -> List.length cs = n) ->
  exists perms lines,
    permutation_function l_t l_fix l_perm n = Ok perms /\ write_permutations l_t perms W prefactor = Ok (concat_str lines) /\
    Forall2 (fun cs line => exists calls, line = sum_line W prefactor calls /\ calls_of l_t l_fix cs calls) l_perm lines.
Proof.
  intros N G C. destruct (lines_of l_t l_fix l_perm n N G C W prefactor) as (perms & lines & E1 & E2 & F).
  exists perms, lines. split; [exact E1|]. split; [exact E2|]. clear E1 E2. induction F as [|cs line l lines (calls & El & Hc) F IH]; constructor.
  - exists calls. split; [exact El|]. unfold calls_of. rewrite (C cs) by now left. exact Hc.
  - apply IH. intros; apply C; now right.
Qed.
