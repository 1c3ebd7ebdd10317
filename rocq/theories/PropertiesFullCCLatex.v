(** Property theorems C34, C35 and C54 - C57: the LaTeX of the full coupled
    cluster equations. *)
From Coq Require Import ZArith.
From Verif Require Import PyBase ModelFullCC ModelFullCCPy ModelFullCCLatex ModelTrunc
  SpecTrunc SpecFullCC SpecFullCCPy SpecFullCCLatex ProofsFullCCLatexFile ProofsFullCCLatexIndices.
Open Scope string_scope.

Definition same {A} (l : list A) : list A := l.
Lemma same_order {A} : set_order (@same A).
Proof. intros l. apply Permutation_refl. Qed.

Definition equation_of := generate_cc_latex_equations same same.

(** C34: the right hand side of every equation prints the contractions asked
    for, each with its prefactor, its f factors and its indices, in the group of
    its connection; [equation_text] says which characters these are.  Sums of
    14 or more fully connected terms lose the remainder modulo 7, see
    [C34_lines]; rank 4 and more with linked disconnected terms is refused. *)
Theorem C34_equation :
  forall so son omega H cc S ground rf,
    set_order so -> set_order son -> 1 <= cc -> H <= 10 ->
    g_rank omega = (g_m omega + g_n omega)%nat -> g_rank omega <= 8 ->
    exists fully linked_ unlinked_,
      equation_terms (g_m omega) (g_n omega) H cc S ground rf fully linked_ unlinked_ /\
      ((linked_ <> [] /\ 4 <= g_rank omega /\
        generate_cc_latex_equations so son omega H cc S ground rf = Err NotImplementedErr) \/
       ((linked_ = [] \/ g_rank omega <= 3) /\
        exists e, generate_cc_latex_equations so son omega H cc S ground rf = Ok e /\
          equation_text (g_m omega) (g_n omega) fully linked_ unlinked_ (render_equation (g_rank omega) e))).
Proof. exact latex_equation. Qed.
Print Assumptions C34_equation.

(** The hypotheses hold for the quadratic "db" projection, and this is the
    text. *)
Example C34_example :
  match equation_of (mkgop "db" 2 1 1) 2 2 1 false false with
  | Ok e => render_equation 2 e
  | Err _ => ""
  end
  = "(f\bar{f}\bh^{\blue{}\red{z}}_{\blue{}\red{y}} + f\frac{1}{2!}\bh^{\blue{}\red{}}_{\blue{i}\red{z}}\bt^{\blue{i}\red{y}} + \bar{f}\bh^{\blue{}\red{z}}_{\blue{i}\red{}}\bt^{\blue{i}\red{}}_{\blue{}\red{y}} + f\bh^{\blue{i}\red{}}_{\blue{}\red{z}}\bt^{\blue{}\red{y}}_{\blue{i}\red{}} + \bar{f}\frac{1}{2!}\bh^{\blue{i}\red{z}}_{\blue{}\red{}}\bt_{\blue{i}\red{y}})
%
%
\\  &+
%
%
(f\bh^{\blue{}\red{}}_{\blue{}\red{y}})\bt^{\blue{}\red{z}}
    \\  &+  % split long equation
(\bar{f}\bh^{\blue{}\red{y}}_{\blue{}\red{}})\bt_{\blue{}\red{z}}
%
%
\\  &+
%
%
(\bh_0)\bt^{\blue{}\red{y}}_{\blue{}\red{z}}".
Proof. vm_compute. reflexivity. Qed.

(** The terms of a plain sum that are printed: all below 14; from 14 on the
    last [length mod 7] are missing. *)
Theorem C34_lines :
  forall ss text, plain_text ss text ->
    (List.length ss < 14 -> text = sum_text ss) /\
    (14 <= List.length ss -> exists lines rest,
       Forall (fun l => List.length l = 7) lines /\ ss = (List.concat lines ++ rest)%list /\
       List.length rest = List.length ss mod 7 /\ text = lines_text lines).
Proof. exact all_printed. Qed.
Print Assumptions C34_lines.

(** "Every fully connected term is printed" is false: 15 terms, 14 printed. *)
Theorem C34_refuted :
  exists omega H cc S fully linked_ unlinked_ e lines,
    equation_terms (g_m omega) (g_n omega) H cc S false false fully linked_ unlinked_ /\
    equation_of omega H cc S false false = Ok e /\ eq_fully e = LSplit lines /\
    List.length fully = 15 /\ List.length (List.concat lines) = 14.
Proof.
  assert (X := equation_terms_ok same (mkgop "" 0 0 0) 3 2 2 false false same_order ltac:(lia)).
  destruct X as (l & a & b & c & E & Es & T).
  exists (mkgop "" 0 0 0), 3, 2, 2, a, b, c. do 2 eexists. split; [exact T|].
  split; [vm_compute; reflexivity|]. split; [reflexivity|]. split; [|reflexivity].
  vm_compute in E. injection E as <-. vm_compute in Es. injection Es as <- _ _. reflexivity.
Qed.
Print Assumptions C34_refuted.

(** C34, the whole file: one section per projection operator of rank up to P. *)
Theorem C34_file :
  forall so son sop d H cc S P ground rf,
    set_order so -> set_order son -> set_order sop ->
    is_dict d -> acceptable Fcc d ->
    has_value d KH (Z.of_nat H) -> has_value d KCC (Z.of_nat cc) ->
    has_value d KS (Z.of_nat S) -> has_value d KP (Z.of_nat P) ->
    cc <= 3 \/ P <= 3 ->
    exists text, generate_full_cc_latex so son sop H cc S P ground rf = Ok text /\
                 latex_text H cc S P ground rf text.
Proof. intros so son sop d H cc S P ground rf H1 H2 H3 Hd A V1 V2 V3 V4. exact (proj1 (latex_file so son sop d H cc S P ground rf H1 H2 H3 Hd A V1 V2 V3 V4)). Qed.
Print Assumptions C34_file.

Definition small : dict := [(DEnum KH, 2%Z); (DEnum KCC, 2%Z); (DEnum KS, 1%Z); (DEnum KP, 2%Z)].
Definition large : dict := [(DEnum KH, 2%Z); (DEnum KCC, 4%Z); (DEnum KS, 1%Z); (DEnum KP, 4%Z)].
Lemma is_accepted d a b c e : d = [(DEnum KH, a); (DEnum KCC, b); (DEnum KS, c); (DEnum KP, e)] ->
  (1 <= a <= 6 -> 1 <= b <= 6 -> 1 <= c <= 6 -> 1 <= e <= 6 -> is_dict d /\ acceptable Fcc d)%Z.
Proof.
  intros -> H1 H2 H3 H4. split; [repeat constructor; cbn; intuition discriminate|]. split.
  - intros k v [[= <- _]|[[= <- _]|[[= <- _]|[[= <- _]|[]]]]]; eexists; reflexivity.
  - intros k top [[= <- <-]|[[= <- <-]|[[= <- <-]|[[= <- <-]|[]]]]]; eexists; (split; [unfold has_value; cbn; auto|]); lia.
Qed.

Example C34_file_example :
  exists text, generate_full_cc_latex same same same 2 2 1 2 true false = Ok text /\
               latex_text 2 2 1 2 true false text.
Proof.
  destruct (is_accepted small _ _ _ _ eq_refl) as [D A]; try lia.
  apply (C34_file same same same small 2 2 1 2 true false); auto using same_order; unfold has_value; cbn; auto.
Qed.

(** C35: the left hand side is the derivative of the sum of all products of
    amplitudes that match the projection, plus that sum times epsilon. *)
Theorem C35_left_hand_side :
  forall sop omega, set_order sop -> (g_m omega + g_n omega <= 10)%nat ->
    lhs_text (g_m omega) (g_n omega) (render_left (generate_left_hand_side sop omega)).
Proof. exact latex_left. Qed.
Print Assumptions C35_left_hand_side.

Example C35_example :
  render_left (generate_left_hand_side same (mkgop "db" 2 1 1))
  = "i\left(\dv{\bt^{i}_{j}}{\tau} + \dv{\bt^{i}_{}}{\tau}\bt^{}_{j} + \bt^{i}_{}\dv{\bt^{}_{j}}{\tau} + \bt^{i}_{j}\varepsilon + \bt^{i}_{}\bt^{}_{j}\varepsilon\right)".
Proof. vm_compute. reflexivity. Qed.

(** C54: read off the printed text, every summed index of a term stands once in
    an upper and once in a lower position, and the letters are the first of the
    alphabet of summed indices. *)
Theorem C54_summed_indices :
  forall om on c t s,
    plain_term om on t s \/ condensed_term om on t s \/ without_factor om on c t s ->
    NoDup (summed_upper s) /\ NoDup (summed_lower s) /\ Permutation (summed_upper s) (summed_lower s) /\
    exists n, summed_upper s = letters_from summed_letters 0 n.
Proof. exact summed_once. Qed.
Print Assumptions C54_summed_indices.

(** C55: the free indices of a fully connected term are the first letters of
    the alphabet of free indices, each once. *)
Theorem C55_fully_connected :
  forall om on hm hn us f fbar t s,
    contraction om on hm hn us f fbar -> describes om on hm hn us f fbar t -> plain_term om on t s ->
    Permutation (all_free s) (letters_from free_letters 0 (om + on)) /\
    (om = 0 -> free_lower s = []) /\ (on = 0 -> free_upper s = []).
Proof. exact plain_free. Qed.
Print Assumptions C55_fully_connected.

(** So are those of an unlinked disconnected term with its common factor, *)
Theorem C55_unlinked :
  forall om on hm hn us f fbar t s common,
    contraction om on hm hn us f fbar -> describes om on hm hn us f fbar t -> 1 <= (om + on)%nat ->
    without_factor om on (mkt 0 0 on om) t s -> factor_text [mkt 0 0 on om] common ->
    Permutation (all_free common ++ all_free s)%list (letters_from free_letters 0 (om + on)) /\
    (om = 0 -> free_lower common = [] /\ free_lower s = []) /\
    (on = 0 -> free_upper common = [] /\ free_upper s = []).
Proof. exact unlinked_free. Qed.
Print Assumptions C55_unlinked.

(** and those of a linked disconnected term exactly when not both h and the
    other amplitudes carry free indices. *)
Theorem C55_linked :
  forall om on hm hn us f fbar t s common, (om + on)%nat <= 3 ->
    contraction om on hm hn us f fbar -> Forall (fun t => 1 <= (up t + down t)%nat) us ->
    describes om on hm hn us f fbar t -> condensed_term om on t s -> factor_text (loose us) common ->
    (Permutation (all_free common ++ all_free s)%list (letters_from free_letters 0 (om + on))
     <-> (fbar + f = 0)%nat \/ (total n_o (bound us) + total m_o (bound us) = 0)%nat) /\
    (om = 0 -> free_lower common = [] /\ free_lower s = []) /\
    (on = 0 -> free_upper common = [] /\ free_upper s = []).
Proof. exact linked_free. Qed.
Print Assumptions C55_linked.

(** The printed terms of these examples, as read from the text. *)
Example C54_C55_example :
  let s := "\bar{f}\bh^{\blue{}\red{z}}_{\blue{i}\red{}}\bt^{\blue{i}\red{yx}}" in
  summed_upper s = ["i"%char] /\ summed_lower s = ["i"%char] /\ all_free s = ["z"%char; "y"%char; "x"%char] /\
  free_lower s = [].
Proof. vm_compute. auto. Qed.

(** The hypotheses of the linked case hold for h^1_1 with one amplitude paired
    with h and one that is not, and this term gets the letters z, y and w. *)
Example C55_linked_example :
  let us := [mkt 0 0 1 0; mkt 1 0 1 0] in
  let s := "\bar{f}\frac{1}{2!}\bh^{\blue{}\red{y}}_{\blue{i}\red{}}\bt^{\blue{i}\red{w}}" in
  let common := "\bt^{\blue{}\red{z}}" in
  contraction 0 3 1 1 us 0 1 /\ Forall (fun t => 1 <= (up t + down t)%nat) us /\
  (exists t, describes 0 3 1 1 us 0 1 t /\ condensed_term 0 3 t s) /\ factor_text (loose us) common /\
  (all_free common ++ all_free s)%list = ["z"%char; "y"%char; "w"%char].
Proof.
  cbv zeta. split; [repeat split|]. split; [repeat constructor|]. split; [|split; [|reflexivity]].
  - eexists. split; [reflexivity|]. exists 1, 1, [mkt 0 0 1 0; mkt 1 0 1 0], 0, 1, [], [2].
    split; [reflexivity|]. split.
    + exists 1. split; [|split; [reflexivity|intros ? []]].
      exists [mkt 1 0 1 0]. split; [repeat constructor; intros []|]. split; [|reflexivity].
      intros t. unfold disconnected. cbn [In]. split.
      * intros [<-|[]]. cbn. intuition discriminate.
      * intros [[<-|[<-|[]]] N]; [|now left]. destruct N. cbn. auto.
    + exists [], ["i"%char], ["y"%char], [], [mktl [] ["i"%char] [] ["w"%char]].
      repeat split. repeat constructor.
  - exists [mktl [] [] [] ["z"%char]]. repeat split. repeat constructor.
Qed.

(** Such terms are generated: the equation of the projection "bbb" prints the
    letter w, though its free indices are z, y and x. *)
Theorem C55_linked_refuted :
  exists omega H cc S e,
    equation_of omega H cc S true false = Ok e /\ g_rank omega = 3 /\
    In "w"%char (all_free (render_equation (g_rank omega) e)) /\
    ~ In "w"%char (letters_from free_letters 0 (g_rank omega)).
Proof.
  exists (mkgop "bbb" 3 0 3), 2, 3, 2. eexists. split; [vm_compute; reflexivity|]. split; [reflexivity|].
  split; [vm_compute; tauto|]. vm_compute. intuition discriminate.
Qed.
Print Assumptions C55_linked_refuted.

(** C56: for a projection with annihilation operators only no free index stands
    below, for one with creation operators only none stands above. *)
Theorem C56_one_kind :
  forall om on hm hn us f fbar t s, contraction om on hm hn us f fbar ->
    Forall (fun t => 1 <= (up t + down t)%nat) us -> describes om on hm hn us f fbar t ->
    plain_term om on t s \/
    (exists common, condensed_term om on t s /\ factor_text (loose us) common /\ (om + on)%nat <= 3) \/
    (1 <= (om + on)%nat /\ without_factor om on (mkt 0 0 on om) t s /\ exists common, factor_text [mkt 0 0 on om] common) ->
    (om = 0 -> free_lower s = []) /\ (on = 0 -> free_upper s = []).
Proof. exact one_kind. Qed.
Print Assumptions C56_one_kind.

(** With both kinds the same letter stands above in one term and below in
    another. *)
Theorem C56_sides_refuted :
  exists omega H cc S e c,
    equation_of omega H cc S false false = Ok e /\ g_rank omega = 2 /\
    let s := render_equation (g_rank omega) e in In c (free_upper s) /\ In c (free_lower s).
Proof.
  exists (mkgop "db" 2 1 1), 2, 2, 1. do 2 eexists. split; [vm_compute; reflexivity|]. split; [reflexivity|].
  split; [vm_compute; left; reflexivity|vm_compute; tauto].
Qed.
Print Assumptions C56_sides_refuted.

(** C57: an accepted truncation is written as LaTeX exactly when the amplitude
    rank or the projection rank is at most 3. *)
Theorem C57_latex_success :
  forall so son sop d H cc S P ground rf,
    set_order so -> set_order son -> set_order sop ->
    is_dict d -> acceptable Fcc d ->
    has_value d KH (Z.of_nat H) -> has_value d KCC (Z.of_nat cc) ->
    has_value d KS (Z.of_nat S) -> has_value d KP (Z.of_nat P) ->
    (cc <= 3 \/ P <= 3 -> exists text, generate_full_cc_latex so son sop H cc S P ground rf = Ok text) /\
    (4 <= cc -> 4 <= P -> generate_full_cc_latex so son sop H cc S P ground rf = Err NotImplementedErr).
Proof.
  intros so son sop d H cc S P ground rf H1 H2 H3 Hd A V1 V2 V3 V4.
  destruct (latex_file so son sop d H cc S P ground rf H1 H2 H3 Hd A V1 V2 V3 V4) as [F G].
  split; [|exact G]. intros X. destruct (F X) as (text & E & _). now exists text.
Qed.
Print Assumptions C57_latex_success.

Theorem C57_refuted :
  exists d, is_dict d /\ acceptable Fcc d /\
    has_value d KH (Z.of_nat 2) /\ has_value d KCC (Z.of_nat 4) /\ has_value d KS (Z.of_nat 1) /\ has_value d KP (Z.of_nat 4) /\
    generate_full_cc_latex same same same 2 4 1 4 true false = Err NotImplementedErr.
Proof.
  destruct (is_accepted large _ _ _ _ eq_refl) as [D A]; try lia.
  exists large. split; [exact D|]. split; [exact A|].
  assert (V : has_value large KH (Z.of_nat 2) /\ has_value large KCC (Z.of_nat 4) /\ has_value large KS (Z.of_nat 1) /\ has_value large KP (Z.of_nat 4))
    by (unfold has_value; cbn; auto 10).
  destruct V as (V1 & V2 & V3 & V4). repeat (split; [assumption|]).
  apply (C57_latex_success same same same large 2 4 1 4 true false); auto using same_order.
Qed.
Print Assumptions C57_refuted.
