(** What TeX reads in the LaTeX of the ground state W operators. *)
From Coq Require Import Permutation Lia.
From Verif Require Import PyBase PyStr ProofsStr ModelHelper ModelLatexW.
From Verif Require Import SpecPartitions SpecW SpecLatexW SpecTex SpecTexW ProofsTex ProofsLatexW ProofsTexW.
Open Scope string_scope.

Definition lift (d : list (nat * nat)) : list ((nat * nat) * nat) :=
  map (fun nk => ((fst nk, 0), snd nk)) d.

Lemma prefactor_lift d : generate_w_prefactor (lift d) = generate_w_prefactor d.
Proof. unfold generate_w_prefactor, lift. now rewrite map_map. Qed.

Lemma render_lift d : Forall (fun nk => 1 <= fst nk) d ->
  render_ground_product d = render_excited_product (lift d).
Proof.
  intros H. unfold render_ground_product, render_excited_product. rewrite prefactor_lift. f_equal.
  f_equal. unfold lift. rewrite map_map. apply map_ext_in. intros [n k] Hin.
  rewrite Forall_forall in H. specialize (H _ Hin). cbn [fst snd] in *.
  cbn [render_ground_factor render_excited_factor fst snd].
  destruct (Nat.eqb_spec n 0) as [->|Hn]; [lia|]. cbn [Nat.eqb].
  destruct (Nat.eqb k 1); [reflexivity|]. now rewrite !append_assoc.
Qed.

Definition row_head (n : nat) : list atom :=
  [Atom (One (Command "bW")) (Some (num n)) None; ch "&"; ch "="].
Definition rhs_atoms (n : nat) (ps : list (list ((nat * nat) * nat))) : list atom :=
  if Nat.ltb 1 n then sym_atoms ps else sum_atoms ps.
Definition row_atoms (n : nat) (ps : list (list ((nat * nat) * nat))) : list atom :=
  (row_head n ++ rhs_atoms n ps)%list.

Lemma row_head_reads n : reads NewLine ("\bW^{" ++ str_nat n ++ "} &= ") Skipping (row_head n).
Proof.
  exists ([Command "bW"] ++ Sup :: (Open :: map Char (chars (str_nat n)) ++ [Close]) ++ [Char "&"; Char "="])%list. split.
  - replace ([Command "bW"] ++ Sup :: (Open :: map Char (chars (str_nat n)) ++ [Close]) ++ [Char "&"; Char "="])%list
      with ([Command "bW"; Sup; Open] ++ map Char (chars (str_nat n)) ++ [Close; Char "&"; Char "="])%list
      by (cbn [app]; now rewrite <- app_assoc).
    apply scan_two with (st1 := Middle); [reflexivity|].
    apply scan_two with (st1 := Middle); [apply scan_number, middle_fresh|reflexivity].
  - replace ([Command "bW"] ++ Sup :: (Open :: map Char (chars (str_nat n)) ++ [Close]) ++ [Char "&"; Char "="])%list
      with (([Command "bW"] ++ Sup :: (Open :: map Char (chars (str_nat n)) ++ [Close])) ++ [Char "&"; Char "="])%list
      by (now rewrite <- app_assoc).
    apply one_more; [|apply (list_text_chars ["&"; "="]%char)].
    apply sup_only; [apply one_token; exact I|apply field_num].
Qed.

Definition good (ps : list (list ((nat * nat) * nat))) : Prop := ps <> [] /\ Forall (fun d => d <> []) ps.

Definition rhs_text (n : nat) (ps : list (list ((nat * nat) * nat))) : string :=
  let line := join " + " (map render_excited_product ps) in
  if Nat.ltb 1 n then "\hat{S}(" ++ line ++ ")" else line.

Lemma rhs_reads n ps st : fresh st -> good ps -> reads st (rhs_text n ps) Middle (rhs_atoms n ps).
Proof.
  intros Hst [Hne H]. unfold rhs_text, rhs_atoms. destruct (Nat.ltb 1 n).
  - apply sym_reads; assumption.
  - apply sum_reads; assumption.
Qed.

Definition next_row (n : nat) (ps : list (list ((nat * nat) * nat))) : string :=
  nl ++ "\\" ++ nl ++ tab ++ "\bW^{" ++ str_nat n ++ "} &= " ++ rhs_text n ps.

Lemma next_row_reads n ps : good ps -> reads Middle (next_row n ps) Middle (cmd "\" :: row_atoms n ps).
Proof.
  intros H. unfold next_row, row_atoms.
  replace (nl ++ "\\" ++ nl ++ tab ++ "\bW^{" ++ str_nat n ++ "} &= " ++ rhs_text n ps)
    with ((nl ++ "\\" ++ nl ++ tab) ++ ("\bW^{" ++ str_nat n ++ "} &= ") ++ rhs_text n ps)
    by (now rewrite !append_assoc).
  change (cmd "\" :: row_head n ++ rhs_atoms n ps)%list with ([cmd "\"] ++ row_head n ++ rhs_atoms n ps)%list.
  apply reads_app with (st1 := NewLine).
  { exists [Command "\"]. split; [reflexivity|]. apply list_text_one, no_script, one_token. exact I. }
  apply reads_app with (st1 := Skipping); [apply row_head_reads|].
  apply rhs_reads; [right; right; reflexivity|exact H].
Qed.

Definition env (c : string) : list atom := [cmd c; Atom (Group (digits "align")) None None].

Definition table (rows : list (nat * list (list ((nat * nat) * nat)))) : list atom :=
  (env "begin" ++ (row_head 0 ++ [ch "1"]) ++ flat_map (fun r => cmd "\" :: row_atoms (fst r) (snd r)) rows
   ++ env "end")%list.

Lemma env_text c : list_text [Command c; Open; Char "a"; Char "l"; Char "i"; Char "g"; Char "n"; Close] (env c).
Proof.
  change [Command c; Open; Char "a"; Char "l"; Char "i"; Char "g"; Char "n"; Close]
    with ([Command c] ++ (Open :: map Char (chars "align") ++ [Close]))%list.
  apply one_more; [apply no_script, one_token; exact I|].
  apply list_text_one, no_script, group, list_text_chars.
Qed.

Definition table_text (rows : list (nat * list (list ((nat * nat) * nat)))) : string :=
  ("\begin{align}" ++ nl ++ tab) ++ (("\bW^{" ++ str_nat 0 ++ "} &= ") ++ "1")
  ++ concat_str (map (fun r => next_row (fst r) (snd r)) rows) ++ (nl ++ "\end{align}" ++ nl).

Lemma rows_reads rows : Forall (fun r => good (snd r)) rows ->
  reads Middle (concat_str (map (fun r => next_row (fst r) (snd r)) rows)) Middle
        (flat_map (fun r => cmd "\" :: row_atoms (fst r) (snd r)) rows).
Proof.
  induction 1 as [|r rows Hr _ IH]; [apply reads_nil|].
  cbn [map concat_str flat_map]. eapply reads_app; [apply next_row_reads, Hr|exact IH].
Qed.

Lemma reads_formula s st l : reads NewLine s st l -> (forall w, st <> Word w) -> formula s l.
Proof.
  intros [ts [E H]] Hst. unfold formula, tokens. rewrite E. destruct st; try exact H.
  now elim (Hst name).
Qed.

Lemma table_formula rows : Forall (fun r => good (snd r)) rows -> formula (table_text rows) (table rows).
Proof.
  intros H. apply reads_formula with (st := NewLine); [|discriminate].
  unfold table_text, table.
  eapply reads_app with (st1 := NewLine).
  { eexists. split; [reflexivity|apply env_text]. }
  eapply reads_app with (st1 := Middle).
  { eapply reads_app; [apply row_head_reads|]. eexists. split; [reflexivity|apply (list_text_chars ["1"%char])]. }
  eapply reads_app; [apply rows_reads, H|].
  eexists. split; [reflexivity|apply env_text].
Qed.

(** ** The rows are read back *)

Lemma num_rows_glue (x : list atom) (f : nat * list (list ((nat * nat) * nat)) -> list atom) s rows :
  (x ++ flat_map (fun r => s :: f r) rows)%list = glue [s] (x :: map f rows).
Proof.
  revert x. induction rows as [|r rows IH]; intros x.
  - cbn [flat_map map glue]. apply app_nil_r.
  - cbn [flat_map map]. change (glue [s] (x :: f r :: map f rows)) with (x ++ [s] ++ glue [s] (f r :: map f rows))%list.
    rewrite <- IH. cbn [app]. reflexivity.
Qed.

Lemma row_no_row n ps : no_atom (is_command "\") (row_atoms n ps).
Proof.
  unfold row_atoms, row_head, rhs_atoms. apply no_atom_app; [reflexivity|].
  destruct (Nat.ltb 1 n); [|apply sum_no_row].
  unfold sym_atoms. apply no_atom_app; [reflexivity|]. apply no_atom_app; [apply sum_no_row|reflexivity].
Qed.

Lemma table_rows rows :
  align_read (table rows)
  = Some ((row_head 0 ++ [ch "1"])%list :: map (fun r => row_atoms (fst r) (snd r)) rows).
Proof.
  unfold table.
  assert (P : forall body, align_read (env "begin" ++ body ++ env "end")
              = Some (separated (is_command "\") body)).
  { intros body. change (env "begin" ++ body ++ env "end")%list
      with (cmd "begin" :: Atom (Group (digits "align")) None None :: (body ++ env "end"))%list.
    cbn [align_read]. rewrite rev_app_distr. cbn [env rev app].
    rewrite rev_involutive. reflexivity. }
  rewrite (app_assoc (row_head 0 ++ [ch "1"])), P. f_equal.
  rewrite (num_rows_glue (row_head 0 ++ [ch "1"]) (fun r => row_atoms (fst r) (snd r))).
  apply separated_glue; [reflexivity| |discriminate].
  constructor; [reflexivity|]. apply Forall_map, Forall_forall. intros r _. apply row_no_row.
Qed.

Definition rhs_read (n : nat) (ps : list (list ((nat * nat) * nat))) : right_side :=
  if Nat.ltb 1 n then Symmetrised (map printed ps) else Sum (map printed ps).

Lemma row_read_rhs n l :
  row_read (row_head n ++ l) = match right_side_read l with Some s => Some (n, s) | None => None end.
Proof. unfold row_head. cbn [app row_read]. rewrite number_num. reflexivity. Qed.

Lemma row_read_small n ps : good ps -> Forall small ps -> row_read (row_atoms n ps) = Some (n, rhs_read n ps).
Proof.
  intros [Hne H] Hs. unfold row_atoms. rewrite row_read_rhs. unfold rhs_atoms, rhs_read.
  destruct (Nat.ltb 1 n).
  - now rewrite right_side_sym, (sum_read_small ps Hne H Hs).
  - now rewrite (right_side_sum ps Hne H), (sum_read_small ps Hne H Hs).
Qed.

Lemma row_read_large n ps : good ps -> Exists large ps -> row_read (row_atoms n ps) = None.
Proof.
  intros [Hne H] Hs. unfold row_atoms. rewrite row_read_rhs. unfold rhs_atoms.
  destruct (Nat.ltb 1 n).
  - now rewrite right_side_sym, (sum_read_large ps Hs).
  - now rewrite (right_side_sum ps Hne H), (sum_read_large ps Hs).
Qed.

Lemma first_row_read : row_read (row_head 0 ++ [ch "1"]) = Some (0, Unit).
Proof. reflexivity. Qed.

Lemma table_small rows : Forall (fun r => good (snd r)) rows -> Forall (fun r => Forall small (snd r)) rows ->
  w_equations (table_text rows) ((0, Unit) :: map (fun r => (fst r, rhs_read (fst r) (snd r))) rows).
Proof.
  intros H Hs. exists (table rows). eexists. split; [apply table_formula, H|]. split; [apply table_rows|].
  cbn [every]. rewrite first_row_read, every_map.
  rewrite (every_some _ (fun r => (fst r, rhs_read (fst r) (snd r)))); [reflexivity|].
  rewrite Forall_forall in *. intros r Hr. apply row_read_small; [apply H, Hr|apply Hs, Hr].
Qed.

Lemma table_large rows : Forall (fun r => good (snd r)) rows -> Exists (fun r => Exists large (snd r)) rows ->
  forall eqs, ~ w_equations (table_text rows) eqs.
Proof.
  intros H Hl eqs [l [ls [F [A E]]]].
  rewrite (formula_functional _ _ _ F (table_formula rows H)) in A.
  rewrite table_rows in A.
  assert (A' : every row_read ((row_head 0 ++ [ch "1"])%list :: map (fun r => row_atoms (fst r) (snd r)) rows) = Some eqs)
    by congruence.
  clear E A. rename A' into E. cbn [every] in E. rewrite first_row_read, every_map, every_none in E; [discriminate|].
  apply Exists_exists in Hl. destruct Hl as [r [Hr Hl]]. apply Exists_exists. exists r. split; [exact Hr|].
  rewrite Forall_forall in H. apply row_read_large; [apply H, Hr|exact Hl].
Qed.

Lemma w_equations_unique text r r' : w_equations text r -> w_equations text r' -> r = r'.
Proof.
  intros [l [ls [F [A E]]]] [l' [ls' [F' [A' E']]]].
  rewrite (formula_functional _ _ _ F F') in A. rewrite A in A'. injection A' as <-.
  rewrite E in E'. now injection E'.
Qed.

(** ** The ground state text *)

Definition ground_rows so max : list (nat * list (list ((nat * nat) * nat))) :=
  map (fun kt : nat * list (list (nat * nat)) => (fst kt, map lift (snd kt))) (ground_state_terms so max).

Lemma powers_parts_pos (p : list nat) d n : partition_of n p -> written_with_powers p d ->
  Forall (fun nk : nat * nat => 1 <= fst nk) d.
Proof.
  intros Hp [_ [Hk HP]]. apply Forall_forall. intros [x k] Hin.
  rewrite Forall_forall in Hk. specialize (Hk _ Hin). cbn [snd fst] in *.
  assert (Hx : In x p).
  { apply (Permutation_in _ HP). unfold multiply_out. apply in_flat_map. exists (x, k).
    split; [exact Hin|]. cbn. destruct k; [lia|]. now left. }
  destruct Hp as [[Hpos _] _]. rewrite Forall_forall in Hpos. apply Hpos in Hx. lia.
Qed.

Lemma powers_nonempty (p : list nat) d n : 1 <= n -> partition_of n p -> written_with_powers p d -> d <> [].
Proof.
  intros Hn [[_ Hs] _] [_ [_ HP]] ->. cbn in HP. apply Permutation_nil in HP. subst p. cbn in Hs. lia.
Qed.

Lemma powers_bound {A} (p : list A) d : written_with_powers p d ->
  Forall (fun nk : A * nat => snd nk <= List.length p) d.
Proof.
  intros [_ [_ HP]]. apply Forall_forall. intros [x k] Hin. cbn [snd].
  rewrite <- (Permutation_length HP). apply in_split in Hin. destruct Hin as [l1 [l2 ->]].
  unfold multiply_out. rewrite flat_map_app, app_length. cbn [flat_map]. rewrite app_length.
  cbn [fst snd]. rewrite repeat_length. lia.
Qed.

Lemma composition_length (c : list nat) : Forall (fun x => 1 <= x) c -> List.length c <= fold_right Nat.add 0 c.
Proof. induction 1 as [|x c Hx _ IH]; cbn; lia. Qed.

Lemma ground_rows_exact so max : set_order so ->
  map fst (ground_state_terms so max) = seq 1 max /\
  forall n products, In (n, products) (ground_state_terms so max) ->
    exists ps, NoDup ps /\ (forall p, In p ps <-> partition_of n p) /\
      Forall2 (fun p d => written_with_powers p d /\
                 orderings_over_factorial p (product_of_factorials (generate_w_prefactor d)))
              ps products.
Proof. intros H. exact (ground_state_exact so max H). Qed.

Lemma Forall2_In_r {A B} (R : A -> B -> Prop) l m y : Forall2 R l m -> In y m -> exists x, In x l /\ R x y.
Proof.
  induction 1 as [|a b l m Hab _ IH]; intros Hin; [destruct Hin|].
  destruct Hin as [<-|Hin]; [exists a; split; [now left|exact Hab]|].
  destruct (IH Hin) as [x [Hx Rx]]. exists x. split; [now right|exact Rx].
Qed.
Lemma Forall2_In_l {A B} (R : A -> B -> Prop) l m x : Forall2 R l m -> In x l -> exists y, In y m /\ R x y.
Proof.
  induction 1 as [|a b l m Hab _ IH]; intros Hin; [destruct Hin|].
  destruct Hin as [<-|Hin]; [exists b; split; [now left|exact Hab]|].
  destruct (IH Hin) as [y [Hy Rx]]. exists y. split; [now right|exact Rx].
Qed.

Lemma partition_all_ones n : partition_of n (repeat 1 n).
Proof.
  split; [split|].
  - apply Forall_forall. intros x Hx. apply repeat_spec in Hx. lia.
  - induction n as [|n IH]; cbn; lia.
  - induction n as [|n IH]; [constructor|]. cbn [repeat]. constructor; [exact IH|].
    destruct n; cbn; constructor; lia.
Qed.

(** every row has products, each of them with factors *)
Lemma ground_rows_good so max : set_order so -> Forall (fun r => good (snd r)) (ground_rows so max).
Proof.
  intros Hso. destruct (ground_rows_exact so max Hso) as [Hk He]. apply Forall_forall. intros r Hr.
  unfold ground_rows in Hr. apply in_map_iff in Hr. destruct Hr as [[n products] [<- Hin]]. cbn [snd fst].
  assert (Hn : 1 <= n).
  { assert (In n (seq 1 max)) as Hs by (rewrite <- Hk; apply in_map_iff; exists (n, products); auto).
    apply in_seq in Hs. lia. }
  destruct (He n products Hin) as [ps [_ [Hps HF]]]. split.
  - destruct (Forall2_In_l _ _ _ _ HF (proj2 (Hps (repeat 1 n)) (partition_all_ones n))) as [d [Hd _]].
    destruct products; [destruct Hd|discriminate].
  - apply Forall_map, Forall_forall. intros d Hd.
    destruct (Forall2_In_r _ _ _ _ HF Hd) as [p [Hp [Hw _]]].
    pose proof (powers_nonempty p d n Hn (proj1 (Hps p) Hp) Hw) as Hne.
    destruct d; [now elim Hne|discriminate].
Qed.

Lemma ground_text so max : set_order so ->
  ground_state_w_equations_latex so max = table_text (ground_rows so max).
Proof.
  intros Hso. destruct (ground_rows_exact so max Hso) as [_ He].
  unfold ground_state_w_equations_latex, render_ground_state, table_text, ground_rows.
  rewrite map_map.
  replace (concat_str (map (fun r => next_row (fst (fst r, map lift (snd r))) (snd (fst r, map lift (snd r)))) (ground_state_terms so max)))
    with (concat_str (map (fun kt : nat * list (list (nat * nat)) =>
       let line := join " + " (map render_ground_product (snd kt)) in
       nl ++ "\\" ++ nl ++ tab ++ "\bW^{" ++ str_nat (fst kt) ++ "} &= "
       ++ (if Nat.ltb 1 (fst kt) then "\hat{S}(" ++ line ++ ")" else line)) (ground_state_terms so max))).
  - rewrite !append_assoc. reflexivity.
  - f_equal. apply map_ext_in. intros [n products] Hin. cbn [fst snd]. unfold next_row, rhs_text.
    rewrite map_map.
    replace (map (fun x => render_excited_product (lift x)) products) with (map render_ground_product products);
      [reflexivity|].
    destruct (He n products Hin) as [ps [_ [Hps HF]]]. apply map_ext_in. intros d Hd.
    destruct (Forall2_In_r _ _ _ _ HF Hd) as [p [Hp [Hw _]]].
    apply render_lift, (powers_parts_pos p d n); [apply Hps, Hp|exact Hw].
Qed.

Lemma ground_small so max : set_order so -> max <= 9 ->
  Forall (fun r => Forall small (snd r)) (ground_rows so max).
Proof.
  intros Hso Hmax. destruct (ground_rows_exact so max Hso) as [Hk He]. apply Forall_forall. intros r Hr.
  unfold ground_rows in Hr. apply in_map_iff in Hr. destruct Hr as [[n products] [<- Hin]]. cbn [snd fst].
  assert (Hn : n <= 9).
  { assert (In n (seq 1 max)) as Hs by (rewrite <- Hk; apply in_map_iff; exists (n, products); auto).
    apply in_seq in Hs. lia. }
  destruct (He n products Hin) as [ps [_ [Hps HF]]].
  apply Forall_map, Forall_forall. intros d Hd.
  destruct (Forall2_In_r _ _ _ _ HF Hd) as [p [Hp [Hw _]]].
  apply Hps in Hp. destruct Hp as [[Hpos Hsum] _]. pose proof (composition_length p Hpos) as Hl.
  unfold small, lift. apply Forall_map. cbn [snd].
  refine (Forall_impl _ _ (powers_bound p d Hw)). intros a Ha. lia.
Qed.

Lemma powers_of_ones n d : 1 <= n -> written_with_powers (repeat 1 n) d -> d = [(1, n)].
Proof.
  intros Hn [Hnd [Hpos HP]].
  assert (H1 : Forall (fun xk : nat * nat => fst xk = 1) d).
  { apply Forall_forall. intros [x k] Hin. cbn. rewrite Forall_forall in Hpos. specialize (Hpos _ Hin). cbn in Hpos.
    apply (repeat_spec n 1). apply (Permutation_in _ HP). unfold multiply_out. apply in_flat_map.
    exists (x, k). split; [exact Hin|]. cbn. destruct k; [lia|now left]. }
  destruct d as [|[x k] [|[y j] d]].
  - cbn in HP. apply Permutation_length in HP. rewrite repeat_length in HP. cbn in HP. lia.
  - inversion H1 as [|? ? E _]; subst. cbn in E. subst x.
    apply Permutation_length in HP. unfold multiply_out in HP. cbn in HP.
    rewrite app_length, !repeat_length in HP. cbn in HP. repeat f_equal. lia.
  - inversion H1 as [|? ? E H2]; subst. inversion H2 as [|? ? F _]; subst. cbn in E, F. subst.
    inversion Hnd as [|? ? Hni _]; subst. elim Hni. now left.
Qed.

Lemma ground_large so max : set_order so -> 10 <= max ->
  Exists (fun r => Exists large (snd r)) (ground_rows so max).
Proof.
  intros Hso Hmax. destruct (ground_rows_exact so max Hso) as [Hk He].
  assert (Hin : In 10 (map fst (ground_state_terms so max))) by (rewrite Hk; apply in_seq; lia).
  apply in_map_iff in Hin. destruct Hin as [[n products] [E Hin]]. cbn in E. subst n.
  destruct (He 10 products Hin) as [ps [_ [Hps HF]]].
  destruct (Forall2_In_l _ _ _ _ HF (proj2 (Hps (repeat 1 10)) (partition_all_ones 10))) as [d [Hd [Hw _]]].
  apply powers_of_ones in Hw; [|lia]. subst d.
  apply Exists_exists. exists (10, map lift products). split.
  - unfold ground_rows. apply in_map_iff. exists (10, products). auto.
  - cbn [snd]. apply Exists_exists. exists (lift [(1, 10)]). split; [apply in_map, Hd|].
    apply Exists_cons_hd. cbn. lia.
Qed.

(** ** Main statements *)

Lemma powers_lift p d : written_with_powers p d -> written_with_powers (map (fun n => (n, 0)) p) (lift d).
Proof.
  intros [Hnd [Hpos HP]]. unfold lift. split; [|split].
  - rewrite map_map. cbn [fst]. rewrite <- (map_map fst (fun n => (n, 0))).
    apply FinFun.Injective_map_NoDup; [|exact Hnd]. intros a b E. congruence.
  - apply Forall_map. exact Hpos.
  - assert (E : multiply_out (map (fun nk : nat * nat => ((fst nk, 0), snd nk)) d)
                = map (fun n => (n, 0)) (multiply_out d)).
    { clear. unfold multiply_out. induction d as [|[x k] d IH]; [reflexivity|].
      cbn [map flat_map fst snd]. rewrite map_app, IH. f_equal.
      induction k as [|k IHk]; [reflexivity|]. cbn. now rewrite IHk. }
    rewrite E. apply Permutation_map, HP.
Qed.

Lemma Forall2_map_r {A B C} (R : A -> C -> Prop) (f : B -> C) l m :
  Forall2 (fun a b => R a (f b)) l m -> Forall2 R l (map f m).
Proof. induction 1; cbn; constructor; assumption. Qed.

Lemma Forall2_imp {A B} (R S : A -> B -> Prop) l m :
  (forall a b, R a b -> S a b) -> Forall2 R l m -> Forall2 S l m.
Proof. intros H. induction 1; constructor; auto. Qed.

Lemma Forall2_seq_rows {A} (R : nat -> A -> Prop) (rows : list A) (key : A -> nat) max :
  map key rows = seq 1 max -> (forall r, In r rows -> R (key r) r) -> Forall2 R (seq 1 max) rows.
Proof.
  intros <- H. induction rows as [|r rows IH]; constructor.
  - apply H. now left.
  - apply IH. intros x Hx. apply H. now right.
Qed.

Theorem ground_typeset so max : set_order so -> max <= 9 ->
  exists rows,
    w_equations (ground_state_w_equations_latex so max) ((0, Unit) :: rows) /\
    Forall2 (fun n row => exists ps products,
               row = (n, if Nat.eqb n 1 then Sum products else Symmetrised products) /\
               NoDup ps /\ (forall p, In p ps <-> partition_of n p) /\
               Forall2 (fun p pr => written_with_powers (map (fun k => (k, 0)) p) (snd pr) /\
                          orderings_over_factorial p (product_of_factorials (fst pr)))
                       ps products)
            (seq 1 max) rows.
Proof.
  intros Hso Hmax. eexists. split.
  - rewrite (ground_text so max Hso). apply table_small; [apply ground_rows_good, Hso|apply ground_small; assumption].
  - destruct (ground_rows_exact so max Hso) as [Hk He].
    apply (Forall2_seq_rows _ _ fst).
    + unfold ground_rows. rewrite !map_map. cbn [fst]. exact Hk.
    + intros row Hr. apply in_map_iff in Hr. destruct Hr as [[n ps'] [<- Hr]].
      unfold ground_rows in Hr. apply in_map_iff in Hr. destruct Hr as [[m products] [E Hin]].
      cbn [fst snd] in *. injection E as <- <-.
      assert (Hn : 1 <= m).
      { assert (In m (seq 1 max)) as Hs by (rewrite <- Hk; apply in_map_iff; exists (m, products); auto).
        apply in_seq in Hs. lia. }
      destruct (He m products Hin) as [ps [Hnd [Hps HF]]].
      exists ps, (map printed (map lift products)). split; [|split; [exact Hnd|split; [exact Hps|]]].
      * f_equal. unfold rhs_read. destruct m as [|[|m]]; [lia|reflexivity|reflexivity].
      * apply Forall2_map_r, Forall2_map_r. refine (Forall2_imp _ _ _ _ _ HF).
        intros p d [Hw Ho]. unfold printed. cbn [fst snd]. split; [apply powers_lift, Hw|].
        rewrite prefactor_lift. exact Ho.
Qed.

Theorem ground_typeset_iff so max : set_order so ->
  ((exists eqs, w_equations (ground_state_w_equations_latex so max) eqs) <-> max <= 9).
Proof.
  intros Hso. split.
  - intros [eqs H]. destruct (le_lt_dec max 9) as [|Hl]; [assumption|]. exfalso.
    rewrite (ground_text so max Hso) in H.
    exact (table_large _ (ground_rows_good so max Hso) (ground_large so max Hso Hl) eqs H).
  - intros H. destruct (ground_typeset so max Hso H) as [rows [Hr _]]. eauto.
Qed.
