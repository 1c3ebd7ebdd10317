(** The generated module of the residuals is a program, and what its functions
    add. *)
From Coq Require Import List Arith Lia Bool Ascii String Permutation.
From Verif Require Import PyBase PyBaseFacts PyStr ModelHelper SpecPartitions SpecW SpecDt SpecResidual SpecPython SpecEtText SpecSumText SpecWText SpecResidualText
  ModelW ModelDt ModelResidual ProofsResidual ProofsPython ProofsParse ProofsWText.
Import ListNotations.
Local Open Scope nat_scope.
Local Open Scope list_scope.

(** ** The statements a body is printed as *)
Definition stext (a : radd) : string :=
  match a with
  | RPlain p h => add_array (render_p_term p) h
  | REinsum p hd wd od h w => add_contraction (render_p_term p) hd wd od h w
  end.
Definition added (l : list radd) : list stmt := map (fun a => Simple (stext a)) l.
Definition is_given (k : nat) : string := (w_name k ++ " is not None")%string.
Fixpoint qstmts (l : list qitem) : list stmt :=
  match l with
  | [] => []
  | QIf k a :: r =>
      match r with
      | QElse b :: r' => If (is_given k) (added [a]) (added [b]) :: qstmts r'
      | _ => If (is_given k) (added [a]) [] :: qstmts r
      end
  | QElse a :: r => []
  end.
Definition rstmts (s : rstmt) : list stmt :=
  match s with
  | SAdd a => added [a]
  | SQuad items => [If "truncation.quadratic" (qstmts items) []]
  | SIfW k l => [If (is_given k) (added l) []]
  end.
Lemma exec_added flag l : exec flag (added l) = map stext l.
Proof. unfold added. rewrite <- (map_map stext Simple). apply exec_simple. Qed.
Lemma exec_if flag c yes no rest : exec flag (If c yes no :: rest) = exec flag (if flag c then yes else no) ++ exec flag rest.
Proof. cbn [exec flat_map exec1]. now destruct (flag c). Qed.

Lemma qstmts_ok flag : forall n items l, List.length items <= n -> run_qitems (given flag) None items = Ok l -> exec flag (qstmts items) = map stext l.
Proof.
  induction n as [|n IH]; intros items l L R.
  - destruct items; [|cbn in L; lia]. injection R as <-. reflexivity.
  - destruct items as [|[k a|a] items]; [injection R as <-; reflexivity| |discriminate].
    assert (N : forall x, (forall b r, items <> QElse b :: r) -> run_qitems (given flag) x items = run_qitems (given flag) None items).
    { intros x H. destruct items as [|[k' a'|b] r]; [reflexivity|reflexivity|]. now destruct (H b r). }
    cbn [run_qitems] in R. cbn [qstmts].
    destruct items as [|[k' a'|b] r].
    + cbn in R. injection R as <-. rewrite exec_if. change (flag (is_given k)) with (given flag k). destruct (given flag k); reflexivity.
    + rewrite N in R by discriminate. destruct (run_qitems (given flag) None (QIf k' a' :: r)) as [rest|] eqn:E; cbn [bind] in R; [|discriminate].
      injection R as <-. rewrite exec_if, (IH (QIf k' a' :: r) rest); [|cbn in L |- *; lia|exact E]. change (flag (is_given k)) with (given flag k).
      destruct (given flag k); reflexivity.
    + cbn [run_qitems] in R. destruct (run_qitems (given flag) None r) as [rest|] eqn:E; cbn [bind] in R; [|discriminate].
      injection R as <-. rewrite exec_if, (IH r rest); [|cbn in L; lia|exact E]. change (flag (is_given k)) with (given flag k).
      destruct (given flag k); reflexivity.
Qed.
Lemma rstmts_ok flag body : forall l, run_rstmts (flag "truncation.quadratic"%string) (given flag) body = Ok l -> exec flag (flat_map rstmts body) = map stext l.
Proof.
  induction body as [|s body IH]; intros l R; [injection R as <-; reflexivity|]. cbn [flat_map]. rewrite exec_app.
  destruct s as [a|items|k l']; cbn [run_rstmts] in R.
  - destruct (run_rstmts _ _ body) as [rest|]; cbn [bind] in R; [|discriminate]. injection R as <-. rewrite (IH rest eq_refl). reflexivity.
  - destruct (run_qitems (given flag) None items) as [here|] eqn:E; cbn [bind] in R; [|discriminate].
    destruct (run_rstmts _ _ body) as [rest|]; cbn [bind] in R; [|discriminate]. injection R as <-. rewrite (IH rest eq_refl).
    cbn [rstmts]. rewrite exec_if, app_nil_r. destruct (flag "truncation.quadratic"%string); [|reflexivity].
    rewrite (qstmts_ok flag _ items here (le_n _) E). now rewrite map_app.
  - destruct (run_rstmts _ _ body) as [rest|]; cbn [bind] in R; [|discriminate]. injection R as <-. rewrite (IH rest eq_refl).
    cbn [rstmts]. rewrite exec_if, app_nil_r. change (flag (is_given k)) with (given flag k). destruct (given flag k); [|reflexivity].
    rewrite exec_added. now rewrite map_app.
Qed.

(** ** The program *)
Definition rfun (r p : nat) : res residual_fun :=
  do st <- generate_residual_string_list (residual_hamiltonian r) p; write_residual_function (snd st) p.
Definition rbody (r p : nat) : list rstmt := match rfun r p with Ok f => rf_body f | Err _ => [] end.
Definition doc_of (p : nat) : string := (triple ++ "Calculate the " ++ str_nat p ++ " order residual as a function of the W operators." ++ triple)%string.
Definition check_of (p : nat) : string :=
  ("assert truncation." ++ rank_name (Nat.max 1 p) ++ ",         f""Cannot calculate order " ++ str_nat p ++ " residual for {truncation.cc_truncation_order}""")%string.
Definition rintro (p : nat) : list string :=
  [doc_of p; "h_ab, h_abI, h_abi, h_abIj, h_abIJ, h_abij = h_args"%string; unpack_text (map w_name (seq 1 (p + 2))) "w_args";
   ("R = np.zeros(" ++ amp_shape p ++ ", dtype=complex)")%string; check_of p].
Definition rdef (r p : nat) : stmt :=
  Block (residual_head p) (map Simple (rintro p) ++ flat_map rstmts (rbody r p) ++ [Simple "return R"%string]).
Definition rprog (M r : nat) : list stmt := map Simple residual_imports ++ map (rdef r) (seq 0 (M + 1)).
Definition rtext (M r : nat) : string := match generate_residual_equations_file M r with Ok t => t | Err _ => ""%string end.

Lemma rfile_read M r : M <= 6 -> r <= 2 -> generate_residual_equations_file M r = Ok (rtext M r) /\ parse_lines 0 (lines_of (joined (rtext M r))) = Some (rprog M r).
Proof.
  intros HM Hr. destruct M as [|[|[|[|[|[|[|?]]]]]]]; try (exfalso; lia); (destruct r as [|[|[|?]]]; try (exfalso; lia)); (split; vm_compute; reflexivity).
Qed.

(** ** What is added *)
Definition coefb (p m n : nat) (a : radd) : bool :=
  negb (Nat.eqb (snd (radd_value a)) 0) &&
  Nat.eqb (fst (radd_value a) * (fact_spec (p - m) * fact_spec n * fact_spec m)) (snd (radd_value a)).
Definition fullb (p : nat) (mn : nat * nat) (a : radd) : bool := add_okb p (fst mn) (snd mn) a && coefb p (fst mn) (snd mn) a.
Definition pair_eqb (a b : nat * nat) : bool := Nat.eqb (fst a) (fst b) && Nat.eqb (snd a) (snd b).
Lemma pair_eqb_eq a b : pair_eqb a b = true -> a = b.
Proof. destruct a, b. unfold pair_eqb. cbn [fst snd]. rewrite andb_true_iff, !Nat.eqb_eq. now intros [-> ->]. Qed.
Fixpoint terms_of (r p : nat) (l : list radd) : option (list (nat * nat)) :=
  match l with
  | [] => Some []
  | a :: l => match find (fun mn => fullb p mn a) (residual_pairs r p), terms_of r p l with Some mn, Some ms => Some (mn :: ms) | _, _ => None end
  end.
Lemma terms_of_ok r p l : forall ms, terms_of r p l = Some ms -> Forall2 (fun mn a => fullb p mn a = true) ms l.
Proof.
  induction l as [|a l IH]; intros ms E; cbn [terms_of] in E; [injection E as <-; constructor|].
  destruct (find _ _) as [mn|] eqn:F; [|discriminate]. destruct (terms_of r p l) as [ms'|]; [|discriminate]. injection E as <-.
  constructor; [|now apply IH]. now apply find_some in F.
Qed.
Definition sum_check (r p : nat) : bool :=
  forallb (fun q => forallb (fun bs =>
    let avail := fun k => nth (k - 1) bs false in
    match run_rstmts q avail (rbody r p) with
    | Err _ => false
    | Ok l => match terms_of r p l with
              | None => false
              | Some ms => permb pair_eqb ms (filter (fun mn => actually_active q avail p (fst mn) (snd mn)) (residual_pairs r p))
              end
    end) (bool_lists (p + 2))) [true; false].
Lemma sum_checked r p : r <= 2 -> p <= 4 -> sum_check r p = true.
Proof.
  intros Hr Hp. destruct p as [|[|[|[|[|?]]]]]; try (exfalso; lia); (destruct r as [|[|[|?]]]; try (exfalso; lia)); vm_compute; reflexivity.
Qed.
Lemma keys_small r p k : r <= 2 -> p <= 6 -> In k (flat_map stmt_keys (rbody r p)) -> 1 <= k <= p + 2.
Proof.
  intros Hr Hp I. pose proof (body_checked r p Hr Hp) as H. unfold body_check in H. fold (rfun r p) in H. unfold rbody in I.
  destruct (rfun r p) as [f|]; [|discriminate]. repeat (apply andb_true_iff in H as [H ?]).
  match goal with X : forallb _ (flat_map stmt_keys _) = true |- _ => rename X into X0 end.
  rewrite forallb_forall in X0. specialize (X0 k I). apply andb_true_iff in X0 as [X Y].
  apply Nat.leb_le in X. apply Nat.leb_le in Y. lia.
Qed.
Definition handed (flag : string -> bool) (p : nat) : list bool := map (given flag) (seq 1 (p + 2)).
Lemma handed_nth flag p k : 1 <= k <= p + 2 -> nth (k - 1) (handed flag p) false = given flag k.
Proof.
  intros K. unfold handed. rewrite (nth_indep _ false (given flag 0)) by (rewrite map_length, seq_length; lia).
  rewrite map_nth, seq_nth by lia. f_equal. lia.
Qed.
Lemma handed_run flag r p : r <= 2 -> p <= 6 ->
  run_rstmts (flag "truncation.quadratic"%string) (given flag) (rbody r p)
  = run_rstmts (flag "truncation.quadratic"%string) (fun k => nth (k - 1) (handed flag p) false) (rbody r p).
Proof. intros Hr Hp. apply run_rstmts_ext. intros k I. symmetry. apply handed_nth. now apply (keys_small r p). Qed.

(** The h^2 term of the orders two and three is in an else. *)
Definition done (flag : string -> bool) (p : nat) (mn : nat * nat) : bool :=
  actually_active (flag "truncation.quadratic"%string) (given flag) p (fst mn) (snd mn).
Lemma sum_exact flag r p : r <= 2 -> p <= 4 ->
  exists l ms, run_rstmts (flag "truncation.quadratic"%string) (given flag) (rbody r p) = Ok l /\
    Forall2 (fun mn a => fullb p mn a = true) ms l /\ Permutation ms (filter (done flag p) (residual_pairs r p)).
Proof.
  intros Hr Hp. pose proof (sum_checked r p Hr Hp) as H. unfold sum_check in H. rewrite forallb_forall in H.
  specialize (H (flag "truncation.quadratic"%string) ltac:(destruct (flag "truncation.quadratic"%string); cbn; tauto)). rewrite forallb_forall in H.
  specialize (H (handed flag p) ltac:(apply in_bool_lists; unfold handed; now rewrite map_length, seq_length)). cbv zeta in H.
  rewrite handed_run by lia. destruct (run_rstmts _ _ (rbody r p)) as [l|]; [|discriminate].
  destruct (terms_of r p l) as [ms|] eqn:T; [|discriminate]. exists l, ms. split; [reflexivity|]. split; [now apply terms_of_ok in T|].
  apply permb_perm in H; [|exact pair_eqb_eq]. erewrite filter_ext_pairs; [exact H|]. intros [m n] I. apply in_residual_pairs in I.
  unfold done. cbn [fst snd]. unfold actually_active, term_active, w_available. destruct (Nat.eqb m 2 && _).
  - now rewrite handed_nth by lia.
  - destruct (Nat.leb_spec (p - m + n) 1); [reflexivity|]. now rewrite handed_nth by lia.
Qed.

Lemma value_text a : let w := match a with RPlain t _ => render_p_term t | REinsum t _ _ _ _ _ => render_p_term t end in
  fraction_text (fst (radd_value a)) (snd (radd_value a)) w.
Proof. destruct a as [t h|t hd wd od h w]; destruct t; cbn [radd_value p_value fst snd render_p_term]; constructor. Qed.
Lemma fullb_adds p mn a : fullb p mn a = true -> adds_term p mn (stext a).
Proof.
  destruct mn as [m n]. unfold fullb, add_okb, coefb. cbn [fst snd]. rewrite !andb_true_iff. intros [[K L] [D V]].
  apply negb_true_iff, Nat.eqb_neq in D. apply Nat.eqb_eq in V. apply key_eqb_eq in K. unfold adds_term.
  exists (fst (radd_value a)), (snd (radd_value a)). pose proof (value_text a) as F. cbv zeta in F.
  unfold residual_key in K. cbn [fst snd] in K. destruct a as [t h|t hd wd od h w]; cbn [radd_key] in K; injection K as K1 K2; eexists; (split; [exact F|]); (split; [split; assumption|]).
  - left. apply Nat.eqb_eq in L. split; [exact L|]. cbn [stext]. now rewrite K1.
  - right. assert (N : p - m + n <> 0 /\ w = w_name (p - m + n)) by (destruct (p - m + n); [discriminate|injection K2 as ->; split; [discriminate|reflexivity]]).
    split; [apply N|]. exists hd, wd, od. split; [now apply labels_okb_ok in L|]. cbn [stext]. rewrite K1. f_equal. apply N.
Qed.

(** ** The functions *)
Lemma rprog_run M r p flag l : r <= 2 -> p <= M ->
  run_rstmts (flag "truncation.quadratic"%string) (given flag) (rbody r p) = Ok l ->
  residual_runs (rprog M r) flag p (map stext l).
Proof.
  intros Hr Hp R. eexists. exists (doc_of p), (check_of p). split.
  - apply in_or_app. right. apply in_map_iff. exists p. split; [reflexivity|apply in_seq; lia].
  - split; [|split].
    + rewrite !exec_app, exec_simple, (rstmts_ok flag _ l R). reflexivity.
    + reflexivity.
    + unfold check_of. clear. generalize (rank_name (Nat.max 1 p)). intros s. cbn [append String.prefix]. 
      repeat match goal with |- (if ascii_dec ?a ?b then _ else _) = true => destruct (ascii_dec a b); [|congruence] end.
      induction s as [|c s IH]; [reflexivity|]. cbn [append String.prefix]. destruct (ascii_dec c c); [exact IH|congruence].
Qed.

Lemma residual_total M r : (exists text, generate_residual_equations_file M r = Ok text) <-> M <= 6 /\ r <= 2.
Proof.
  split.
  - intros (t & E). assert (R : r <= 2).
    { destruct (le_lt_dec r 2) as [H|H]; [exact H|]. destruct (residual_file_rank3_fails r M) as (e & X); [lia|]. congruence. }
    split; [|exact R]. destruct (le_lt_dec M 6) as [H|H]; [exact H|exfalso]. unfold generate_residual_equations_file in E.
    destruct (generate_residual_data _ M) as [data|]; [|discriminate]. cbn [bind] in E.
    destruct (mapM _ (range 0 (M + 1))) as [fs|] eqn:F; [|discriminate].
    destruct (mapM_in _ _ _ 7 F) as (y & Y & _); [apply in_range; lia|]. destruct (py_nth (snd data) 7) as [ts|]; [|discriminate]. cbn [bind] in Y.
    destruct (residual_order7_fails ts 7) as (e & X); [lia|]. rewrite X in Y. discriminate.
  - intros [HM Hr]. eexists. now apply rfile_read.
Qed.
Lemma rprog_unique M r text prog : generate_residual_equations_file M r = Ok text -> python (joined text) prog -> prog = rprog M r /\ M <= 6 /\ r <= 2.
Proof.
  intros G P. destruct (proj1 (residual_total M r) (ex_intro _ _ G)) as [HM Hr]. destruct (rfile_read M r HM Hr) as [G' R]. split; [|auto].
  assert (text = rtext M r) as -> by (rewrite G in G'; now apply ok_inj in G'). apply (python_functional _ _ _ P), parse_python, R.
Qed.

Lemma residual_file_program M r :
  ((exists text, generate_residual_equations_file M r = Ok text) <-> M <= 6 /\ r <= 2) /\
  (forall text, generate_residual_equations_file M r = Ok text ->
     exists prog, python (joined text) prog /\ (forall flag, exec flag prog = residual_imports) /\
       heads prog = map residual_head (seq 0 (M + 1)) /\ NoDup (heads prog)).
Proof.
  split; [apply residual_total|]. intros text G. destruct (proj1 (residual_total M r) (ex_intro _ _ G)) as [HM Hr].
  destruct (rfile_read M r HM Hr) as [G' R]. assert (text = rtext M r) as -> by (rewrite G in G'; now apply ok_inj in G').
  exists (rprog M r). split; [now apply parse_python|]. split.
  - intros flag. unfold rprog. rewrite exec_app, exec_simple. replace (exec flag (map (rdef r) (seq 0 (M + 1)))) with (@nil string); [apply app_nil_r|].
    induction (seq 0 (M + 1)) as [|p l IH]; [reflexivity|]. exact IH.
  - assert (H : heads (rprog M r) = map residual_head (seq 0 (M + 1))).
    { unfold rprog, heads. rewrite flat_map_app. change (flat_map _ (map Simple residual_imports)) with (@nil string). cbn [app].
      induction (seq 0 (M + 1)) as [|p l IH]; [reflexivity|]. cbn [map flat_map]. rewrite IH. reflexivity. }
    split; [exact H|]. rewrite H. apply distinct_nodup. destruct M as [|[|[|[|[|[|[|?]]]]]]]; try (exfalso; lia); vm_compute; reflexivity.
Qed.

(** Up to order four. *)
Lemma residual_file_sums M r text prog flag p :
  generate_residual_equations_file M r = Ok text -> python (joined text) prog -> p <= M -> p <= 4 ->
  exists ms ts, residual_runs prog flag p ts /\ Forall2 (adds_term p) ms ts /\ Permutation ms (filter (done flag p) (residual_pairs r p)).
Proof.
  intros G P Hp H4. destruct (rprog_unique M r text prog G P) as (-> & HM & Hr). destruct (sum_exact flag r p Hr H4) as (l & ms & R & F & Q).
  exists ms, (map stext l). split; [now apply rprog_run|]. split; [|exact Q].
  clear - F. induction F as [|mn a ms l H F IH]; cbn [map]; constructor; [now apply fullb_adds|exact IH].
Qed.
Lemma residual_file_good M r text prog flag p :
  generate_residual_equations_file M r = Ok text -> python (joined text) prog -> p <= M -> p <= 4 -> r <= 1 \/ (p <> 2 /\ p <> 3) ->
  exists ms ts, residual_runs prog flag p ts /\ Forall2 (adds_term p) ms ts /\
    Permutation ms (filter (fun mn => term_active (flag "truncation.quadratic"%string) (given flag) p (fst mn) (snd mn)) (residual_pairs r p)).
Proof.
  intros G P Hp H4 C. destruct (residual_file_sums M r text prog flag p G P Hp H4) as (ms & ts & R & F & Q). exists ms, ts. split; [exact R|]. split; [exact F|].
  erewrite filter_ext_pairs; [exact Q|]. intros [m n] I. apply in_residual_pairs in I. unfold done, actually_active. cbn [fst snd].
  destruct (Nat.eqb_spec m 2); destruct (Nat.eqb_spec p 2); destruct (Nat.eqb_spec p 3); cbn [andb orb]; try reflexivity; lia.
Qed.
Lemma residual_file_h2 M text prog flag p :
  generate_residual_equations_file M 2 = Ok text -> python (joined text) prog -> p <= M -> p = 2 \/ p = 3 ->
  exists ms ts, residual_runs prog flag p ts /\ Forall2 (adds_term p) ms ts /\ NoDup ms /\
    forall mn, In mn ms <-> In mn (residual_pairs 2 p) /\
      (if Nat.eqb (fst mn) 2 then flag "truncation.quadratic"%string = true /\ given flag (p + 2) = false
       else term_active (flag "truncation.quadratic"%string) (given flag) p (fst mn) (snd mn) = true).
Proof.
  intros G P Hp C. destruct (residual_file_sums M 2 text prog flag p G P Hp) as (ms & ts & R & F & Q); [lia|]. exists ms, ts. split; [exact R|]. split; [exact F|].
  split.
  - apply (Permutation_NoDup (l := filter (done flag p) (residual_pairs 2 p))); [now symmetry|]. apply NoDup_filter. destruct C as [->| ->]; vm_compute; repeat constructor; cbn; intuition discriminate.
  - intros [m n]. transitivity (In (m, n) (filter (done flag p) (residual_pairs 2 p))); [split; apply Permutation_in; [exact Q|now symmetry]|].
    rewrite filter_In. unfold done, actually_active. cbn [fst snd].
    replace (Nat.eqb p 2 || Nat.eqb p 3) with true by (destruct C as [->| ->]; reflexivity). rewrite andb_true_r.
    destruct (Nat.eqb m 2); [rewrite andb_true_iff, negb_true_iff|]; reflexivity.
Qed.
(** From order five on. *)
Lemma residual_file_short_le M r text prog flag p :
  generate_residual_equations_file M r = Ok text -> python (joined text) prog -> p <= M -> 5 <= p ->
  exists ts, residual_runs prog flag p ts /\ (given flag p = true -> ts <> []) /\
    forall t, In t ts -> exists k w hd wd od h, 1 <= k <= p + 2 /\ t = add_contraction w hd wd od h (w_name k) /\
      String.length wd < 2 + k /\ String.length od < 2 + p.
Proof.
  intros G P Hp H5. destruct (rprog_unique M r text prog G P) as (-> & HM & Hr).
  pose proof (body_checked r p Hr ltac:(lia)) as H. unfold body_check in H. fold (rfun r p) in H.
  assert (B : rbody r p = match rfun r p with Ok f => rf_body f | Err _ => [] end) by reflexivity.
  destruct (rfun r p) as [f|]; [|discriminate]. rewrite <- B in H. repeat (apply andb_true_iff in H as [H ?]).
  rename H1 into Hadds, H0 into Hruns. rewrite forallb_forall in Hadds, Hruns.
  specialize (Hruns (flag "truncation.quadratic"%string) ltac:(destruct (flag "truncation.quadratic"%string); cbn; tauto)). rewrite forallb_forall in Hruns.
  specialize (Hruns (handed flag p) ltac:(apply in_bool_lists; unfold handed; now rewrite map_length, seq_length)). cbv zeta in Hruns.
  rewrite <- handed_run in Hruns by lia. destruct (run_rstmts _ _ (rbody r p)) as [l|] eqn:R; [|discriminate].
  exists (map stext l). split; [now apply rprog_run|]. split.
  - intros Gv E. apply map_eq_nil in E. subst l. apply permb_perm in Hruns; [|exact key_eqb_eq]. apply Permutation_nil in Hruns. apply map_eq_nil in Hruns.
    assert (I : In (0, 0) (filter (fun mn => actually_active (flag "truncation.quadratic"%string) (fun k => nth (k - 1) (handed flag p) false) p (fst mn) (snd mn)) (residual_pairs r p))).
    { apply filter_In. split; [apply in_residual_pairs; lia|]. unfold actually_active, term_active, w_available. cbn [fst snd Nat.eqb Nat.leb andb orb negb].
      rewrite Nat.sub_0_r, Nat.add_0_r, handed_nth by lia. rewrite Gv, !orb_true_r. reflexivity. }
    rewrite Hruns in I. destruct I.
  - intros t I. apply in_map_iff in I as (a & <- & I). pose proof (run_rstmts_in _ _ _ _ _ R I) as J. specialize (Hadds a J).
    apply existsb_exists in Hadds as ([m n] & J' & X). cbn [fst snd] in X. apply in_residual_pairs in J'. destruct (Nat.leb_spec p 4); [lia|].
    unfold add_shortb in X. apply andb_true_iff in X as [K X]. apply key_eqb_eq in K. unfold residual_key in K. cbn [fst snd] in K.
    destruct a as [t h|t hd wd od h w]; cbn [radd_key] in K; injection K as K1 K2.
    + apply Nat.eqb_eq in X. lia.
    + apply andb_true_iff in X as [X Y]. apply Nat.ltb_lt in X. apply Nat.ltb_lt in Y. exists (p - m + n), (render_p_term t), hd, wd, od, h.
      split; [lia|]. split; [|split; assumption]. cbn [stext]. f_equal. destruct (p - m + n); [discriminate|now injection K2].
Qed.
Lemma residual_file_short M r text prog flag p :
  generate_residual_equations_file M r = Ok text -> python (joined text) prog -> p <= M -> 5 <= p ->
  exists ts, residual_runs prog flag p ts /\ (given flag p = true -> ts <> []) /\
    forall t, In t ts -> exists k w hd wd od h, t = add_contraction w hd wd od h (w_name k) /\
      String.length wd < 2 + k /\ String.length od < 2 + p.
Proof.
  intros G P Hp H5. destruct (residual_file_short_le M r text prog flag p G P Hp H5) as (ts & R & S & T). exists ts. split; [exact R|]. split; [exact S|].
  intros t I. destruct (T t I) as (k & w & hd & wd & od & h & _ & X). exists k, w, hd, wd, od, h. exact X.
Qed.
