(** Proofs about the LaTeX documents that runs of the driver write, and about
    the thermal file on its own. *)
From Coq Require Import List Ascii String Arith Lia ZArith.
From Verif Require Import PyBase SpecTex SpecTexDoc ProofsTexDoc ProofsTexFullCC ProofsTexZ ProofsTexZAll ProofsTexEt ModelHeaders ModelLatexW ModelWFile SpecWFile ProofsWFile.
From Verif Require Import SpecFullCC SpecFullCCText ModelFullCC ModelTrunc ModelRun SpecTrunc SpecRun ProofsTrunc ProofsRun.
From Verif Require ProofsTexThermal ModelFullCCLatex ModelZhz ModelEtLatex ProofsFullCCLatexFile ProofsZhzEquation ProofsEtLatexFile.
Import ListNotations.
Local Open Scope string_scope.

Section Orders.
  Variable lt : list (list tamp) -> list (list tamp).
  Variable ln : list nat -> list nat.
  Variable lp : list (list (nat * nat)) -> list (list (nat * nat)).
  Variable pt : list (list tamp) -> list (list tamp).
  Variable pn : list nat -> list nat.
  Variable pl : list (list nat) -> list (list nat).
  Variable pc : list (list ascii) -> list (list ascii).
  Hypothesis Hlt : set_order lt.
  Hypothesis Hln : set_order ln.
  Hypothesis Hlp : set_order lp.
  Hypothesis Hpt : set_order pt.
  Hypothesis Hpn : set_order pn.
  Hypothesis Hpl : set_order pl.
  Hypothesis Hpc : set_order pc.

  Lemma run_document fs a fs' saved c :
    run lt ln lp pt pn pl pc fs a = (fs', Ok tt) -> driver_main fs a = Ok (saved, c) -> gc_kind c = KLatex ->
    exists text, fs' (gc_path c) = Some text /\ processed text.
  Proof.
    intros R D K.
    destruct (run_writes_asked lt ln lp pt pn pl pc Hlt Hln Hlp Hpt Hpn Hpl Hpc _ _ _ R) as (sv & c0 & text & D0 & _ & W & C & _ & F & _).
    rewrite D in D0. injection D0 as <- <-. exists text. split; [exact F|].
    unfold can_write in W. unfold content_ok in C. cbn zeta in W, C. rewrite K in W, C. pose proof (main_complete _ _ _ _ D) as X.
    destruct (gc_ansatz c) eqn:EA.
    - destruct W as (_ & H & cc & S & P & V & _). destruct (C _ _ _ _ V) as (body & -> & L).
      destruct (full_cc_processed _ _ _ _ _ _ _ L) as [G1 G2]. destruct (gc_ground c); assumption.
    - clear C. pose proof (run_main_ok lt ln lp pt pn pl pc _ _ _ _ D) as Q. rewrite R in Q. cbv zeta in Q.
      destruct (generate lt ln lp pt pn pl pc c) as [text'|] eqn:G; [|discriminate]. injection Q as Q. rewrite Q, write_same in F. injection F as ->.
      unfold generate in G. cbv zeta in G. rewrite K, EA in G.
      destruct (ModelTrunc.dict_value _ KH) as [h|]; [|discriminate]. destruct (ModelTrunc.dict_value _ KCC) as [cc|]; [|discriminate].
      destruct (ModelTrunc.dict_value _ KP) as [P|]; [|discriminate]. cbn [bind] in G.
      destruct (z_t_latex h cc P (gc_ground c) (gc_remove_f c)) as [body|] eqn:B; [|discriminate]. cbn [bind] in G.
      apply (f_equal (fun r => match r with Ok x => x | Err _ => "" end)) in G. cbv beta iota in G. rewrite <- G. unfold z_t_header.
      destruct (gc_ground c); [exact (z_t_all _ _ _ _ _ B)|exact (z_t_excited_all _ _ _ _ _ B)].
    - destruct W as [A _]. destruct (eTz_get (gc_trunc c) (proj1 X) A) as (H & cc & e & P & V & _).
      destruct (C _ _ _ _ V) as (body & -> & L). exact (eT_processed _ _ _ _ _ _ _ L).
  Qed.
End Orders.

(** ** The headers *)
Lemma preamble_no_begin ts : forall env, preamble env ts = None -> no_begin ts.
Proof.
  induction ts as [|t r IH]; intros env E x y X.
  - destruct x; discriminate.
  - cbn [preamble] in E. destruct (at_document (t :: r)) eqn:A; [discriminate|].
    destruct x as [|u x].
    + cbn [app] in X. rewrite X in A. unfold at_document in A. 
      rewrite firstn_app, firstn_all, Nat.sub_diag, firstn_O, app_nil_r in A.
      destruct (list_eq_dec token_eq_dec begin_document begin_document); [discriminate|congruence].
    + injection X as _ X. exact (IH _ E x y X).
Qed.

Lemma first_lines_app h : forall k rest, k <= number_of_newlines h -> first_lines k (h ++ rest) = first_lines k h.
Proof.
  induction h as [|c h IH]; intros k rest L.
  - cbn in L. destruct k; [|lia]. destruct rest; reflexivity.
  - destruct k as [|k]; [reflexivity|]. cbn [append first_lines]. f_equal. cbn [number_of_newlines] in L.
    destruct (Nat.eqb (nat_of_ascii c) 10) eqn:E.
    + apply IH. destruct (Ascii.eqb c (ascii_of_nat 10)); cbn in L; lia.
    + apply IH. destruct (Ascii.eqb_spec c (ascii_of_nat 10)) as [->|]; [discriminate|cbn in L; lia].
Qed.

Definition project_headers : list string :=
  [w_equations_latex_header; full_vecc_latex_header; ground_state_vecc_latex_header; full_z_t_symmetric_latex_header;
   ground_state_z_t_symmetric_latex_header].
Lemma headers_check : forallb (fun h => Nat.leb 29 (number_of_newlines h) &&
  match preamble [] (snd (scan NewLine (first_lines 29 h))) with None => true | Some _ => false end)%bool project_headers = true.
Proof. vm_compute. reflexivity. Qed.
Lemma header_kept h rest : In h project_headers -> no_document_kept (Some (h ++ rest)).
Proof.
  intros I. apply kept_spec. cbn [kept_ok]. pose proof (proj1 (forallb_forall _ _) headers_check h I) as X. cbn beta in X.
  apply andb_prop in X. destruct X as [L P]. apply Nat.leb_le in L. rewrite first_lines_app by exact L.
  destruct (preamble [] _) eqn:E in P; [discriminate|]. exact (preamble_no_begin _ _ E).
Qed.
Lemma nothing_kept : no_document_kept None. Proof. exact I. Qed.

(** ** The thermal file *)
Lemma length_app_s a b : String.length (a ++ b) = String.length a + String.length b.
Proof. induction a as [|c a IH]; cbn; [reflexivity|now rewrite IH]. Qed.
Lemma thermal_written so n old : set_order so -> exists text, excited_state_w_file so old n = Ok text.
Proof.
  intros S. destruct (ProofsTexThermal.thermal_lines so n S) as (lines & E & _). unfold excited_state_w_file. rewrite E. cbn [bind]. eexists. reflexivity.
Qed.
Lemma thermal_grows so n file1 file2 : excited_state_w_file so None n = Ok file1 -> excited_state_w_file so (Some file1) n = Ok file2 -> file1 <> file2.
Proof.
  unfold excited_state_w_file. destruct (excited_state_w_equations_latex so n) as [t|]; [|discriminate]. cbn [bind].
  intros [= <-] [= <-] E. apply (f_equal String.length) in E. rewrite !length_app_s in E. cbn [String.length] in E. lia.
Qed.
Lemma thermal_runs_all so orders : set_order so -> forall old, orders <> [] -> no_document_kept old ->
  exists text, excited_state_w_files so old orders = Ok (Some text) /\ ~ processed text /\ ~ begins_document text.
Proof.
  intros S old N K.
  assert (T : exists file, excited_state_w_files so old orders = Ok file).
  { clear N K. revert old. induction orders as [|n r IH]; intros old; [eexists; reflexivity|]. cbn [excited_state_w_files].
    destruct (thermal_written so n old S) as [t E]. rewrite E. cbn [bind]. apply IH. }
  destruct T as [file E]. destruct (thermal_runs so orders old file N K E) as (text & -> & H). now exists text.
Qed.
Lemma thermal_refuted so n : set_order so -> exists text, excited_state_w_file so None n = Ok text /\ ~ processed text.
Proof.
  intros S. destruct (thermal_written so n None S) as [t E]. exists t. split; [exact E|].
  destruct (thermal_runs so [n] None (Some t)) as (text & X & N & _); [discriminate|exact I|cbn [excited_state_w_files]; now rewrite E|].
  injection X as ->. exact N.
Qed.

(** ** The generators *)
Lemma full_cc_document so son sop d H cc S P (ground rf : bool) :
  set_order so -> set_order son -> set_order sop ->
  is_dict d -> acceptable Fcc d -> fcc_values d H cc S P -> cc <= 3 \/ P <= 3 ->
  exists text, ModelFullCCLatex.generate_full_cc_latex so son sop H cc S P ground rf = Ok text /\
    processed ((if ground then ground_state_vecc_latex_header else full_vecc_latex_header) ++ text).
Proof.
  intros H1 H2 H3 Hd A (V1 & V2 & V3 & V4) B.
  destruct (proj1 (ProofsFullCCLatexFile.latex_file so son sop d H cc S P ground rf H1 H2 H3 Hd A V1 V2 V3 V4) B) as (text & E & L).
  exists text. split; [exact E|]. destruct (full_cc_processed _ _ _ _ _ _ _ L). destruct ground; assumption.
Qed.
Lemma z_t_document H cc P rf :
  (cc <= 8 \/ P <= 8 -> exists text, ModelZhz.generate_z_t_symmetric_latex H cc P true rf = Ok text) /\
  forall text, ModelZhz.generate_z_t_symmetric_latex H cc P true rf = Ok text -> processed (ground_state_z_t_symmetric_latex_header ++ text).
Proof.
  rewrite <- z_t_nat. split.
  - intros B. apply z_t_total. lia.
  - intros text. apply z_t_all.
Qed.
Lemma eT_document s H cc P e rf : 1 <= e -> Nat.min cc P <= 8 ->
  exists text, ModelEtLatex.generate_eT_z_t_symmetric_latex s true rf H cc 1 e P = Ok text /\
    processed (ground_state_z_t_symmetric_latex_header ++ text).
Proof.
  intros B1 B2. destruct (ProofsEtLatexFile.eT_latex_file_ok s H cc P e rf B1 B2) as (text & E & L). exists text. split; [exact E|exact (eT_processed _ _ _ _ _ _ _ L)].
Qed.

Lemma example_dict : let d := [(DEnum KH, 2%Z); (DEnum KCC, 2%Z); (DEnum KS, 1%Z); (DEnum KP, 1%Z)] in
  is_dict d /\ acceptable Fcc d /\ fcc_values d 2 2 1 1.
Proof.
  cbn zeta. split; [|split].
  - unfold is_dict. cbn. repeat constructor; cbn; intuition discriminate.
  - split.
    + cbn. intros k v I. intuition; match goal with X : _ = _ |- _ => injection X as <- <- end; eexists; reflexivity.
    + cbn. intros k top I. intuition; match goal with X : _ = _ |- _ => injection X as <- <- end; eexists; split; try (unfold has_value; cbn; tauto); lia.
  - unfold fcc_values, has_value. cbn. tauto.
Qed.

(** ** The reader as a function, for the examples *)
Definition processed_b (s : string) : bool :=
  match preamble kernel (tokens s) with
  | Some (env, body) => match read_all env (mkconf Text [Env "document" Text false] (Free false false)) body with Some Done => true | _ => false end
  | None => false
  end.
Lemma processed_b_ok s : processed s <-> processed_b s = true.
Proof.
  unfold processed, processed_b. split.
  - intros (env & body & -> & ->). reflexivity.
  - destruct (preamble kernel (tokens s)) as [[env body]|]; [|discriminate]. intros H. exists env, body. split; [reflexivity|].
    destruct (read_all env _ body) as [[c|]|]; [discriminate|reflexivity|discriminate].
Qed.
