(** Whole runs of the driver: which files they write, when they fail, what the
    saved truncations are good for, and which flags make no difference. *)
From Coq Require Import List Arith ZArith Ascii String.
From Verif Require Import PyBase SpecFullCC SpecFullCCText ModelFullCC ModelHeaders ModelTrunc ModelRun SpecTrunc SpecRun ProofsTrunc ProofsRun.
Import ListNotations.
Local Open Scope string_scope.

(** C96: a run ends without exception exactly when its arguments ask for
    something that can be written. *)
Theorem C96_run_succeeds :
  forall lt ln lp pt pn pl pc,
    set_order lt -> set_order ln -> set_order lp -> set_order pt -> set_order pn -> set_order pl -> set_order pc ->
    forall fs a, snd (run lt ln lp pt pn pl pc fs a) = Ok tt <-> exists c, asks fs a c /\ can_write c.
Proof. exact run_ok_iff. Qed.
Print Assumptions C96_run_succeeds.

(** C96: it then writes the document or module asked for into the path of the
    request, and no other file except the one of the truncations. *)
Theorem C96_run_writes :
  forall lt ln lp pt pn pl pc,
    set_order lt -> set_order ln -> set_order lp -> set_order pt -> set_order pn -> set_order pl -> set_order pc ->
    forall fs a fs', run lt ln lp pt pn pl pc fs a = (fs', Ok tt) ->
    exists saved c text, driver_main fs a = Ok (saved, c) /\ asks fs a c /\ can_write c /\ content_ok c text /\
      gc_path c <> truncations_file /\ fs' (gc_path c) = Some text /\
      forall p, p <> gc_path c -> p <> truncations_file -> fs' p = fs p.
Proof. exact run_writes_asked. Qed.
Print Assumptions C96_run_writes.

(** C96: a run that fails writes no file except the one of the truncations. *)
Theorem C96_run_fails :
  forall lt ln lp pt pn pl pc,
    set_order lt -> set_order ln -> set_order lp -> set_order pt -> set_order pn -> set_order pl -> set_order pc ->
    forall fs a fs' e, run lt ln lp pt pn pl pc fs a = (fs', Err e) ->
    (forall c, asks fs a c -> ~ can_write c) /\ forall p, p <> truncations_file -> fs' p = fs p.
Proof. exact run_fails_asked. Qed.
Print Assumptions C96_run_fails.

(** C96: the file of the truncations is overwritten exactly when three, four or
    five values stand after -t and no path is given, also by a run that fails. *)
Theorem C96_truncations_file :
  forall lt ln lp pt pn pl pc fs a,
    (forall text, saved_truncations a text -> fst (run lt ln lp pt pn pl pc fs a) truncations_file = Some text) /\
    ((forall text, ~ saved_truncations a text) -> fst (run lt ln lp pt pn pl pc fs a) truncations_file = fs truncations_file).
Proof. exact run_truncations. Qed.
Print Assumptions C96_truncations_file.

(** A run with the sets iterated in the order of insertion, in an empty directory. *)
Definition plain_run := run (fun l => l) (fun l => l) (fun l => l) (fun l => l) (fun l => l) (fun l => l) (fun l => l).
Definition no_files : files := fun _ => None.
Definition length_of (t : option string) : nat := match t with Some s => String.length s | None => 0 end.

Example C96_example :
  let a := mkArgs (Some [1; 1; 1; 1; 1]%Z) None None false None true false in
  let fs := fst (plain_run no_files a) in
  snd (plain_run no_files a) = Ok tt /\
  fs truncations_file = Some "{""maximum_hamiltonian_rank"": 1, ""maximum_coupled_cluster_rank"": 1, ""maximum_T_rank"": 1, ""eT_taylor_max_order"": 1, ""omega_max_order"": 1}" /\
  Nat.ltb 5000 (length_of (fs "./eT_zhz_eqs_RHS_H(1)_P(1)_T(1)_exp(1)_Z(1).py")) = true /\
  fs "./eT_zhz_eqs_LHS_H(1)_P(1)_T(1)_exp(1)_Z(1).py" = None.
Proof. vm_compute. repeat split. Qed.

(** Six Hamiltonian indices pass the verification, but there is no python for
    them: the run fails after it has replaced the file of the truncations. *)
Example C96_example_fails :
  let a := mkArgs (Some [6; 1; 1; 1]%Z) None None false None true false in
  let fs := fst (plain_run no_files a) in
  (exists e, snd (plain_run no_files a) = Err e) /\
  fs truncations_file = Some "{""maximum_hamiltonian_rank"": 6, ""maximum_coupled_cluster_rank"": 1, ""s_taylor_max_order"": 1, ""omega_max_order"": 1}".
Proof. vm_compute. split; [eexists; reflexivity|reflexivity]. Qed.

(** C97: after a run with values after -t, a run with the saved file in place of
    the values writes the same, if the values are within the documented bounds;
    otherwise it fails with an AssertionError and writes nothing.  Only the z t
    ansatz runs with values outside of the bounds. *)
Theorem C97_replay :
  forall lt ln lp pt pn pl pc,
    set_order lt -> set_order ln -> set_order lp -> set_order pt -> set_order pl -> set_order pc ->
    forall fs a t values d fs',
      arg_t a = Some values -> arg_path a = None -> dict_of_values t values d ->
      run lt ln lp pt pn pl pc fs a = (fs', Ok tt) ->
      (exactly_valid t d -> snd (run lt ln lp pt pn pl pc fs' (replay a)) = Ok tt /\
                            forall p, fst (run lt ln lp pt pn pl pc fs' (replay a)) p = fs' p) /\
      (~ exactly_valid t d -> run lt ln lp pt pn pl pc fs' (replay a) = (fs', Err AssertionErr)) /\
      (t <> Zhz -> exactly_valid t d).
Proof. exact run_replay. Qed.
Print Assumptions C97_replay.

Example C97_example :
  let a := mkArgs (Some [1; 1; 1]%Z) None None false None false false in
  let fs := fst (plain_run no_files a) in
  snd (plain_run no_files a) = Ok tt /\ snd (plain_run fs (replay a)) = Ok tt.
Proof. vm_compute. repeat split. Qed.

(** C97: what is saved is therefore not always accepted again. *)
Theorem C97_every_saved_file_can_be_replayed_refuted :
  exists a, snd (plain_run no_files a) = Ok tt /\
            snd (plain_run (fst (plain_run no_files a)) (replay a)) = Err AssertionErr.
Proof. exists (mkArgs (Some [7; 0; 1]%Z) None None false None false false). vm_compute. split; reflexivity. Qed.
Print Assumptions C97_every_saved_file_can_be_replayed_refuted.

(** C98: requests for the same output end alike and write the same text. *)
Theorem C98_flags_without_effect :
  forall lt ln lp pt pn pl pc fs a a' saved c saved' c',
    driver_main fs a = Ok (saved, c) -> driver_main fs a' = Ok (saved', c') -> same_output c c' ->
    snd (run lt ln lp pt pn pl pc fs a) = snd (run lt ln lp pt pn pl pc fs a') /\
    (snd (run lt ln lp pt pn pl pc fs a) = Ok tt ->
     exists text, fst (run lt ln lp pt pn pl pc fs a) (gc_path c) = Some text /\
                  fst (run lt ln lp pt pn pl pc fs a') (gc_path c') = Some text).
Proof. exact run_same_output. Qed.
Print Assumptions C98_flags_without_effect.

(** C98: for full coupled cluster and z t, the file that -lhs writes has another
    path but the text of the right hand side. *)
Theorem C98_left_hand_side_is_the_right_one :
  forall lt ln lp pt pn pl pc fs a saved c,
    driver_main fs a = Ok (saved, c) -> gc_ansatz c <> ETZT ->
    exists c', driver_main fs (other_side a) = Ok (saved, c') /\ gc_path c' <> gc_path c /\
      snd (run lt ln lp pt pn pl pc fs (other_side a)) = snd (run lt ln lp pt pn pl pc fs a) /\
      (snd (run lt ln lp pt pn pl pc fs a) = Ok tt ->
       exists text, fst (run lt ln lp pt pn pl pc fs a) (gc_path c) = Some text /\
                    fst (run lt ln lp pt pn pl pc fs (other_side a)) (gc_path c') = Some text).
Proof. exact run_other_side. Qed.
Print Assumptions C98_left_hand_side_is_the_right_one.

Example C98_example :
  let a := mkArgs (Some [1; 1; 1]%Z) None None false None false false in
  match driver_main no_files a, driver_main no_files (other_side a) with
  | Ok (_, c), Ok (_, c') => gc_ansatz c = ZT /\ snd (plain_run no_files a) = Ok tt /\
      gc_path c = "./ground_state_z_t_symmetric_equations.tex" /\ gc_path c' = "./ground_state_z_t_special_LHS_terms.tex"
  | _, _ => False
  end.
Proof. vm_compute. repeat split. Qed.

(** C98: the python of the e^T ansatz with and without excited states goes to the
    same path with different texts: the second run replaces the first. *)
Theorem C98_one_path_per_text_refuted :
  exists a a' c c' saved, driver_main no_files a = Ok (saved, c) /\ driver_main no_files a' = Ok (saved, c') /\
    gc_path c = gc_path c' /\ gc_trunc c = gc_trunc c' /\
    Nat.eqb (length_of (fst (plain_run no_files a) (gc_path c))) (length_of (fst (plain_run no_files a') (gc_path c'))) = false.
Proof.
  exists (mkArgs (Some [1; 1; 1; 1; 1]%Z) None None false None true false), (mkArgs (Some [1; 1; 1; 1; 1]%Z) None None true None true false).
  do 3 eexists. split; [reflexivity|]. split; [reflexivity|]. split; [reflexivity|]. split; [reflexivity|]. vm_compute. reflexivity.
Qed.
Print Assumptions C98_one_path_per_text_refuted.
