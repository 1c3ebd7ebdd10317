(** Property theorems C18 - C21: truncations, JSON files, command line,
    dispatch and default paths. *)
From Coq Require Import ZArith.
From Verif Require Import PyBase PyStr ModelTrunc SpecTrunc ProofsTrunc.

(** C18: a dictionary is accepted iff all its keys are truncation keys and
    every key of the ansatz has a value within its bounds. *)
Theorem C18_verification_exact :
  forall t d, is_dict d -> (verify_truncations t d = Ok tt <-> acceptable t d).
Proof. exact verify_exact. Qed.
Print Assumptions C18_verification_exact.

(** Keys of another ansatz are not rejected. *)
Theorem C18_extra_key_refuted :
  exists t d, is_dict d /\ verify_truncations t d = Ok tt /\ ~ exactly_valid t d.
Proof. exact verify_extra_key_accepted. Qed.
Print Assumptions C18_extra_key_refuted.

Example C18_example :
  verify_truncations Fcc [(DEnum KH, 2%Z); (DEnum KCC, 6%Z); (DEnum KS, 1%Z); (DEnum KP, 3%Z)] = Ok tt /\
  verify_truncations Fcc [(DEnum KH, 2%Z); (DEnum KCC, 7%Z); (DEnum KS, 1%Z); (DEnum KP, 3%Z)] = Err AssertionErr /\
  verify_truncations ETz [(DEnum KH, 2%Z); (DEnum KCC, 6%Z); (DEnum KS, 1%Z); (DEnum KP, 3%Z)] = Err AssertionErr /\
  verify_truncations Zhz [(DEnum KH, 2%Z); (DEnum KCC, 6%Z); (DStr "omega_max_order", 3%Z)] = Err TypeErr.
Proof. repeat split. Qed.

(** C19: saving then loading gives the dictionary back ... *)
Theorem C19_save_load :
  forall t d, is_dict d -> exactly_valid t d ->
    exists text, save_to_JSON d = Ok text /\ load_trunc_from_JSON text None = Ok (Some d).
Proof. exact save_load. Qed.
Print Assumptions C19_save_load.

(** ... and whatever loads is a valid dictionary of one ansatz. *)
Theorem C19_load_valid :
  forall text d, load_trunc_from_JSON text None = Ok (Some d) ->
    is_dict d /\ exists t, exactly_valid t d.
Proof. exact load_valid. Qed.
Print Assumptions C19_load_valid.

Example C19_example :
  let d := [(DEnum KH, 2%Z); (DEnum KCC, 4%Z); (DEnum KP, 3%Z)] in
  exactly_valid Zhz d /\
  match save_to_JSON d with Ok text => load_trunc_from_JSON text None = Ok (Some d) | Err _ => False end.
Proof.
  split; [|vm_compute; reflexivity]. repeat split.
  - intros k v H. cbn in H. destruct H as [H|[H|[H|[]]]]; injection H as <- <-; now eexists.
  - intros k top H. cbn in H. destruct H as [H|[H|[H|[]]]]; injection H as <- <-; eexists;
      (split; [unfold has_value; cbn; eauto|]); lia.
  - intros k v H. cbn in H. destruct H as [H|[H|[H|[]]]]; injection H as <- <-; do 2 eexists;
      (split; [reflexivity|cbn; eauto]).
Qed.

(** C20: whenever the driver reaches a generator, it is the one the arguments
    ask for, with the truncations they stand for. *)
Theorem C20_driver_sound :
  forall file a saved c, driver_main file a = Ok (saved, c) ->
    exists t, source_ok file a t saved (gc_trunc c) /\ call_ok a t (gc_trunc c) c.
Proof. exact driver_sound. Qed.
Print Assumptions C20_driver_sound.

(** C20: and it does so for all arguments that are consistent. *)
Theorem C20_driver_complete :
  forall file a t saved d an,
    source_ok file a t saved d -> ansatz_type an = t -> ansatz_argument_ok a an ->
    ~ (an = ZT /\ arg_code a = true) ->
    exists c, driver_main file a = Ok (saved, c) /\ call_ok a t d c.
Proof. exact driver_complete. Qed.
Print Assumptions C20_driver_complete.

(** Three, four or five values after -t always form a dictionary (which is
    saved without validation). *)
Theorem C20_values_accepted :
  forall t values, List.length values = List.length (documented t) ->
    exists d text, dict_of_values t values d /\ save_to_JSON d = Ok text.
Proof. exact values_saved. Qed.
Print Assumptions C20_values_accepted.

Example C20_example :
  let a := mkArgs (Some [2; 3; 1; 4; 5]%Z) None None false None true true in
  match driver_main (fun _ => None) a with
  | Ok (_, c) => gc_ansatz c = ETZT /\ gc_kind c = KPython /\ gc_side c = LHS /\
      gc_trunc c = [(DEnum KH, 2%Z); (DEnum KCC, 3%Z); (DEnum KT, 1%Z); (DEnum KeT, 4%Z); (DEnum KP, 5%Z)] /\
      gc_path c = "./eT_zhz_eqs_LHS_H(2)_P(5)_T(1)_exp(4)_Z(3).py"%string
  | Err _ => False
  end.
Proof. vm_compute. repeat split. Qed.

(** -rf False removes the f terms. *)
Example C20_remove_f_false :
  match driver_main (fun _ => None) (mkArgs (Some [2; 2; 2; 2]%Z) None None false (Some "False"%string) false false) with
  | Ok (_, c) => gc_remove_f c = true
  | Err _ => False
  end.
Proof. vm_compute. reflexivity. Qed.

(** C21: two requests have the same default path exactly when they agree in
    kind, ansatz and side and, for exponential python code, in the
    truncations, otherwise in the ground-state and f-term flags. *)
Theorem C21_paths_exact :
  forall k a d gs rf s c k' a' d' gs' rf' s' c',
    dispatch k a d gs rf s = Ok c -> dispatch k' a' d' gs' rf' s' = Ok c' ->
    (gc_path c = gc_path c' <-> same_target c c').
Proof. exact paths_exact. Qed.
Print Assumptions C21_paths_exact.

Example C21_overwritten :
  match dispatch KPython FullCC [(DEnum KH, 2%Z); (DEnum KCC, 2%Z); (DEnum KS, 2%Z); (DEnum KP, 2%Z)] true false RHS,
        dispatch KPython FullCC [(DEnum KH, 2%Z); (DEnum KCC, 3%Z); (DEnum KS, 2%Z); (DEnum KP, 2%Z)] true false RHS with
  | Ok c, Ok c' => gc_path c = gc_path c' /\ gc_trunc c <> gc_trunc c'
  | _, _ => False
  end.
Proof. vm_compute. split; [reflexivity|discriminate]. Qed.
