(** What a run of the driver should do to the files. *)
From Coq Require Import List Arith ZArith Ascii String.
From Verif Require Import PyBase SpecPython SpecNames SpecEt SpecEtPy SpecEtText
  SpecFullCC SpecFullCCText SpecFullCCPlaces ModelHeaders ModelTrunc ModelRun SpecTrunc.
From Verif Require SpecFullCCLatex SpecZhz SpecEtLatex.
Import ListNotations.
Local Open Scope string_scope.

(** The file that keeps the truncations of the last run with -t. *)
Definition truncations_file : string := "../truncs.json".

(** The values of the keys of an ansatz, as natural numbers. *)
Definition fcc_values (d : dict) (H cc S P : nat) : Prop :=
  has_value d KH (Z.of_nat H) /\ has_value d KCC (Z.of_nat cc) /\ has_value d KS (Z.of_nat S) /\ has_value d KP (Z.of_nat P).
Definition eTz_values (d : dict) (H cc T e P : nat) : Prop :=
  has_value d KH (Z.of_nat H) /\ has_value d KCC (Z.of_nat cc) /\ has_value d KT (Z.of_nat T) /\ has_value d KeT (Z.of_nat e) /\
  has_value d KP (Z.of_nat P).
Definition zhz_values (d : dict) (H cc P : Z) : Prop := has_value d KH H /\ has_value d KCC cc /\ has_value d KP P.

(** The requests that are answered with a file. *)
Definition can_write (c : generator_call) : Prop :=
  let d := gc_trunc c in
  match gc_kind c, gc_ansatz c with
  | KLatex, FullCC => acceptable Fcc d /\ exists H cc S P, fcc_values d H cc S P /\ (cc <= 3 \/ P <= 3)
  | KPython, FullCC => acceptable Fcc d /\ exists H cc S P, fcc_values d H cc S P /\ H <= 5
  | KLatex, ZT => exists H cc P, zhz_values d H cc P /\ (cc < 0 \/ P < 0 \/ (gc_ground c = true /\ Z.min cc P <= 8))%Z
  | KPython, ZT => False
  | KLatex, ETZT => acceptable ETz d /\ gc_ground c = true
  | KPython, ETZT => acceptable ETz d /\ exists H cc e P, eTz_values d H cc 1 e P /\
      H <= 5 /\ (cc <= 5 \/ match gc_side c with RHS => P + H + e | LHS => P + e end <= 5)
  end.

(** The python modules: the functions that are defined, that the amplitudes are
    made of the right contractions, and that names and calls are right. *)
Definition full_cc_module (H cc S P : nat) (prog : list stmt) : Prop :=
  (forall h, In h (heads prog) <-> h = cc_all_head \/ exists m n, m + n <= cc /\ m + n <= P /\ In h (cc_heads m n)) /\
  (forall m n, m + n <= cc -> m + n <= P ->
     defines_cc_equation prog m n false /\ defines_cc_equation prog m n true /\
     Forall2 (adds_one_of_each_place prog H cc S m n) groups (kinds m n)) /\
  names_resolved prog /\ calls_match prog.
Definition eT_module (s : ModelEt.side) (ground : bool) (H cc e P : nat) (prog : list stmt) : Prop :=
  (forall h, In h (heads prog) <-> exists p opt, p <= cc /\ p <= P /\
     (h = terms_head s p "HZ" opt \/ h = terms_head s p "eT_HZ" opt \/ h = equation_head s p opt)) /\
  (forall p opt, p <= cc -> p <= P ->
     defines_terms s ground prog (terms_head s p "HZ" opt)
       (fun q m n k c => q = 0 /\ of_ansatz s H cc p q m n k c /\ ~ bare_term p q m n k) /\
     defines_terms s ground prog (terms_head s p "eT_HZ" opt)
       (fun q m n k c => 1 <= q <= e /\ of_ansatz s H cc p q m n k c) /\
     defines_equation s prog p opt) /\
  names_resolved prog /\ calls_match prog.

(** The side that is generated. *)
Definition side_asked (c : generator_call) : ModelEt.side :=
  match gc_side c with LHS => ModelEt.LHS | RHS => ModelEt.RHS end.

(** What is in the file: the document or module of the ansatz for the
    truncations of the request.  (The z t document is specified when the
    truncations are those of C59.) *)
Definition content_ok (c : generator_call) (text : string) : Prop :=
  let d := gc_trunc c in
  match gc_kind c, gc_ansatz c with
  | KLatex, FullCC => forall H cc S P, fcc_values d H cc S P ->
      exists body, text = (if gc_ground c then ground_state_vecc_latex_header else full_vecc_latex_header) ++ body /\
        SpecFullCCLatex.latex_text H cc S P (gc_ground c) (gc_remove_f c) body
  | KPython, FullCC => forall H cc S P, fcc_values d H cc S P -> exists prog, python text prog /\ full_cc_module H cc S P prog
  | KLatex, ZT => forall H cc P, zhz_values d (Z.of_nat H) (Z.of_nat cc) (Z.of_nat P) -> H <= 5 \/ cc <= 5 -> cc <= 7 \/ P <= 7 ->
      exists body, text = ground_state_z_t_symmetric_latex_header ++ body /\ SpecZhz.z_latex_text H cc P (gc_remove_f c) body
  | KPython, ZT => False
  | KLatex, ETZT => forall H cc e P, eTz_values d H cc 1 e P ->
      exists body, text = ground_state_z_t_symmetric_latex_header ++ body /\
        SpecEtLatex.eT_latex_text (side_asked c) H cc P e (gc_remove_f c) body
  | KPython, ETZT => forall H cc e P, eTz_values d H cc 1 e P ->
      exists prog, python text prog /\ eT_module (side_asked c) (gc_ground c) H cc e P prog
  end.

(** The text of the truncations file that the values after -t stand for. *)
Definition saved_truncations (a : arguments) (text : string) : Prop :=
  exists values t d, arg_t a = Some values /\ arg_path a = None /\ dict_of_values t values d /\ save_to_JSON d = Ok text.

(** The same arguments with the saved truncations instead of the values. *)
Definition replay (a : arguments) : arguments :=
  mkArgs None (Some truncations_file) (arg_ansatz a) (arg_excited a) (arg_remove_f a) (arg_code a) (arg_lhs a).

(** Requests for the same document or module: -lhs makes no difference outside
    of the e^T ansatz, the python of full coupled cluster depends on no flag, and
    the python of the e^T ansatz not on the removal of f terms. *)
Definition same_output (c c' : generator_call) : Prop :=
  gc_kind c = gc_kind c' /\ gc_ansatz c = gc_ansatz c' /\ gc_trunc c = gc_trunc c' /\
  match gc_kind c, gc_ansatz c with
  | KLatex, FullCC | KLatex, ZT => gc_ground c = gc_ground c' /\ gc_remove_f c = gc_remove_f c'
  | KLatex, ETZT => gc_side c = gc_side c' /\ gc_ground c = gc_ground c' /\ gc_remove_f c = gc_remove_f c'
  | KPython, ETZT => gc_side c = gc_side c' /\ gc_ground c = gc_ground c'
  | KPython, _ => True
  end.

(** The same arguments with -lhs or without. *)
Definition other_side (a : arguments) : arguments :=
  mkArgs (arg_t a) (arg_path a) (arg_ansatz a) (arg_excited a) (arg_remove_f a) (arg_code a) (negb (arg_lhs a)).

(** The arguments ask for this: the truncations, kind, ansatz and flags. *)
Definition asks (fs : files) (a : arguments) (c : generator_call) : Prop :=
  exists t saved, source_ok fs a t saved (gc_trunc c) /\ call_ok a t (gc_trunc c) c.
