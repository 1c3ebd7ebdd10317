(** Whether LaTeX can process the documents that are written. *)
From Coq Require Import List Arith ZArith Ascii String.
From Verif Require Import PyBase SpecTex SpecTexDoc ModelHeaders ModelLatexW ModelWFile SpecWFile.
From Verif Require Import SpecFullCC SpecFullCCText ModelFullCC ModelFullCCLatex ModelZhz ModelEtLatex ModelTrunc ModelRun SpecTrunc SpecRun.
From Verif Require ProofsTexFullCC ProofsTexZ ProofsTexEt ProofsWFile ProofsTexRun.
Import ListNotations.
Local Open Scope string_scope.

(** C99: the full coupled cluster document, for all truncations that are
    accepted and all orders of iteration. *)
Theorem C99_full_cc_document :
  forall so son sop d H cc S P ground rf,
    set_order so -> set_order son -> set_order sop ->
    is_dict d -> acceptable Fcc d -> fcc_values d H cc S P -> cc <= 3 \/ P <= 3 ->
    exists text, generate_full_cc_latex so son sop H cc S P ground rf = Ok text /\
      processed ((if ground then ground_state_vecc_latex_header else full_vecc_latex_header) ++ text).
Proof. exact ProofsTexRun.full_cc_document. Qed.
Print Assumptions C99_full_cc_document.

(** C99: the z t document, also when the letters have run out or a sum is broken
    into lines. *)
Theorem C99_z_t_document :
  forall H cc P rf,
    (cc <= 8 \/ P <= 8 -> exists text, generate_z_t_symmetric_latex H cc P true rf = Ok text) /\
    forall text, generate_z_t_symmetric_latex H cc P true rf = Ok text -> processed (ground_state_z_t_symmetric_latex_header ++ text).
Proof. exact ProofsTexRun.z_t_document. Qed.
Print Assumptions C99_z_t_document.

(** C99: the e^T document, on both sides. *)
Theorem C99_eT_document :
  forall s H cc P e rf, 1 <= e -> Nat.min cc P <= 8 ->
    exists text, generate_eT_z_t_symmetric_latex s true rf H cc 1 e P = Ok text /\
      processed (ground_state_z_t_symmetric_latex_header ++ text).
Proof. exact ProofsTexRun.eT_document. Qed.
Print Assumptions C99_eT_document.

(** The reader is not content with anything: an undefined command, a missing
    brace, a second superscript, an empty line in a formula, a missing end. *)
Definition in_document (s : string) : string := w_equations_latex_header ++ s ++ "\end{document}".
Example C99_reader_examples :
  map (fun s => ProofsTexRun.processed_b (in_document s))
    ["$a$"; "$\nothing$"; "$\bh^{a$"; "$\bh^{a}^{b}$"; "$a"; "a^b"; "\begin{align}a\end{split}"; "\begin{align}a&b\\c&d\end{align}"]
  = [true; false; false; false; false; false; false; true] /\
  ProofsTexRun.processed_b (in_document ("$a" ++ newline ++ newline ++ "b$")) = false /\
  ProofsTexRun.processed_b w_equations_latex_header = false /\
  (let h p := "\documentclass{article}" ++ p ++ "\begin{document}\begin{align}a\end{align}\end{document}" in
   map (fun p => ProofsTexRun.processed_b (h p)) [""; "\usepackage{amsmath}"; "\usepackage{physics}"; "\usepackage{color}"])
  = [false; true; true; false].
Proof. vm_compute. repeat split. Qed.

Example C99_example :
  let d := [(DEnum KH, 2%Z); (DEnum KCC, 2%Z); (DEnum KS, 1%Z); (DEnum KP, 1%Z)] in
  is_dict d /\ acceptable Fcc d /\ fcc_values d 2 2 1 1 /\
  match generate_full_cc_latex (fun l => l) (fun l => l) (fun l => l) 2 2 1 1 false false with
  | Ok text => ProofsTexRun.processed_b (full_vecc_latex_header ++ text)
  | Err _ => false
  end = true.
Proof. split; [|split; [|split; [|vm_compute; reflexivity]]].
  - apply ProofsTexRun.example_dict.
  - apply ProofsTexRun.example_dict.
  - apply ProofsTexRun.example_dict.
Qed.

(** A sum with fourteen terms is broken into lines. *)
Example C99_z_t_example :
  match generate_z_t_symmetric_latex 14 14 0 true false with
  | Ok text => (ProofsTexRun.processed_b (ground_state_z_t_symmetric_latex_header ++ text), PyStr.contains "% split long equation" text)
  | Err _ => (false, false)
  end = (true, true).
Proof. vm_compute. reflexivity. Qed.

(** C100: whatever the arguments, the LaTeX file that a run of the driver writes
    is a document that LaTeX processes. *)
Theorem C100_run_writes_a_document :
  forall lt ln lp pt pn pl pc,
    set_order lt -> set_order ln -> set_order lp -> set_order pt -> set_order pn -> set_order pl -> set_order pc ->
    forall fs a fs' saved c,
      run lt ln lp pt pn pl pc fs a = (fs', Ok tt) -> driver_main fs a = Ok (saved, c) -> gc_kind c = KLatex ->
      exists text, fs' (gc_path c) = Some text /\ processed text.
Proof. exact ProofsTexRun.run_document. Qed.
Print Assumptions C100_run_writes_a_document.

Example C100_example :
  let run := run (fun l => l) (fun l => l) (fun l => l) (fun l => l) (fun l => l) (fun l => l) (fun l => l) in
  let a := mkArgs (Some [1; 1; 1; 1]%Z) None None false None false false in
  match driver_main (fun _ => None) a with
  | Ok (_, c) => gc_kind c = KLatex /\ gc_ansatz c = FullCC /\ snd (run (fun _ => None) a) = Ok tt /\
                 match fst (run (fun _ => None) a) (gc_path c) with Some text => ProofsTexRun.processed_b text | None => false end = true
  | Err _ => False
  end.
Proof. vm_compute. repeat split. Qed.

(** C101: the file of the ground state W operators is a document for every order,
    in every order of iteration, and replaces whatever was there. *)
Theorem C101_ground_state_w_document :
  forall so old n, processed (ground_state_w_file so old n) /\ ground_state_w_file so old n = ground_state_w_file so None n.
Proof. intros so old n. split; [exact (ProofsWFile.ground_w_processed so old n)|reflexivity]. Qed.
Print Assumptions C101_ground_state_w_document.

Example C101_example :
  ProofsTexRun.processed_b (ground_state_w_file (fun l => l) None 4) = true /\
  ProofsTexRun.processed_b (w_equations_latex_header ++ ground_state_w_equations_latex (fun l => l) 4) = false.
Proof. vm_compute. split; reflexivity. Qed.

(** C102: the file of the thermal W operators is never a document: not when it
    is new, and not when the first 29 lines of the old file do not begin one. *)
Theorem C102_thermal_file_is_no_document :
  forall so orders, set_order so -> forall old, orders <> [] -> no_document_kept old ->
    exists text, excited_state_w_files so old orders = Ok (Some text) /\ ~ processed text /\ ~ begins_document text.
Proof. exact ProofsTexRun.thermal_runs_all. Qed.
Print Assumptions C102_thermal_file_is_no_document.

(** C102: that is so for no file, and for every file with a header of the
    project: there the document begins after the 29 lines that are kept. *)
Theorem C102_where_it_applies :
  no_document_kept None /\
  forall h rest, In h [w_equations_latex_header; full_vecc_latex_header; ground_state_vecc_latex_header;
                       full_z_t_symmetric_latex_header; ground_state_z_t_symmetric_latex_header] ->
    no_document_kept (Some (h ++ rest)).
Proof. split; [exact ProofsTexRun.nothing_kept|exact ProofsTexRun.header_kept]. Qed.
Print Assumptions C102_where_it_applies.

(** C102: so the claim that the function writes a document fails for every
    order. *)
Theorem C102_thermal_file_is_a_document_refuted :
  forall so n, set_order so -> exists text, excited_state_w_file so None n = Ok text /\ ~ processed text.
Proof. exact ProofsTexRun.thermal_refuted. Qed.
Print Assumptions C102_thermal_file_is_a_document_refuted.

(** C102: and a second run writes another file. *)
Theorem C102_second_run_same_file_refuted :
  forall so n file1 file2, excited_state_w_file so None n = Ok file1 -> excited_state_w_file so (Some file1) n = Ok file2 -> file1 <> file2.
Proof. exact ProofsTexRun.thermal_grows. Qed.
Print Assumptions C102_second_run_same_file_refuted.

(** An old file whose document begins early enough is outside of the theorem. *)
Example C102_example :
  no_document_kept (Some (ground_state_w_file (fun l => l) None 2)) /\
  begins_document ("\documentclass{article}" ++ newline ++ "\begin{document}" ++ newline) /\
  ProofsTexRun.processed_b (in_document "") = true.
Proof.
  split; [apply ProofsTexRun.header_kept; now left|]. split; [|vm_compute; reflexivity].
  exists (firstn 10 (tokens ("\documentclass{article}" ++ newline ++ "\begin{document}" ++ newline))).
  eexists. vm_compute. reflexivity.
Qed.
