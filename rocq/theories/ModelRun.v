(** Model of a whole run of /repo/termfactory/driver.py: the truncations, the
    request, the generator, and the files that are written.  The parts are
    those of ModelTrunc (command line, dispatch, paths), ModelFullCCLatex,
    ModelFullCCPy, ModelZhz, ModelEtLatex, ModelEtPy (texts) and ModelHeaders.
    The words of the command line and the log file are in ModelCommandLine and
    ModelMain. *)
From Coq Require Import ZArith.
From Verif Require Import PyBase PyStr ModelFullCC ModelFullCCPy ModelFullCCLatex ModelZhz ModelEt ModelEtPy ModelEtLatex ModelTrunc ModelHeaders.
Open Scope string_scope.

(** ** Files
    The text of each path, None when there is no file.  Paths are compared as
    texts: two spellings of one file are two paths here. *)
Definition files := string -> option string.

(** [with open(path, 'w') as fp: fp.write(content)] *)
Definition write (fs : files) (path content : string) : files :=
  fun p => if String.eqb p path then Some content else fs p.

(** ** driver.py in two parts *)

(** lines 82-104: the truncations, and the text saved in ../truncs.json *)
Definition driver_source (file : files) (a : arguments) : res (option string * dict) :=
  match arg_t a, arg_path a with
  | Some _, Some _ => Err GenericException
  | Some values, None =>
      do d <- make_trunc values; do text <- save_to_JSON d; Ok (Some text, d)
  | None, Some p =>
      match file p with
      | None => Err AssertionErr
      | Some text => do d <- load_from_JSON text; Ok (None, d)
      end
  | None, None => Err GenericException
  end.

(** lines 106-155: flags, ansatz, dispatch *)
Definition driver_request (a : arguments) (d : dict) : res generator_call :=
  let ground := negb (arg_excited a) in
  let remove_f := match arg_remove_f a with Some s => negb (String.eqb s "") | None => false end in
  do an <- match arg_ansatz a with
           | Some name =>
               if String.eqb name "" then
                 do t <- key_list_type (List.length d); Ok (ansatz_of_type t)
               else ansatz_of_name name
           | None => do t <- key_list_type (List.length d); Ok (ansatz_of_type t)
           end;
  dispatch (if arg_code a then KPython else KLatex) an d ground remove_f
    (if arg_lhs a then ModelTrunc.LHS else ModelTrunc.RHS).

(** ** The texts that the five generators write *)

Definition side_of (s : ModelTrunc.side) : ModelEt.side :=
  match s with ModelTrunc.LHS => ModelEt.LHS | ModelTrunc.RHS => ModelEt.RHS end.

(** latex_full_cc.py 1572-1577, latex_zhz.py 1856-1861, latex_eT_zhz.py
    2271-2276 *)
Definition vecc_header (only_ground_state : bool) : string :=
  if only_ground_state then ground_state_vecc_latex_header else full_vecc_latex_header.
Definition z_t_header (only_ground_state : bool) : string :=
  if only_ground_state then ground_state_z_t_symmetric_latex_header else full_z_t_symmetric_latex_header.

(** latex_zhz.py 1721-1869 again: here the truncations are not verified and may
    be negative.  [range] is then empty: there are no projections (1734) or
    there is no Hamiltonian (1735-1740). *)
Definition z_projections (maximum_cc_rank omega_max_order : Z) : list gop :=
  if (maximum_cc_rank <? 0)%Z || (omega_max_order <? 0)%Z then []
  else generate_omega_operator (Z.to_nat maximum_cc_rank) (Z.to_nat omega_max_order).
Definition z_hamiltonian (maximum_h_rank : Z) : list hop :=
  if (maximum_h_rank <? 0)%Z then [] else pruned_hamiltonian (Z.to_nat maximum_h_rank).
Definition z_t_latex (maximum_h_rank maximum_cc_rank omega_max_order : Z)
    (only_ground_state remove_f_terms : bool) : res string :=
  do l <- mapM (fun omega =>
            do _ <- py_nth rank_names (g_rank omega);
            do e <- generate_z_symmetric_latex_equations omega (z_hamiltonian maximum_h_rank)
                      (generate_z_operator (Z.to_nat maximum_cc_rank) only_ground_state) only_ground_state remove_f_terms;
            Ok (omega, e)) (z_projections maximum_cc_rank omega_max_order);
  Ok ((if remove_f_terms then "\textbf{Note that all terms with a $f$ prefactor have been removed}" ++ nl else "")
      ++ render_z_equations (match rev l with [] => 0 | (omega, _) :: _ => g_rank omega end) l
      ++ "\end{document}").

(** [truncations[key]] after the verification, which makes it positive *)
Definition rank_value (d : dict) (k : tkey) : res nat := do v <- dict_value d k; Ok (Z.to_nat v).

Section Run.
  (** The orders in which the sets of the full coupled cluster generators are
      iterated: LaTeX first, then python. *)
  Variable lt : list (list tamp) -> list (list tamp).
  Variable ln : list nat -> list nat.
  Variable lp : list (list (nat * nat)) -> list (list (nat * nat)).
  Variable pt : list (list tamp) -> list (list tamp).
  Variable pn : list nat -> list nat.
  Variable pl : list (list nat) -> list (list nat).
  Variable pc : list (list ascii) -> list (list ascii).

  (** latex_full_cc.py 1524-1583, code_full_cc.py 1287-1304, latex_zhz.py
      1721-1869, latex_eT_zhz.py 2114-2284, code_eT_zhz.py 2041-2055: the data
      that is written to the path, or the exception that ends the generation
      before the file is opened.  There is no python for the z t ansatz
      (_glue_.py 48-50), the dispatcher has refused it. *)
  Definition generate (c : generator_call) : res string :=
    let d := gc_trunc c in
    match gc_kind c, gc_ansatz c with
    | KLatex, FullCC =>
        do _ <- verify_truncations Fcc d;
        do h <- rank_value d KH; do cc <- rank_value d KCC; do s <- rank_value d KS; do p <- rank_value d KP;
        do body <- generate_full_cc_latex lt ln lp h cc s p (gc_ground c) (gc_remove_f c);
        Ok (vecc_header (gc_ground c) ++ body)
    | KLatex, ZT =>
        do h <- dict_value d KH; do cc <- dict_value d KCC; do p <- dict_value d KP;
        do body <- z_t_latex h cc p (gc_ground c) (gc_remove_f c);
        Ok (z_t_header (gc_ground c) ++ body)
    | KLatex, ETZT =>
        do _ <- verify_truncations ETz d;
        do h <- rank_value d KH; do cc <- rank_value d KCC; do t <- rank_value d KT; do e <- rank_value d KeT;
        do p <- rank_value d KP;
        do body <- generate_eT_z_t_symmetric_latex (side_of (gc_side c)) (gc_ground c) (gc_remove_f c) h cc t e p;
        Ok (z_t_header (gc_ground c) ++ body)
    | KPython, FullCC =>
        do _ <- verify_truncations Fcc d;
        do cc <- rank_value d KCC; do p <- rank_value d KP; do h <- rank_value d KH; do s <- rank_value d KS;
        generate_full_cc_python pt pn pl pc h cc s p
    | KPython, ETZT =>
        do _ <- verify_truncations ETz d;
        do h <- rank_value d KH; do cc <- rank_value d KCC; do t <- rank_value d KT; do e <- rank_value d KeT;
        do p <- rank_value d KP;
        generate_eT_zhz_python (side_of (gc_side c)) (gc_ground c) h cc t e p
    | KPython, ZT => Err NotImplementedErr
    end.

  (** driver.py 71-155, _glue_.py: the files after the run, and how it ends. *)
  Definition run (fs : files) (a : arguments) : files * res unit :=
    match driver_source fs a with
    | Err e => (fs, Err e)
    | Ok (saved, d) =>
        let fs1 := match saved with Some text => write fs "../truncs.json" text | None => fs end in
        match driver_request a d with
        | Err e => (fs1, Err e)
        | Ok c =>
            match generate c with
            | Err e => (fs1, Err e)
            | Ok text => (write fs1 (gc_path c) text, Ok tt)
            end
        end
    end.
End Run.
