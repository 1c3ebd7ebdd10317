(** Specification vocabulary for the text of the generated module of the time
    derivatives of the amplitudes: the functions of the program and what they
    compute. *)
From Coq Require Import List Arith Ascii String.
From Verif Require Import PyBase SpecPartitions SpecW SpecDt SpecPython SpecEtText SpecSumText SpecWText.
Import ListNotations.
Local Open Scope string_scope.

Definition dt_imports : list string :=
  ["from math import factorial"; "import numpy as np"; "import opt_einsum as oe"; "from ..log_conf import log";
   "from .symmetrize import symmetrize_tensor"; "from . import residual_equations"].

(** ** The functions *)

(** The disconnected terms with at most one factor of rank two or more
    ([un = false], "linked"), and the others ([un = true], "un_linked"). *)
Definition linkedness (un : bool) : string := if un then "un_linked" else "linked".
Definition path_word (un : bool) : string := if un then "unlinked" else "linked".
Definition terms_array (un : bool) : string := linkedness un ++ "_disconnected_terms".
Definition terms_name (un : bool) (k : nat) (opt : bool) : string :=
  "_order_" ++ str_nat k ++ "_" ++ linkedness un ++ "_disconnected_terms" ++ optimized opt.
Definition terms_paths (un : bool) : string := "opt_" ++ path_word un ++ "_path_list".
(** The name with the arguments: the definition and the call have the same. *)
Definition terms_call (un : bool) (k : nat) (opt : bool) : string :=
  terms_name un k opt ++ "(A, N, trunc, t_args, dt_args" ++ (if opt then ", " ++ terms_paths un else "") ++ ")".
Definition terms_head (un : bool) (k : nat) (opt : bool) : string := "def " ++ terms_call un k opt ++ ":".

Definition dt_arguments : string := "A, N, ansatz, trunc, epsilon, h_args, t_args, dt_args, w_args".
Definition dt_fun_name (k : nat) (opt : bool) : string :=
  "_calculate_order_" ++ str_nat k ++ "_dt_amplitude" ++ optimized opt.
Definition dt_head (k : nat) (opt : bool) : string :=
  "def " ++ dt_fun_name k opt ++ "(" ++ dt_arguments
  ++ (if opt then ", opt_epsilon, opt_linked_path_list, opt_unlinked_path_list" else "") ++ "):".
Definition solve_head (k : nat) (opt : bool) : string :=
  "def solve_" ++ rank_name k ++ "_equations" ++ optimized opt ++ "(" ++ dt_arguments
  ++ (if opt then ", opt_path_list" else "") ++ "):".
(** [what]: "epsilon", "linked" or "unlinked". *)
Definition dt_paths_call (what : string) : string := "compute_optimized_" ++ what ++ "_paths(A, N, truncation)".
Definition dt_paths_head (what : string) : string := "def " ++ dt_paths_call what ++ ":".
Definition all_paths_head : string := "def compute_optimized_paths(A, N, truncation):".

(** All functions of the module of the orders up to [M], in order. *)
Definition dt_heads (M : nat) : list string :=
  (flat_map (fun opt => map (fun k => terms_head false k opt) (seq 1 M)
                        ++ map (fun k => terms_head true k opt) (seq 1 M)
                        ++ map (fun k => dt_head k opt) (seq 1 M)
                        ++ map (fun k => solve_head k opt) (seq 1 M)) [false; true]
   ++ [all_paths_head; dt_paths_head "epsilon"; dt_paths_head "linked"; dt_paths_head "unlinked"])%list.

(** ** What they compute *)

(** The function of the disconnected terms returns the sum of the products [l]
    when its list of expressions is [q], which it uses up.  It uses no amplitude
    and no derivative it has not unpacked. *)
Definition terms_returns (prog : list stmt) (flag : string -> bool) (un : bool) (k : nat) (opt : bool)
    (q : list string) (l : list (nat * product)) : Prop :=
  exists body doc n ts,
    In (Block (terms_head un k opt) body) prog /\
    exec flag body =
      ([doc; unpack_text (map amp_name (seq 1 n)) "t_args"; unpack_text (map dt_amp_name (seq 1 n)) "dt_args"]
       ++ (if opt then [("optimized_einsum = iter(" ++ terms_paths un ++ ")")%string] else [])
       ++ [(terms_array un ++ " = np.zeros(" ++ amp_shape k ++ ", dtype=complex)")%string]
       ++ ts ++ [("return " ++ terms_array un)%string])%list /\
    String.prefix triple doc = true /\
    adds (terms_array un) q ts l [] /\
    Forall (fun dp => incl (p_ops (snd dp)) (map amp_name (seq 1 n) ++ map dt_amp_name (seq 1 n))) l.

(** The W operator of order [k] times epsilon. *)
Definition w_epsilon (k : nat) : product :=
  let ms := string_of (firstn k mode_letters) in
  mkproduct [w_name k; "epsilon"] ["ac" ++ ms; "cb"] ("ab" ++ ms).
(** The subscripts of this product are written without blanks. *)
Definition tight_subscripts (ins : list string) (out : string) : string := "'" ++ String.concat "," ins ++ "->" ++ out ++ "'".
Definition w_epsilon_einsum (k : nat) : string :=
  let p := w_epsilon k in "np.einsum(" ++ tight_subscripts (p_ins p) (p_out p) ++ ", " ++ commas (p_ops p) ++ ")".
(** The expression for it; epsilon is a matrix. *)
Definition w_epsilon_contract (k : nat) : string :=
  let p := w_epsilon k in
  "oe.contract_expression(" ++ tight_subscripts (p_ins p) (p_out p) ++ ", " ++ commas [amp_shape k; amp_shape 0] ++ ")".
Definition w_epsilon_call (k : nat) : string := "opt_epsilon(" ++ commas (p_ops (w_epsilon k)) ++ ")".

(** The statements [ts] of the function of order [k] subtract the products [l]
    from the residual, when [eps] is the expression handed to it for the product
    with epsilon and [paths un] the list of expressions for the terms. *)
Inductive subtracts (prog : list stmt) (flag : string -> bool) (k : nat) (opt : bool) (eps : string) (paths : bool -> list string)
  : list string -> list (nat * product) -> Prop :=
| subtracts_nothing : subtracts prog flag k opt eps paths [] []
| subtracts_pass ts l : subtracts prog flag k opt eps paths ts l -> subtracts prog flag k opt eps paths ("pass" :: ts) l
| subtracts_epsilon w d call ts l :
    weight_text d w ->
    call = w_epsilon_einsum k \/ (eps = w_epsilon_contract k /\ call = w_epsilon_call k) ->
    subtracts prog flag k opt eps paths ts l ->
    subtracts prog flag k opt eps paths (("residual -= " ++ w ++ " * " ++ call) :: ts) ((d, w_epsilon k) :: l)
| subtracts_terms un l ts l' :
    terms_returns prog flag un k opt (paths un) l -> subtracts prog flag k opt eps paths ts l' ->
    subtracts prog flag k opt eps paths (("residual -= " ++ terms_call un k opt) :: ts) (l ++ l')%list.

(** The function of order [k] takes the residual of that order, subtracts the
    products [l] and returns the symmetrised difference. *)
Definition dt_computes (prog : list stmt) (flag : string -> bool) (k : nat) (opt : bool) (eps : string) (paths : bool -> list string)
    (l : list (nat * product)) : Prop :=
  exists body doc ts,
    In (Block (dt_head k opt) body) prog /\
    exec flag body =
      ([doc; unpack_text (map w_name (seq 1 k)) "w_args";
        ("residual = residual_equations.calculate_order_" ++ str_nat k ++ "_residual(A, N, trunc, h_args, w_args)")%string]
       ++ ts
       ++ [(dt_amp_name k ++ " = symmetrize_tensor(N, residual, order=" ++ str_nat k ++ ")")%string;
           ("return " ++ dt_amp_name k)%string])%list /\
    String.prefix triple doc = true /\
    subtracts prog flag k opt eps paths ts l.

(** The ansatz as the conditions show it. *)
Definition dt_kind (flag : string -> bool) : ansatz_kind :=
  if flag "ansatz.VECI" then Kind_CI else if flag "ansatz.VE_MIXED" then Kind_mixed
  else if flag "ansatz.VECC" then Kind_CC else Kind_CI.

(** [l] is what is subtracted from the residual of order [k]: the product of W
    and epsilon over k!, and, for each disconnected product of amplitudes of the
    ansatz whose ranks sum to [k] and each of its factors, the product with this
    factor differentiated, once, with its weight in exp(T), as a matrix product. *)
Definition is_dt_sum (flag : string -> bool) (k : nat) (l : list (nat * product)) : Prop :=
  exists rest, l = (fact_spec k, w_epsilon k) :: rest /\
    matrix_chain [k; 0] (p_ins (w_epsilon k)) (p_out (w_epsilon k)) /\
    NoDup (map (fun dp => p_ops (snd dp)) rest) /\
    (forall ops, In ops (map (fun dp => p_ops (snd dp)) rest) <->
       exists c i, composition_of k c /\ disconnected_in (dt_kind flag) c /\ i < List.length c /\ ops = leibniz_term c i) /\
    Forall (fun dp => exists c i, composition_of k c /\ i < List.length c /\ p_ops (snd dp) = leibniz_term c i /\
              fst dp = exp_denominator c /\ matrix_chain c (p_ins (snd dp)) (p_out (snd dp))) rest.

(** ** Lists of expressions and the functions a caller uses *)

Definition returns_dt_paths (prog : list stmt) (flag : string -> bool) (un : bool) (result : list (list string)) : Prop :=
  exists body, In (Block (dt_paths_head (path_word un)) body) prog /\ returns_lists (exec flag body) result.
Definition returns_epsilon_paths (prog : list stmt) (flag : string -> bool) (result : list string) : Prop :=
  exists body, In (Block (dt_paths_head "epsilon") body) prog /\ returns_list (exec flag body) result.

(** The function of all lists, and how the function of order [k] unpacks its
    result and hands the entries on. *)
Definition all_paths_body (doc : string) : list string :=
  [doc; ("epsilon_opt_paths = " ++ dt_paths_call "epsilon")%string; ("linked_opt_paths = " ++ dt_paths_call "linked")%string;
   ("unlinked_opt_paths = " ++ dt_paths_call "unlinked")%string;
   "all_opt_paths = [epsilon_opt_paths, linked_opt_paths, unlinked_opt_paths]"; "return all_opt_paths"].
Definition solve_body (k : nat) (opt : bool) : list string :=
  let i := str_nat (k - 1) in
  if opt then
    ["opt_epsilon_path_list, opt_linked_path_list, opt_unlinked_path_list = opt_path_list";
     dt_amp_name k ++ " = " ++ dt_fun_name k opt ++ "( " ++ dt_arguments ++ ", opt_epsilon_path_list[" ++ i
     ++ "], opt_linked_path_list[" ++ i ++ "], opt_unlinked_path_list[" ++ i ++ "] )";
     "return " ++ dt_amp_name k]
  else
    [dt_amp_name k ++ " = " ++ dt_fun_name k opt ++ "(" ++ dt_arguments ++ ")"; "return " ++ dt_amp_name k].
