(** Specification vocabulary for the text of the generated module of the W
    operators: the functions of the program and what they add. *)
From Coq Require Import List Arith Ascii String.
From Verif Require Import PyBase SpecPartitions SpecW SpecPython SpecEtText SpecSumText.
Import ListNotations.
Local Open Scope string_scope.

Definition w_imports : list string :=
  ["from math import factorial"; "import numpy as np"; "import opt_einsum as oe";
   "from .symmetrize import symmetrize_tensor"; "from ..log_conf import log"].

(** ** The functions *)

Definition w_array (k : nat) : string := "W_" ++ str_nat k.

(** The functions that add the disconnected products: with at most one factor
    of rank two or more ("vemx"), and the others ("vecc"). *)
Definition helper_name (kind : string) (k : nat) (opt : bool) : string :=
  "_add_order_" ++ str_nat k ++ "_" ++ kind ++ "_contributions" ++ optimized opt.
Definition helper_head (kind : string) (k : nat) (opt : bool) : string :=
  "def " ++ helper_name kind k opt ++ "(" ++ w_array k ++ ", t_args, truncation"
  ++ (if opt then ", opt_path_list" else "") ++ "):".
Definition helper_call (kind : string) (k : nat) (opt : bool) : string :=
  helper_name kind k opt ++ "(" ++ w_array k ++ ", t_args, truncation"
  ++ (if opt then ", " ++ kind ++ "_opt_path_list" else "") ++ ")".

Definition w_fun_name (k : nat) (opt : bool) : string :=
  "_calculate_order_" ++ str_nat k ++ "_w_operator" ++ optimized opt.
Definition w_head (k : nat) (opt : bool) : string :=
  "def " ++ w_fun_name k opt ++ "(A, N, t_args, ansatz, truncation"
  ++ (if opt then ", vemx_opt_path_list, vecc_opt_path_list" else "") ++ "):".

Definition compute_w_head (opt : bool) : string :=
  "def compute_w_operators" ++ optimized opt ++ "(A, N, t_args, ansatz, truncation"
  ++ (if opt then ", vemx_optimized_paths, vecc_optimized_paths" else "") ++ "):".
Definition paths_head (kind : string) : string := "def compute_optimized_" ++ kind ++ "_paths(A, N, truncation):".

(** All functions of the module of the orders up to [M], in order. *)
Definition w_heads (M : nat) : list string :=
  (flat_map (fun opt => map (fun k => helper_head "vemx" k opt) (seq 1 M)
                        ++ map (fun k => helper_head "vecc" k opt) (seq 1 M)
                        ++ map (fun k => w_head k opt) (seq 1 M)
                        ++ [compute_w_head opt]) [false; true]
   ++ [paths_head "vemx"; paths_head "vecc"])%list.

(** ** What they add *)

(** The truncation and the ansatz are seen through the conditions. *)
Definition trunc_of (flag : string -> bool) (r : string) : bool := flag ("truncation." ++ r).

(** The conditions that are negated in the text. *)
Definition negations (flag : string -> bool) : Prop :=
  forall r, flag ("not truncation." ++ r) = negb (flag ("truncation." ++ r)).

(** The helper adds the products [l] to its array when its list of expressions
    is [q], which it uses up.  It uses no amplitude it has not unpacked. *)
Definition helper_adds (prog : list stmt) (flag : string -> bool) (kind : string) (k : nat) (opt : bool)
    (q : list string) (l : list (nat * product)) : Prop :=
  exists body doc n ts,
    In (Block (helper_head kind k opt) body) prog /\
    exec flag body =
      ([doc; unpack_text (map amp_name (seq 1 n)) "t_args"]
       ++ (if opt then ["optimized_einsum = iter(opt_path_list)"] else []) ++ ts ++ ["return"])%list /\
    String.prefix triple doc = true /\
    adds (w_array k) q ts l [] /\
    Forall (fun dp => incl (p_ops (snd dp)) (map amp_name (seq 1 n))) l.

(** A single amplitude as a product. *)
Definition single (k : nat) : product :=
  let s := string_of ("a" :: "b" :: firstn k mode_letters)%char in mkproduct [amp_name k] [s] s.

(** The statements [ts] of the function of W of order [k] add the products [l],
    when [paths kind] is the list of expressions handed to the helper. *)
Inductive contributes (prog : list stmt) (flag : string -> bool) (k : nat) (opt : bool) (paths : string -> list string)
  : list string -> list (nat * product) -> Prop :=
| contributes_nothing : contributes prog flag k opt paths [] []
| contributes_pass ts l : contributes prog flag k opt paths ts l -> contributes prog flag k opt paths ("pass" :: ts) l
| contributes_single t d ts l :
    (t = w_array k ++ " += " ++ amp_name k /\ d = 1 \/
     exists w, weight_text d w /\ t = w_array k ++ " += " ++ w ++ " * " ++ amp_name k) ->
    contributes prog flag k opt paths ts l ->
    contributes prog flag k opt paths (t :: ts) ((d, single k) :: l)
| contributes_helper kind l ts l' :
    helper_adds prog flag kind k opt (paths kind) l -> contributes prog flag k opt paths ts l' ->
    contributes prog flag k opt paths (helper_call kind k opt :: ts) (l ++ l')%list.

(** The function of W of order [k]: it unpacks the amplitudes, makes an array
    of the right shape, adds the products [l], and returns the symmetrised
    array. *)
Definition w_adds (prog : list stmt) (flag : string -> bool) (k : nat) (opt : bool) (paths : string -> list string)
    (l : list (nat * product)) : Prop :=
  exists body doc ts,
    In (Block (w_head k opt) body) prog /\
    exec flag body =
      ([doc; unpack_text (map amp_name (seq 1 k)) "t_args";
        (w_array k ++ " = np.zeros(" ++ amp_shape k ++ ", dtype=complex)")%string]
       ++ ts
       ++ (if Nat.eqb k 1 then [("return " ++ w_array k)%string]
           else [("symmetric_w = symmetrize_tensor(N, " ++ w_array k ++ ", order=" ++ str_nat k ++ ")")%string;
                 "return symmetric_w"]))%list /\
    String.prefix triple doc = true /\
    contributes prog flag k opt paths ts l.

(** The products an ansatz keeps. *)
Definition kept (flag : string -> bool) (c : list nat) : Prop :=
  if flag "ansatz.VE_MIXED" then big_parts c <= 1
  else if flag "ansatz.VECC" then True
  else List.length c = 1.

(** [l] is the W operator of order [k]: each kept product of amplitudes inside
    the truncation whose ranks sum to [k], once, with its weight in exp(T), as
    a matrix product. *)
Definition is_w_sum (flag : string -> bool) (k : nat) (l : list (nat * product)) : Prop :=
  NoDup (map (fun dp => p_ops (snd dp)) l) /\
  (forall ops, In ops (map (fun dp => p_ops (snd dp)) l) <->
     exists c, composition_of k c /\ kept flag c /\ allowed (trunc_of flag) c /\ ops = map amp_name c) /\
  Forall (fun dp => exists c, composition_of k c /\ p_ops (snd dp) = map amp_name c /\
            fst dp = exp_denominator c /\ matrix_chain c (p_ins (snd dp)) (p_out (snd dp))) l.

(** ** Lists of expressions and the function of all operators *)

Definition returns_paths (prog : list stmt) (flag : string -> bool) (kind : string) (result : list (list string)) : Prop :=
  exists body, In (Block (paths_head kind) body) prog /\ returns_lists (exec flag body) result.

(** The list handed to a helper, from the lists [vx] and [vc] of the order. *)
Definition choose (vx vc : list string) (kind : string) : list string :=
  if String.eqb kind "vemx" then vx else if String.eqb kind "vecc" then vc else [].

Definition compute_w_call (k : nat) (opt : bool) : string :=
  "w_" ++ str_nat k ++ " = " ++ w_fun_name k opt ++ "(A, N, t_args, ansatz, truncation"
  ++ (if opt then ", vemx_optimized_paths[" ++ str_nat (k - 1) ++ "], vecc_optimized_paths[" ++ str_nat (k - 1) ++ "]" else "")
  ++ ")".
(** The operators up to [n], and nothing for the other orders up to six. *)
Definition w_result (n : nat) : string :=
  "return " ++ commas (map (fun k => ("w_" ++ str_nat k)%string) (seq 1 n) ++ repeat "None" (6 - n))%list.

(** [starts_with ts p]: the statements [p] are executed first (a return or an
    exception ends the function there). *)
Definition starts_with (ts p : list string) : Prop := exists after, ts = (p ++ after)%list.
Definition raises (t : string) : Prop := String.prefix "raise " t = true.
