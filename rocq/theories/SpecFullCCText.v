(** Specification vocabulary for the text of the generated python code of the
    full coupled cluster equations: what the statements do, how the conditions
    are named, and the functions of the program. *)
From Coq Require Import List Arith Permutation Ascii String.
From Verif Require Import PyBase ModelFullCC ModelFullCCPy SpecFullCC SpecFullCCPy SpecPython SpecEtText.
Import ListNotations.
Local Open Scope string_scope.

(** The conditions for the Hamiltonian and for the largest amplitude. *)
Definition cc_h_condition (i : nat) : string :=
  "truncation.at_least_" ++ nth i [""; "linear"; "quadratic"; "cubic"; "quartic"; "quintic"] "".
Definition cc_t_condition (j : nat) : string :=
  "truncation." ++ nth j [""; "singles"; "doubles"; "triples"; "quadruples"; "quintuples"; "sextuples"] "".

(** ** Calls *)

Definition pair_of (mn : nat * nat) : string := "(" ++ str_nat (fst mn) ++ ", " ++ str_nat (snd mn) ++ ")".
Definition h_operand (mn : nat * nat) : string := "h_args[" ++ pair_of mn ++ "]".
Definition t_operands (l : list (nat * nat)) : string :=
  String.concat ", " (map (fun mn => "t_args[" ++ pair_of mn ++ "]") l).

Definition einsum_text (c : einsum) : string :=
  "np.einsum('" ++ String.concat ", " (e_inputs c) ++ " -> " ++ e_output c ++ "', "
  ++ h_operand (e_h c) ++ ", " ++ t_operands (e_ts c) ++ ")".
Definition next_text (c : next_call) : string :=
  "next(optimized_einsum)(" ++ h_operand (n_hop c) ++ ", " ++ t_operands (n_ts c) ++ ")".

(** A tensor with two electronic axes and [k] vibrational axes. *)
Definition shape_text (k : nat) : string := "(A, A" ++ String.concat "" (repeat ", N" k) ++ ")".
Definition contract_text (c : list nat) : string :=
  "oe.contract_expression(" ++ String.concat ", " (map shape_text c) ++ ")".

(** ** Statements *)

Definition bare_text (mn : nat * nat) : string := "R += " ++ h_operand mn.

(** The statement [t] adds the contributions [l] (prefactor and call). *)
Definition sum_adds {C} (text : C -> string) (t : string) (l : list (string * C)) : Prop :=
  exists p calls, calls <> [] /\ l = map (pair p) calls /\
    t = "R += " ++ p ++ sum_text (map text calls).

(** The statement [t] puts the entries [l] at the end of the list [name]. *)
Definition list_adds (name t : string) (l : list (list nat)) : Prop :=
  (exists c, l = [c] /\ t = name ++ ".append(" ++ contract_text c ++ ")") \/
  (2 <= List.length l /\ t = name ++ ".extend([ " ++ String.concat ", " (map contract_text l) ++ " ])").

(** The statements [ts] do [l], in this order. *)
Definition in_order {D} (adds : string -> list D -> Prop) (ts : list string) (l : list D) : Prop :=
  exists ls, Forall2 adds ts ls /\ l = List.concat ls.

(** The block [b]: whatever the truth values of the conditions, it adds the
    bare Hamiltonian operands and then what the flags select; or it is the
    single statement [pass] if there is nothing to do under any flags. *)
Definition branch_does {D} (adds : string -> list D -> Prop) (bares : list (nat * nat))
    (what : (nat -> bool) -> (nat -> bool) -> list D) (b : list stmt) : Prop :=
  b <> [] /\
  ((b = [Simple "pass"] /\ bares = [] /\ forall fh ft, what fh ft = []) \/
   (forall flag, exists ts, exec flag b = (map bare_text bares ++ ts)%list /\
      in_order adds ts (what (fun i => flag (cc_h_condition i)) (fun j => flag (cc_t_condition j))))).

(** ** The program *)

Definition cc_imports : list string :=
  ["from math import factorial"; "import numpy as np"; "import opt_einsum as oe";
   "from .symmetrize import symmetrize_tensor"; "from ..log_conf import log"].

(** The three groups of terms: name in the functions, name in the arguments. *)
Definition groups : list (string * string) :=
  [("fully_connected", "connected"); ("linked_disconnected", "linked"); ("unlinked_disconnected", "unlinked")].

Definition of_projection (m n : nat) : string := "m" ++ str_nat m ++ "_n" ++ str_nat n.
Definition cc_terms_name (m n : nat) (g : string * string) (opt : bool) : string :=
  "add_" ++ of_projection m n ++ "_" ++ fst g ++ "_terms" ++ optimized opt.
Definition cc_terms_head (m n : nat) (g : string * string) (opt : bool) : string :=
  "def " ++ cc_terms_name m n g opt ++ "(R, ansatz, truncation, h_args, t_args"
  ++ (if opt then ", opt_" ++ snd g ++ "_path_list" else "") ++ "):".
Definition cc_equation_head (m n : nat) (opt : bool) : string :=
  "def compute_" ++ of_projection m n ++ "_amplitude" ++ optimized opt ++ "(A, N, ansatz, truncation, h_args, t_args"
  ++ (if opt then ", opt_path_lists" else "") ++ "):".
Definition cc_path_name (m n : nat) (g : string * string) : string :=
  "compute_" ++ of_projection m n ++ "_" ++ fst g ++ "_optimized_paths".
Definition cc_path_head (m n : nat) (g : string * string) : string :=
  "def " ++ cc_path_name m n g ++ "(A, N, ansatz, truncation):".
Definition cc_grouped_name (m n : nat) : string := "compute_" ++ of_projection m n ++ "_optimized_paths".
Definition cc_grouped_head (m n : nat) : string := "def " ++ cc_grouped_name m n ++ "(A, N, ansatz, truncation):".
Definition cc_all_head : string := "def compute_all_optimized_paths(A, N, ansatz, truncation):".

Definition no_hot_band : stmt :=
  Simple "raise NotImplementedError('Hot Band amplitudes not implemented properly and have not been theoretically verified!')".

(** The program has the function for the terms of a group; the branch of the
    ground state satisfies [does], other states raise an exception.  The
    optimised function makes an iterator of the list of its group. *)
Definition defines_cc_terms (prog : list stmt) (m n : nat) (opt : bool) (g : string * string)
    (does : list stmt -> Prop) : Prop :=
  exists doc ours,
    In (Block (cc_terms_head m n g opt)
          ([Simple doc]
           ++ (if opt then [Simple ("optimized_einsum = iter(opt_" ++ snd g ++ "_path_list)")] else [])
           ++ [If "ansatz.ground_state" ours [no_hot_band]; Simple "return"])%list) prog /\
    String.prefix triple doc = true /\ does ours.

(** The function for the paths of a group: it starts with an empty list and
    returns the list. *)
Definition path_list_name (g : string * string) : string := fst g ++ "_opt_path_list".
Definition defines_cc_paths (prog : list stmt) (m n : nat) (g : string * string) (does : list stmt -> Prop) : Prop :=
  exists doc ours,
    In (Block (cc_path_head m n g)
          [Simple doc; Simple (path_list_name g ++ " = []"); If "ansatz.ground_state" ours [no_hot_band];
           Simple ("return " ++ path_list_name g)]) prog /\
    String.prefix triple doc = true /\ does ours.

(** The function of the amplitude: it checks the truncation, makes a tensor of
    the right rank, takes the three path lists of the projection, and calls the
    functions of the three groups. *)
Definition defines_cc_equation (prog : list stmt) (m n : nat) (opt : bool) : Prop :=
  exists doc,
    In (Block (cc_equation_head m n opt)
          ([Simple doc; Simple "truncation.confirm_at_least_singles()";
            Simple ("R = np.zeros(shape=" ++ shape_text (m + n) ++ ", dtype=complex)")]
           ++ (if opt then [Simple ("opt_connected_path_list, opt_linked_path_list, opt_unlinked_path_list = opt_path_lists[" ++ pair_of (m, n) ++ "]")] else [])
           ++ map (fun g => Simple (cc_terms_name m n g opt ++ "(R, ansatz, truncation, h_args, t_args"
                                    ++ (if opt then ", opt_" ++ snd g ++ "_path_list" else "") ++ ")")) groups
           ++ [Simple "return R"])%list) prog /\
    String.prefix triple doc = true.

(** The function of the paths of a projection: the three lists in the order in
    which the function of the amplitude takes them. *)
Definition defines_cc_grouped (prog : list stmt) (m n : nat) : Prop :=
  exists doc,
    In (Block (cc_grouped_head m n)
          ([Simple doc; Simple "truncation.confirm_at_least_singles()"]
           ++ map (fun g => Simple (snd g ++ "_opt_path_list = " ++ cc_path_name m n g ++ "(A, N, ansatz, truncation)")) groups
           ++ [Simple ("return_dict = { " ++ pair_of (m, n) ++ ": [connected_opt_path_list, linked_opt_path_list, unlinked_opt_path_list] }");
               Simple "return return_dict"])%list) prog /\
    String.prefix triple doc = true.

(** The function of all paths, for the projections [ps]. *)
Definition defines_cc_all (prog : list stmt) (ps : list (nat * nat)) : Prop :=
  exists doc,
    In (Block cc_all_head
          ([Simple doc; Simple "all_opt_path_lists = []"]
           ++ map (fun mn => Simple ("all_opt_path_lists[" ++ pair_of mn ++ "] = " ++ cc_grouped_name (fst mn) (snd mn)
                                     ++ "(A, N, ansatz, truncation)[" ++ pair_of mn ++ "]")) ps
           ++ [Simple "return all_opt_path_lists"])%list) prog /\
    String.prefix triple doc = true.

(** The first lines of the functions of a projection. *)
Definition cc_heads (m n : nat) : list string :=
  (flat_map (fun opt => map (fun g => cc_terms_head m n g opt) groups ++ [cc_equation_head m n opt]) [false; true]
   ++ map (cc_path_head m n) groups ++ [cc_grouped_head m n])%list.

(** ** What the functions of a projection add *)

(** As [keeps_last], for what is added instead of for a body: all bare terms of
    [l], and of the other terms the last one of each place, under its flags. *)
Definition keeps_last_of {C} (so : list nat -> list nat) (calls_of : term -> res (list C)) (l : list term)
    (bares : list (nat * nat)) (what : (nat -> bool) -> (nat -> bool) -> list (string * C)) : Prop :=
  exists surv calls,
    lasts (slot so) (with_amplitudes l) surv /\
    (forall t, In t (with_amplitudes l) -> calls_of t = Ok (calls t) /\ calls t <> []) /\
    bares = map h_of (filter bare l) /\
    forall fh ft, Permutation (what fh ft)
      (flat_map (fun t => if active fh ft (slot so t)
                          then map (fun c => (snd (slot so t), c)) (calls t) else []) surv).

(** The terms of a group of a projection: the requested contractions of that
    kind, each once. *)
Definition kinds (m n : nat) : list (list tamp -> Prop) := [fully_connected; linked m n; unlinked m n].
Definition group_terms (H cc S m n : nat) (kind : list tamp -> Prop) (l : list term) : Prop :=
  NoDup l /\
  (forall t, In t l -> exists hm hn us f fbar,
     requested m n H cc S true true hm hn us f fbar /\ kind us /\ describes m n hm hn us f fbar t) /\
  (forall hm hn us f fbar, requested m n H cc S true true hm hn us f fbar -> kind us ->
     exists us' t, Permutation us us' /\ describes m n hm hn us' f fbar t /\ In t l).

(** The contribution [pc] is a requested contraction of the projection with the
    prefactor of its contraction. *)
Definition is_requested (H cc S m n : nat) (pc : string * einsum) : Prop :=
  exists hm hn (us : list tamp) f fbar x num den, us <> [] /\
    requested m n H cc S true true hm hn us f fbar /\
    realises m n hm hn f fbar us (snd pc) /\
    fst pc = prefactor_text num den /\
    different_connected us x /\
    fact_product num * (fact hm * fact hn * fact (List.length us)) = fact x * fact_product den.

(** The flags of a contribution are set. *)
Definition flags_set (fh ft : nat -> bool) (c : einsum) : Prop :=
  (fst (flags_of c) = 0 \/ fh (fst (flags_of c)) = true) /\ ft (snd (flags_of c)) = true.

Definition without_subscripts (pc : string * einsum) : string * next_call :=
  (fst pc, mknext (e_h (snd pc)) (e_ts (snd pc))).

(** The default function of the group [g], the optimised function and the
    function of the paths, for the terms [l] of the group: the default function
    adds the requested contractions of [l]; the optimised function adds the same
    contractions with the next entry of its list each; the list has the shapes
    of the operands of these calls, in this order. *)
Definition group_functions (prog : list stmt) (so : list nat -> list nat) (calls_of : term -> res (list einsum))
    (H cc S m n : nat) (g : string * string) (l : list term) : Prop :=
  exists bares what,
    defines_cc_terms prog m n false g (branch_does (sum_adds einsum_text) bares what) /\
    keeps_last_of so calls_of l bares what /\
    (forall fh ft pc, In pc (what fh ft) -> is_requested H cc S m n pc) /\
    (forall fh ft pc, In pc (what fh ft) <-> In pc (what (fun _ => true) (fun _ => true)) /\ flags_set fh ft (snd pc)) /\
    defines_cc_terms prog m n true g
      (branch_does (sum_adds next_text) bares (fun fh ft => map without_subscripts (what fh ft))) /\
    defines_cc_paths prog m n g
      (branch_does (list_adds (path_list_name g)) []
         (fun fh ft => map (fun pc => shapes (snd (without_subscripts pc))) (what fh ft))).

(** ** A list is not a dictionary *)

(** The statements [ts] assign an empty list to a name and next an entry of it
    whose index is a pair: python raises a TypeError. *)
Definition pair_index_into_list (ts : list string) : Prop :=
  exists before after name mn value,
    ts = (before ++ [(name ++ " = []")%string; (name ++ "[" ++ pair_of mn ++ "] = " ++ value)%string] ++ after)%list.
