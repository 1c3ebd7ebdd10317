(** Specification vocabulary: which contractions the printed python of the full
    coupled cluster equations adds, without the functions of the model. *)
From Coq Require Import List Arith Permutation Ascii String.
From Verif Require Import PyBase ModelFullCC ModelFullCCPy SpecFullCC SpecPrefactor SpecFullCCPy SpecPython SpecEtText SpecFullCCText.
Import ListNotations.

(** The printed prefactor [p] of the contraction of h^hm_hn with [us] is
    x! / (hm! hn! |us|!), where x is the number of different amplitudes on h,
    without a factorial on both sides. *)
Definition right_prefactor (hm hn : nat) (us : list tamp) (p : string) : Prop :=
  exists x num den, p = prefactor_text num den /\ no_common_factor num den /\ different_connected us x /\
    fact_product num * (fact hm * fact hn * fact (List.length us)) = fact x * fact_product den.

(** A contraction that is added, its prefactor and its calls. *)
Record chosen := mkchosen { c_m : nat; c_n : nat; c_us : list tamp; c_f : nat; c_fbar : nat; c_prefactor : string; c_calls : list einsum }.

(** Contractions have the same place when they have the same flags and the same
    printed prefactor. *)
Definition place (hm hn : nat) (us : list tamp) (p : string) : nat * nat * string :=
  (Nat.max hm hn, list_max (map (fun t => up t + down t) us), p).
Definition place_of (c : chosen) : nat * nat * string := place (c_m c) (c_n c) (c_us c) (c_prefactor c).

(** A requested contraction of the kind, with calls that compute it: a single
    amplitude is written (m + n)! times, several amplitudes once for each order. *)
Definition is_chosen (H cc S m n : nat) (kind : list tamp -> Prop) (c : chosen) : Prop :=
  c_us c <> [] /\ requested m n H cc S true true (c_m c) (c_n c) (c_us c) (c_f c) (c_fbar c) /\ kind (c_us c) /\
  right_prefactor (c_m c) (c_n c) (c_us c) (c_prefactor c) /\
  Forall (realises m n (c_m c) (c_n c) (c_f c) (c_fbar c) (c_us c)) (c_calls c) /\
  (List.length (c_us c) = 1 -> exists e, c_calls c = repeat e (fact (m + n))) /\
  (2 <= List.length (c_us c) -> NoDup (c_calls c) /\ List.length (c_calls c) = fact (List.length (c_us c))).

(** The default function of the group adds the Hamiltonian operators that
    contract with the projection alone, each once, and of the requested
    contractions with amplitudes one of each place, under its flags. *)
Definition adds_one_of_each_place (prog : list stmt) (H cc S m n : nat) (g : string * string) (kind : list tamp -> Prop) : Prop :=
  exists bares what cs,
    defines_cc_terms prog m n false g (branch_does (sum_adds einsum_text) bares what) /\
    NoDup bares /\
    (forall hm hn, In (hm, hn) bares <-> exists f fbar, requested m n H cc S true true hm hn [] f fbar /\ kind []) /\
    Forall (is_chosen H cc S m n kind) cs /\
    NoDup (map place_of cs) /\
    (forall hm hn us f fbar, requested m n H cc S true true hm hn us f fbar -> kind us -> us <> [] ->
       exists p, right_prefactor hm hn us p /\ In (place hm hn us p) (map place_of cs)) /\
    forall fh ft, Permutation (what fh ft)
      (flat_map (fun c => if active fh ft (place_of c) then map (pair (c_prefactor c)) (c_calls c) else []) cs).
