(** Specification vocabulary: what the printed python of the full coupled cluster
    equations adds when its caller sets the conditions of smaller truncations. *)
From Coq Require Import List Arith Permutation Ascii String.
From Verif Require Import PyBase ModelFullCC ModelFullCCPy SpecFullCC SpecPrefactor SpecFullCCPy SpecPython SpecEtText SpecFullCCText SpecFullCCPlaces SpecFullCCComplete.
Import ListNotations.

(** The conditions of a truncation at k: those of the ranks up to k are true. *)
Definition up_to (k i : nat) : bool := Nat.leb i k.

(** Under the conditions of H0 and cc0 the default function of the group adds the
    Hamiltonian operators that contract with the projection alone, each once, and
    of the requested contractions with amplitudes those inside, each once. *)
Definition adds_those (prog : list stmt) (H cc S H0 cc0 m n : nat) (inside : nat -> nat -> list tamp -> Prop)
    (g : string * string) (kind : list tamp -> Prop) : Prop :=
  exists bares what cs,
    defines_cc_terms prog m n false g (branch_does (sum_adds einsum_text) bares what) /\
    NoDup bares /\
    (forall hm hn, In (hm, hn) bares <-> exists f fbar, requested m n H cc S true true hm hn [] f fbar /\ kind []) /\
    Forall (fun c => is_chosen H cc S m n kind c /\ inside (c_m c) (c_n c) (c_us c)) cs /\
    (forall hm hn us f fbar, requested m n H cc S true true hm hn us f fbar -> kind us -> us <> [] -> inside hm hn us ->
       exists before c after, cs = (before ++ c :: after)%list /\ same_contraction c hm hn us /\
         forall c', In c' (before ++ after)%list -> ~ same_contraction c' hm hn us) /\
    Permutation (what (up_to H0) (up_to cc0)) (flat_map (fun c => map (pair (c_prefactor c)) (c_calls c)) cs).

(** No restriction. *)
Definition everything (hm hn : nat) (us : list tamp) : Prop := True.
(** Both numbers of indices of h at most H0, the ranks of the amplitudes at most
    cc0. *)
Definition each_side (H0 cc0 hm hn : nat) (us : list tamp) : Prop := hm <= H0 /\ hn <= H0 /\ Forall (fun t => up t + down t <= cc0) us.
