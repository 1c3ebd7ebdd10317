(** Specification vocabulary: the printed python of the full coupled cluster
    equations computes the printed LaTeX equations. *)
From Coq Require Import List Arith Permutation Ascii String.
From Verif Require Import PyBase ModelFullCC ModelFullCCPy SpecFullCC SpecPrefactor SpecFullCCPy SpecFullCCLatex SpecPython SpecEtText SpecFullCCText SpecFullCCPlaces
  SpecFullCCComplete.
Import ListNotations.

(** The calls of [c] compute the term [t] of an equation, with the fraction that
    is printed in front of it; a single amplitude is written (m + n)! times,
    several amplitudes once for each order. *)
Definition computes (m n : nat) (t : term) (c : chosen) : Prop :=
  exists hm hn us f fbar,
    describes m n hm hn us f fbar t /\ us <> [] /\
    Forall (realises m n hm hn f fbar us) (c_calls c) /\
    place_of c = place hm hn us (c_prefactor c) /\
    (forall num den, prefactor_of hm hn us num den -> exists num' den', c_prefactor c = prefactor_text num' den' /\
       fact_product num * fact_product den' = fact_product num' * fact_product den) /\
    (List.length us = 1 -> exists e, c_calls c = repeat e (fact (m + n))) /\
    (2 <= List.length us -> NoDup (c_calls c) /\ List.length (c_calls c) = fact (List.length us)).

(** The term has amplitudes; python writes a trivial one when there are none. *)
Definition with_amplitudes (m n : nat) (t : term) : Prop :=
  exists hm hn us f fbar, describes m n hm hn us f fbar t /\ us <> [] /\ us <> [mkt 0 0 0 0].

(** The default function of the group adds, under any flags, the terms [l] that
    they select: the Hamiltonian operators without amplitudes, and all other
    terms. *)
Definition implements (prog : list stmt) (m n : nat) (g : string * string) (l : list term) : Prop :=
  exists bares what ts cs,
    defines_cc_terms prog m n false g (branch_does (sum_adds einsum_text) bares what) /\
    NoDup bares /\
    (forall hm hn, In (hm, hn) bares <-> exists t f fbar, In t l /\ describes m n hm hn [] f fbar t) /\
    NoDup ts /\
    (forall t, In t ts <-> In t l /\ with_amplitudes m n t) /\
    Forall2 (computes m n) ts cs /\
    forall fh ft, Permutation (what fh ft)
      (flat_map (fun c => if active fh ft (place_of c) then map (pair (c_prefactor c)) (c_calls c) else []) cs).
