(** Specification vocabulary: for which truncations the printed python of the
    full coupled cluster equations adds every contraction, without the functions
    of the model. *)
From Coq Require Import List Arith Permutation Ascii String.
From Verif Require Import PyBase ModelFullCC ModelFullCCPy SpecFullCC SpecPrefactor SpecFullCCPy SpecPython SpecEtText SpecFullCCText SpecFullCCPlaces.
Import ListNotations.

(** Truncations (Hamiltonian, coupled cluster, powers of S, projection) at which
    contractions are lost. *)
Definition loses (H cc S P : nat) : Prop :=
  (3 <= H /\ 2 <= cc /\ 2 <= S /\ 1 <= P) \/
  (2 <= H /\ 3 <= cc /\ 2 <= S /\ 3 <= P) \/
  (1 <= H /\ 3 <= cc /\ 3 <= S /\ 3 <= P) \/
  (1 <= H /\ 4 <= cc /\ 2 <= S /\ 4 <= P).

(** [c] is the contraction of h^hm_hn with [us]. *)
Definition same_contraction (c : chosen) (hm hn : nat) (us : list tamp) : Prop :=
  c_m c = hm /\ c_n c = hn /\ Permutation us (c_us c).

(** The default function of the group adds the Hamiltonian operators that
    contract with the projection alone, each once, and every requested
    contraction with amplitudes, each once, under its flags. *)
Definition adds_every (prog : list stmt) (H cc S m n : nat) (g : string * string) (kind : list tamp -> Prop) : Prop :=
  exists bares what cs,
    defines_cc_terms prog m n false g (branch_does (sum_adds einsum_text) bares what) /\
    NoDup bares /\
    (forall hm hn, In (hm, hn) bares <-> exists f fbar, requested m n H cc S true true hm hn [] f fbar /\ kind []) /\
    Forall (is_chosen H cc S m n kind) cs /\
    (forall hm hn us f fbar, requested m n H cc S true true hm hn us f fbar -> kind us -> us <> [] ->
       exists before c after, cs = (before ++ c :: after)%list /\ same_contraction c hm hn us /\
         forall c', In c' (before ++ after)%list -> ~ same_contraction c' hm hn us) /\
    forall fh ft, Permutation (what fh ft)
      (flat_map (fun c => if active fh ft (place_of c) then map (pair (c_prefactor c)) (c_calls c) else []) cs).

(** There are two different requested contractions of the group, and whatever
    the flags, of one of them the default function adds no call. *)
Definition misses_one (prog : list stmt) (H cc S m n : nat) (g : string * string) (kind : list tamp -> Prop) : Prop :=
  exists bares what hm1 hn1 us1 f1 fbar1 hm2 hn2 us2 f2 fbar2,
    defines_cc_terms prog m n false g (branch_does (sum_adds einsum_text) bares what) /\
    requested m n H cc S true true hm1 hn1 us1 f1 fbar1 /\ kind us1 /\ us1 <> [] /\
    requested m n H cc S true true hm2 hn2 us2 f2 fbar2 /\ kind us2 /\ us2 <> [] /\
    ~ (hm1 = hm2 /\ hn1 = hn2 /\ Permutation us1 us2) /\
    ((forall fh ft p e, In (p, e) (what fh ft) -> ~ realises m n hm1 hn1 f1 fbar1 us1 e) \/
     (forall fh ft p e, In (p, e) (what fh ft) -> ~ realises m n hm2 hn2 f2 fbar2 us2 e)).
