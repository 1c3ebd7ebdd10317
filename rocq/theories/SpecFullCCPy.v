(** Specification vocabulary for the generated python code of the full coupled
    cluster equations, independent of the functions of the model (only its
    records are used). *)
From Coq Require Import List Arith Permutation Sorted Ascii String.
From Verif Require Import PyBase ModelFullCC ModelFullCCPy SpecFullCC.
Import ListNotations.

(** ** Prefactor *)

(** A list of factorials as a number. *)
Definition fact_product (l : list nat) : nat := fold_right (fun n r => fact n * r) 1 l.

(** x is the number of different amplitudes of ts that are paired with the
    Hamiltonian. *)
Definition different_connected (ts : list tamp) (x : nat) : Prop :=
  exists d, NoDup d /\ (forall t, In t d <-> In t ts /\ ~ disconnected t) /\ List.length d = x.

(** The printed form of a fraction of factorials: nothing for 1. *)
Definition factorials_text (l : list nat) : string :=
  match l with
  | [] => "1"
  | _ => ("(" ++ String.concat " * " (map (fun n => ("factorial(" ++ str_nat n ++ ")")%string) l) ++ ")")%string
  end.
Definition prefactor_text (num den : list nat) : string :=
  match num, den with
  | [], [] => ""
  | _, _ => (factorials_text num ++ "/" ++ factorials_text den ++ " * ")%string
  end.

(** ** Subscripts of an einsum call *)

(** Subscripts whose electronic letters are consecutive pairs of a chain. *)
Fixpoint chained (chain : list ascii) (vs : list (list ascii)) : list string :=
  match chain, vs with
  | c :: ((c' :: _) as r), v :: vs' => of_chars (c :: c' :: v) :: chained r vs'
  | _, _ => []
  end.

(** The letters of an amplitude: lower indices on h, upper indices on h,
    lower and upper indices on the projection operator. *)
Record tlabel := mktl { l_nh : list ascii; l_mh : list ascii; l_no : list ascii; l_mo : list ascii }.

Definition fits (t : tamp) (x : tlabel) : Prop :=
  List.length (l_nh x) = n_h t /\ List.length (l_mh x) = m_h t /\
  List.length (l_no x) = n_o t /\ List.length (l_mo x) = m_o t.

Definition letters (x : tlabel) : list ascii := (l_nh x ++ l_mh x ++ l_no x ++ l_mo x)%list.

(** The call computes the contraction of h^hm_hn with the amplitudes ts: the
    operands are h and the amplitudes in some order; the electronic indices
    are a matrix product from a to b; every lower index of an amplitude that
    is paired with h carries the letter of an upper index of h and the other
    way round; the remaining letters are those of the result; different
    indices have different letters. *)
Definition realises (om on hm hn f fbar : nat) (ts : list tamp) (c : einsum) : Prop :=
  exists (mid su sl eu el out : list ascii) (fs : list (tamp * tlabel)),
    let chain := ("a" :: mid ++ ["b"])%char%list in
    Permutation (map fst fs) ts /\
    Forall (fun x => fits (fst x) (snd x)) fs /\
    e_h c = (hm, hn) /\
    e_ts c = map (fun x => (up (fst x), down (fst x))) fs /\
    List.length mid = List.length ts /\
    e_inputs c = chained chain ((su ++ sl ++ eu ++ el)%list :: map (fun x => letters (snd x)) fs) /\
    e_output c = of_chars ("a" :: "b" :: out)%char /\
    List.length su + fbar = hm /\ List.length sl + f = hn /\
    List.length eu = fbar /\ List.length el = f /\
    List.length out = om + on /\
    Permutation su (flat_map (fun x => l_nh (snd x)) fs) /\
    Permutation sl (flat_map (fun x => l_mh (snd x)) fs) /\
    Permutation out (eu ++ el ++ flat_map (fun x => l_no (snd x) ++ l_mo (snd x)) fs)%list /\
    NoDup (chain ++ su ++ sl ++ out)%list.

(** How often a letter is written in a text. *)
Definition occurrences (c : ascii) (s : string) : nat := count_occ ascii_dec (list_ascii_of_string s) c.

(** ** Running a generated function *)

(** A body is run under the flags of the caller's truncation object: [fh i]
    is the flag of Hamiltonian rank i ([truncation.at_least_...]), [ft j] the
    flag of amplitude rank j.  What a body adds to the result (or to the list
    of paths), in order: the printed prefactor and the call. *)
Section Run.
  Context {C : Type}.
  Variables fh ft : nat -> bool.

  Definition run_sum (pc : prefactor * list C) : list (string * C) :=
    map (fun c => (prefactor_text (fst (fst pc)) (snd (fst pc)), c)) (snd pc).
  Definition run_if (js : nat * list (prefactor * list C)) : list (string * C) :=
    if ft (fst js) then flat_map run_sum (snd js) else [].
  Definition run_block (b : block C) : list (string * C) :=
    match b with
    | BBare _ => []
    | BSum p calls => run_sum (p, calls)
    | BIfT j sums => run_if (j, sums)
    | BIfH i sums ifs => if fh i then (flat_map run_sum sums ++ flat_map run_if ifs)%list else []
    | BPass => []
    end.
  Definition run (body : list (block C)) : list (string * C) := flat_map run_block body.

  (** The bare Hamiltonian terms a body adds. *)
  Definition run_bare (body : list (block C)) : list (nat * nat) :=
    flat_map (fun b => match b with BBare h => [h] | _ => [] end) body.
End Run.

(** The place of a term in the generated function: the Hamiltonian flag, the
    amplitude flag and the printed prefactor. *)
Definition slot (so : list nat -> list nat) (t : term) : nat * nat * string :=
  let '(_, h, ts) := t in
  (Nat.max (ch_m h) (ch_n h), list_max (map rank_of_t ts),
   let '(num, den) := build_prefactor so h ts in prefactor_text num den).

(** A term without amplitudes is written with the single factor 1. *)
Definition bare (t : term) : bool := match snd t with [mkt 0 0 0 0] => true | _ => false end.
Definition with_amplitudes (l : list term) : list term := filter (fun t => negb (bare t)) l.
Definition h_of (t : term) : nat * nat := (ch_m (snd (fst t)), ch_n (snd (fst t))).

(** [lasts f l l']: l' is l without the elements that have a later element with
    the same value of f. *)
Inductive lasts {A B} (f : A -> B) : list A -> list A -> Prop :=
| lasts_nil : lasts f [] []
| lasts_keep x l l' : (forall y, In y l -> f y <> f x) -> lasts f l l' -> lasts f (x :: l) (x :: l')
| lasts_drop x y l l' : In y l -> f y = f x -> lasts f l l' -> lasts f (x :: l) l'.

(** The flags under which a term runs. *)
Definition active (fh ft : nat -> bool) (s : nat * nat * string) : bool :=
  let '(i, j, _) := s in
  (Nat.eqb i 0 || fh i) && (Nat.eqb j 0 || ft j).

(** [body] is the code of the list of terms [l] when a term with the same place
    as an earlier one replaces it: the bare terms are all added, and of the
    other terms exactly the last one of each place contributes its calls with
    its prefactor, under its flags. *)
Definition keeps_last {C} (so : list nat -> list nat) (calls_of : term -> res (list C))
    (l : list term) (body : list (block C)) : Prop :=
  exists surv calls,
    lasts (slot so) (with_amplitudes l) surv /\
    (forall t, In t (with_amplitudes l) -> calls_of t = Ok (calls t) /\ calls t <> []) /\
    run_bare body = map h_of (filter bare l) /\
    forall fh ft, Permutation (run fh ft body)
      (flat_map (fun t => if active fh ft (slot so t)
                          then map (fun c => (snd (slot so t), c)) (calls t) else []) surv).

(** The shapes of the operands of a call of the optimised code: the number of
    vibrational axes of the Hamiltonian and of each amplitude. *)
Definition shapes (c : next_call) : list nat :=
  (fst (n_hop c) + snd (n_hop c)) :: map (fun mn => fst mn + snd mn) (n_ts c).

(** The flag numbers of a call: the larger index count of its Hamiltonian
    operand and the largest rank of its amplitudes. *)
Definition flags_of (c : einsum) : nat * nat :=
  (Nat.max (fst (e_h c)) (snd (e_h c)), list_max (map (fun mn => fst mn + snd mn) (e_ts c))).

(** The axes of an operand with [s] summed and [e] other vibrational axes: two
    electronic letters, then the s letters that are not in the result, then the
    e letters of the result. *)
Definition axes (output : string) (s e : nat) (subscripts : string) : Prop :=
  exists x y summed ext,
    list_ascii_of_string subscripts = (x :: y :: summed ++ ext)%list /\
    List.length summed = s /\ List.length ext = e /\
    Forall (fun l => occurrences l output = 0) summed /\
    Forall (fun l => occurrences l output = 1) ext.
