(** Specification vocabulary for the numbers that the generated python of the
    full coupled cluster equations computes, without the functions of the model
    (only its records are used). *)
From Coq Require Import List Arith Bool Permutation Ascii String.
From Verif Require Import PyBase ModelFullCC ModelFullCCPy SpecFullCC SpecPrefactor SpecFullCCPy SpecPython SpecEtText SpecFullCCText SpecFullCCPlaces SpecEinsum.
Import ListNotations.

(** A contraction of h^m_n with amplitudes; f and fbar as in [contraction]. *)
Record contr := mkcontr { q_m : nat; q_n : nat; q_us : list tamp; q_f : nat; q_fbar : nat }.

(** All orders of a list. *)
Fixpoint insertions {X} (x : X) (l : list X) : list (list X) :=
  match l with
  | [] => [[x]]
  | y :: r => (x :: l) :: map (cons y) (insertions x r)
  end.
Fixpoint orders_of {X} (l : list X) : list (list X) :=
  match l with
  | [] => [[]]
  | x :: r => flat_map (insertions x) (orders_of r)
  end.

(** The number of different amplitudes on h. *)
Definition tamp_dec (a b : tamp) : {a = b} + {a <> b}.
Proof. decide equality; apply Nat.eq_dec. Defined.
Definition different_on_h (us : list tamp) : nat :=
  List.length (nodup tamp_dec (filter (fun t => negb (Nat.eqb (m_h t) 0 && Nat.eqb (n_h t) 0)) us)).

Section Value.
  Variable F : scalars.
  Variables A N : nat.
  (** The arrays in the dictionaries h_args and t_args, by their keys. *)
  Variables h t : nat * nat -> array F.

  (** Every array has two axes of states and one axis for each index. *)
  Definition operand_axes : Prop := forall m n, has_axes F A N (m + n) (h (m, n)) /\ has_axes F A N (m + n) (t (m, n)).

  (** A call of numpy.einsum in the generated code: numpy accepts it, and the
      result has [k] axes of modes. *)
  Definition call_operands (c : einsum) : list (array F) := h (e_h c) :: map t (e_ts c).
  Definition call_fits (k : nat) (c : einsum) : Prop :=
    einsum_accepts F (e_inputs c) (e_output c) (call_operands c) /\
    shape (einsum_array F (e_inputs c) (e_output c) (call_operands c)) = A :: A :: repeat N k.
  Definition call_value (c : einsum) (idx : list nat) : K F := einsum_entry F (e_inputs c) (e_output c) (call_operands c) idx.

  (** What printed prefactors and calls add to the entry [idx] of R. *)
  Definition prefactor_is (p : string) (w : K F) : Prop :=
    exists num den, p = prefactor_text num den /\ w = kmul F (of_nat F (fact_product num)) (one_over F (fact_product den)).
  Definition add_up (l : list (string * einsum)) (idx : list nat) (v : K F) : Prop :=
    exists vs, Forall2 (fun pc x => exists w, prefactor_is (fst pc) w /\ x = kmul F w (call_value (snd pc) idx)) l vs /\ v = ksum F vs.

  (** The sum over all lists of [k] modes. *)
  Fixpoint sum_modes (k : nat) (g : list nat -> K F) : K F :=
    match k with
    | O => g []
    | S k' => sum_below F N (fun i => sum_modes k' (fun r => g (i :: r)))
    end.

  (** Each amplitude takes its modes: as many of [s] as it has lower indices on h,
      as many of [s'] as it has upper indices on h, as many of [x] as it has
      indices on the projection; the next amplitude takes the following ones. *)
  Fixpoint share (us : list tamp) (s s' x : list nat) : list (matrix F) :=
    match us with
    | [] => []
    | u :: r =>
        at_modes F (t (up u, down u)) (firstn (n_h u) s ++ firstn (m_h u) s' ++ firstn (n_o u + m_o u) x)
        :: share r (skipn (n_h u) s) (skipn (m_h u) s') (skipn (n_o u + m_o u) x)
    end.

  (** h times the amplitudes as matrices in the given order; the indices of h that
      meet amplitudes are summed over, the other ones are modes of the result. *)
  Definition in_this_order (q : contr) (order : list nat) (is : list nat) (a b : nat) : K F :=
    sum_modes (q_m q - q_fbar q) (fun s => sum_modes (q_n q - q_f q) (fun s' =>
      mprod F A (at_modes F (h (q_m q, q_n q)) (s ++ s' ++ firstn (q_fbar q + q_f q) is)
                 :: map (fun i => nth i (share (q_us q) s s' (skipn (q_fbar q + q_f q) is)) (identity F)) order) a b)).

  (** One amplitude: the product as often as there are orders of the modes.
      Several amplitudes: the sum of the products over their orders. *)
  Definition contraction_value (q : contr) (is : list nat) (a b : nat) : K F :=
    match q_us q with
    | [_] => kmul F (of_nat F (fact (List.length is))) (in_this_order q [0] is a b)
    | _ => ksum F (map (fun o => in_this_order q o is a b) (orders_of (seq 0 (List.length (q_us q)))))
    end.

  (** x! / (m! n! k!), with x different amplitudes on h and k amplitudes. *)
  Definition weight (q : contr) : K F :=
    kmul F (of_nat F (fact (different_on_h (q_us q)))) (one_over F (fact (q_m q) * fact (q_n q) * fact (List.length (q_us q)))).

  (** The sum of the contractions that the truncation flags of the caller leave. *)
  Definition selected (fh ft : nat -> bool) (q : contr) : bool := active fh ft (place (q_m q) (q_n q) (q_us q) ""%string).
  Definition contractions_value (fh ft : nat -> bool) (qs : list contr) (is : list nat) (a b : nat) : K F :=
    ksum F (map (fun q => if selected fh ft q then kmul F (weight q) (contraction_value q is a b) else kzero F) qs).
End Value.

(** A requested contraction of the group. *)
Definition wanted (H cc S m n : nat) (kind : list tamp -> Prop) (q : contr) : Prop :=
  q_us q <> [] /\ requested m n H cc S true true (q_m q) (q_n q) (q_us q) (q_f q) (q_fbar q) /\ kind (q_us q).
Definition same_as (q q' : contr) : Prop := q_m q = q_m q' /\ q_n q = q_n q' /\ Permutation (q_us q) (q_us q').

(** Of the wanted contractions [qs] has one of each place: flags and printed
    prefactor [p]. *)
Definition one_of_each_place (want : contr -> Prop) (qs : list contr) : Prop :=
  exists ps, Forall2 (fun q p => right_prefactor (q_m q) (q_n q) (q_us q) p) qs ps /\
    let places := map (fun qp => place (q_m (fst qp)) (q_n (fst qp)) (q_us (fst qp)) (snd qp)) (combine qs ps) in
    NoDup places /\
    forall q, want q -> exists p, right_prefactor (q_m q) (q_n q) (q_us q) p /\ In (place (q_m q) (q_n q) (q_us q) p) places.

(** Every wanted contraction is among [qs] exactly once. *)
Definition all_once (want : contr -> Prop) (qs : list contr) : Prop :=
  forall q, want q -> exists before q' after, qs = (before ++ q' :: after)%list /\ same_as q' q /\
    forall q'', In q'' (before ++ after)%list -> ~ same_as q'' q.

(** The default function of the group: numpy accepts every call that it makes, the
    results have the axes of the projection, and the numbers it adds to the
    entries of R are the weighted contractions of the group, one of each place or
    every one.  (The operators that are alone are added as they are; they have
    the axes of the projection.) *)
Definition computes_contractions (cover : (contr -> Prop) -> list contr -> Prop) (prog : list stmt) (H cc S m n : nat)
    (g : string * string) (kind : list tamp -> Prop) : Prop :=
  exists bares what qs,
    defines_cc_terms prog m n false g (branch_does (sum_adds einsum_text) bares what) /\
    NoDup bares /\
    (forall hm hn, In (hm, hn) bares <-> hm + hn = m + n /\ exists f fbar, requested m n H cc S true true hm hn [] f fbar /\ kind []) /\
    Forall (wanted H cc S m n kind) qs /\ cover (wanted H cc S m n kind) qs /\
    forall (F : scalars) A N h t, operand_axes F A N h t -> forall fh ft,
      Forall (fun pc => call_fits F A N h t (m + n) (snd pc)) (what fh ft) /\
      forall a b is, b < A -> List.length is = m + n ->
        add_up F h t (what fh ft) (a :: b :: is) (contractions_value F A N h t fh ft qs is a b).
