(** Specification vocabulary for the numbers that the generated python of the
    e^T ansatz computes, without the functions of the model (only its records
    are used). *)
From Coq Require Import List Arith Bool Ascii String.
From Verif Require Import PyBase ModelFullCC ModelEt ModelEtPy SpecFullCCPy SpecEt SpecEtPy SpecEtLatex SpecPython SpecEtText SpecEinsum SpecFullCCValue.
Import ListNotations.
Local Open Scope string_scope.

(** How many operators are paired in which way ([pairs] of SpecEtLatex), for a
    projection with [p] annihilation operators: [x] amplitudes on z, [y]
    amplitudes on H, [n] pairs of H and z, [i] of the projection on H. *)
Definition paired (p x y n i : nat) : pairs := mkpairs (p - i) n x i y.

(** All of them with at least [q0] and at most [q1] amplitudes and at most [H] pairs
    of H and z. *)
Definition all_paired (H p q0 q1 : nat) : list pairs :=
  flat_map (fun q => flat_map (fun x => flat_map (fun n => map (fun i => paired p x (q - x) n i)
    (seq 0 (S p))) (seq 0 (S H))) (seq 0 (S q))) (seq q0 (S q1 - q0)).

(** The operators are those of the ansatz: h^m_n with m + n <= H, of rank below
    3 or without upper indices; derivatives of amplitudes (on the left hand
    side) have no lower indices; z^k with k <= CC. *)
Definition has_h (H m n : nat) : bool := Nat.leb (m + n) H && (Nat.ltb (m + n) 3 || Nat.eqb m 0).
Definition has_operators (s : side) (H CC : nat) (k : pairs) : bool :=
  has_h H (k_up k) (k_down k) && match s with LHS => Nat.eqb (k_down k) 0 | RHS => true end && Nat.leb (k_z k) CC.

(** What the truncation object of the caller allows. *)
Definition allowed (flag : string -> bool) (k : pairs) : bool :=
  (Nat.eqb (Nat.max (k_up k) (k_down k)) 0 || flag (h_condition (Nat.max (k_up k) (k_down k))))
  && (Nat.eqb (k_t k) 0 || flag (t_condition 1))
  && (Nat.eqb (k_z k) 0 || flag (z_condition (k_z k))).

(** 1 * h^0_0 * z^p. *)
Definition is_bare (k : pairs) : bool := Nat.eqb (k_t k) 0 && Nat.eqb (k_up k) 0 && Nat.eqb (k_down k) 0.

Section Value.
  Variable F : scalars.
  (** Numbers of states and of modes. *)
  Variables A N : nat.
  (** The arrays in the dictionaries that are passed to the functions, by the
      name of the dictionary and the key. *)
  Variable args : string -> nat * nat -> array F.

  (** H has two axes of states, z and its derivative one, amplitudes and their
      derivatives none; besides there is one axis of modes for each index. *)
  Definition eT_axes : Prop :=
    (forall m n, shape (args "h_args" (m, n)) = A :: A :: repeat N (m + n)) /\
    (forall k, shape (args "z_args" (k, 0)) = A :: repeat N k /\ shape (args "dz_args" (k, 0)) = A :: repeat N k) /\
    shape (args "t_args" (0, 1)) = [N] /\ shape (args "t_conj" (0, 1)) = [N] /\
    (forall m, shape (args "dT" (m, 0)) = repeat N m).

  (** A call of numpy.einsum in the generated code: numpy accepts it, and the
      result has one axis of states and [p] axes of modes. *)
  Definition eT_operands (c : ecall) : list (array F) := map (fun o => args (fst o) (snd o)) (c_operands c).
  Definition eT_call_fits (p : nat) (c : ecall) : Prop :=
    einsum_accepts F (c_inputs c) (c_output c) (eT_operands c) /\
    shape (einsum_array F (c_inputs c) (c_output c) (eT_operands c)) = A :: repeat N p.
  Definition eT_call_value (c : ecall) (idx : list nat) : K F := einsum_entry F (c_inputs c) (c_output c) (eT_operands c) idx.

  (** What prefactors and calls add to the entry [idx]. *)
  Definition eT_added (l : list (nat * nat * ecall)) (idx : list nat) : K F :=
    ksum F (map (fun pc => kmul F (kmul F (of_nat F (fst (fst pc))) (one_over F (snd (fst pc)))) (eT_call_value (snd pc) idx)) l).

  (** The product of t_1 for the given modes. *)
  Definition t_product (s : side) (modes : list nat) : K F :=
    kprod F (map (fun i => entry (args (fst (t_of_side s)) (snd (t_of_side s))) [i]) modes).

  (** H z, or dT/dtau z (dz/dtau if dT/dtau is that of rank 0), for given modes
      of both, at the state [a]. *)
  Definition h_on_z (s : side) (k : pairs) (hs zs : list nat) (a : nat) : K F :=
    match s with
    | RHS => sum_below F A (fun c => kmul F (entry (args "h_args" (k_up k, k_down k)) (a :: c :: hs)) (entry (args "z_args" (k_z k, 0)) (c :: zs)))
    | LHS => if Nat.eqb (k_up k) 0 then entry (args "dz_args" (k_z k, 0)) (a :: zs)
             else kmul F (entry (args "dT" (k_up k, 0)) hs) (entry (args "z_args" (k_z k, 0)) (a :: zs))
    end.

  (** The contraction: the modes of the pairs are summed over; the first modes of
      the result are those of H. *)
  Definition paired_value (s : side) (k : pairs) (is : list nat) (a : nat) : K F :=
    sum_modes F N (k_zt k) (fun tz => sum_modes F N (k_ht k) (fun th => sum_modes F N (k_zh k) (fun hz =>
      kmul F (kmul F (t_product s tz) (t_product s th))
        (h_on_z s k (th ++ hz ++ firstn (k_hp k) is) (tz ++ hz ++ skipn (k_hp k) is) a)))).

  (** ... divided by the permutations of pairs of the same kind. *)
  Definition weighted_value (s : side) (k : pairs) (is : list nat) (a : nat) : K F :=
    kmul F (one_over F (fact (k_zp k) * fact (k_zh k) * fact (k_zt k) * fact (k_hp k) * fact (k_ht k))) (paired_value s k is a).

  (** The sum of the contractions of [ks] that are chosen. *)
  Definition selected_value (s : side) (chosen : pairs -> bool) (ks : list pairs) (is : list nat) (a : nat) : K F :=
    ksum F (map (fun k => if chosen k then weighted_value s k is a else kzero F) ks).

  (** The term 1 * h^0_0 * z^p. *)
  Definition bare_value (s : side) (p : nat) (is : list nat) (a : nat) : K F := kmul F (one_over F (fact p)) (h_on_z s (paired p 0 0 0 0) [] is a).

  (** ** Displaced operators *)

  (** The coefficients of H and z, up to the truncation. *)
  Definition h_coefficient (H m n a c : nat) (modes : list nat) : K F :=
    if has_h H m n then entry (args "h_args" (m, n)) (a :: c :: modes) else kzero F.
  Definition z_coefficient (CC k c : nat) (modes : list nat) : K F :=
    if Nat.leb k CC then entry (args "z_args" (k, 0)) (c :: modes) else kzero F.

  (** Taylor series in t: the coefficients of H with upper indices i+ + t in place
      of i+, and those of z likewise. *)
  Definition displaced_h (H m n a c : nat) (modes : list nat) : K F :=
    ksum F (map (fun y => kmul F (one_over F (fact y)) (sum_modes F N y (fun th => kmul F (t_product RHS th) (h_coefficient H (m + y) n a c (th ++ modes))))) (seq 0 (S H))).
  Definition displaced_z (CC k c : nat) (modes : list nat) : K F :=
    ksum F (map (fun x => kmul F (one_over F (fact x)) (sum_modes F N x (fun tz => kmul F (t_product RHS tz) (z_coefficient CC (k + x) c (tz ++ modes))))) (seq 0 (S CC))).

  (** H z without amplitudes, of displaced operators: [i] operators of the projection
      are paired with H and the others with z, [n] operators of H with z. *)
  Definition displaced_product (H CC p : nat) (is : list nat) (a : nat) : K F :=
    ksum F (map (fun i => ksum F (map (fun n =>
      kmul F (one_over F (fact i * fact (p - i) * fact n))
        (sum_modes F N n (fun hz => sum_below F A (fun c =>
          kmul F (displaced_h H i n a c (hz ++ firstn i is)) (displaced_z CC (p - i + n) c (hz ++ skipn i is))))))
      (seq 0 (S H)))) (seq 0 (S p))).
End Value.

(** The statements [b] add the contributions [l]. *)
Definition body_runs (s : side) (flag : string -> bool) (b : list stmt) (l : list (nat * nat * ecall)) : Prop :=
  (exec flag b = ["pass"] /\ l = []) \/ statements_add s (exec flag b) l.
(** The program has a function with first line [head] that adds to the entries of
    its first argument, whatever the conditions of the caller, the contractions
    of [ks] that are [wanted] and allowed; numpy accepts every call. *)
Definition computes_eT (s : side) (ground : bool) (prog : list stmt) (head : string) (p : nat) (wanted : pairs -> bool) (ks : list pairs) : Prop :=
  exists doc ours others,
    In (Block head [Simple doc; If "ansatz.ground_state" ours others; Simple "return"]) prog /\
    (ground = false -> others = ours) /\
    forall flag, exists l, body_runs s flag ours l /\
      forall F A N args, eT_axes F A N args ->
        Forall (fun pc => eT_call_fits F A N args p (snd pc)) l /\
        forall a is, List.length is = p ->
          eT_added F args l (a :: is) = selected_value F A N args s (fun k => wanted k && allowed flag k) ks is a.

(** The branch for the ground state of the function with first line [head]. *)
Definition ground_branch (prog : list stmt) (head : string) (b : list stmt) : Prop :=
  exists doc others, In (Block head [Simple doc; If "ansatz.ground_state" b others; Simple "return"]) prog.
