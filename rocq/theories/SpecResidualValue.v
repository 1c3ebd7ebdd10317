(** Specification vocabulary for the numbers that the generated residual
    functions compute. *)
From Coq Require Import List Arith Bool Ascii String.
From Verif Require Import PyBase SpecPartitions SpecW SpecDt SpecResidual SpecPython SpecSumText SpecWText SpecResidualText SpecEinsum SpecFullCCValue.
Import ListNotations.

Section ResidualValue.
  Variable F : scalars.
  Variables A N : nat.
  (** The array that each name stands for. *)
  Variable env : string -> array F.

  (** The operators of the Hamiltonian and the W operators up to order six that
      are there have two axes of states and one axis for each mode. *)
  Definition residual_axes (flag : string -> bool) : Prop :=
    (forall m n, m + n <= 2 -> has_axes F A N (m + n) (env (h_name m n))) /\
    (forall k, 1 <= k <= 6 -> w_available (given flag) k = true -> has_axes F A N k (env (w_name k))).

  (** The statement adds an array with [k] axes of modes and the entries [v] to R,
      and numpy raises no exception. *)
  Inductive statement_adds (k : nat) : string -> (list nat -> K F) -> Prop :=
  | adds_an_array w num den h :
      fraction_text num den w -> has_axes F A N k (env h) ->
      statement_adds k (add_array w h) (fun idx => kmul F (kmul F (of_nat F num) (one_over F den)) (entry (env h) idx))
  | adds_an_einsum w num den hd wd od h W :
      fraction_text num den w -> einsum_accepts F [hd; wd] od [env h; env W] ->
      has_axes F A N k (einsum_array F [hd; wd] od [env h; env W]) ->
      statement_adds k (add_contraction w hd wd od h W)
        (fun idx => kmul F (kmul F (of_nat F num) (one_over F den)) (einsum_entry F [hd; wd] od [env h; env W] idx)).

  (** The W operators; without modes the identity. *)
  Definition w_series : tensor_series F :=
    fun is => match is with [] => identity F | _ => at_modes F (env (w_name (List.length is))) is end.

  (** h^m_n times the W operators, projected on the modes [is]: the first m modes
      are modes of h, the others of W, and n modes of both are summed over. *)
  Definition h_on_w (m n : nat) (is : list nat) (a b : nat) : K F :=
    sum_modes F N n (fun s => mmul F A (at_modes F (env (h_name m n)) (s ++ firstn m is)) (w_series (s ++ skipn m is)) a b).
  Definition residual_weight (p m n : nat) : K F := one_over F (fact (p - m) * fact n * fact m).

  (** The residual of the modes [is] from the given operators of the Hamiltonian. *)
  Definition residual_value (ms : list (nat * nat)) (is : list nat) (a b : nat) : K F :=
    ksum F (map (fun mn => kmul F (residual_weight (List.length is) (fst mn) (snd mn)) (h_on_w (fst mn) (snd mn) is a b)) ms).
End ResidualValue.

(** The operators whose terms the function of order [p] should add, and those
    whose terms it adds: at the orders two and three the term of h^2 is added
    only when the W operator of order p + 2 is missing (C82). *)
Definition should_add (flag : string -> bool) (r p : nat) : list (nat * nat) :=
  filter (fun mn => term_active (flag "truncation.quadratic"%string) (given flag) p (fst mn) (snd mn)) (residual_pairs r p).
Definition really_adds (flag : string -> bool) (r p : nat) : list (nat * nat) :=
  filter (fun mn =>
    if (Nat.eqb (fst mn) 2 && (Nat.eqb p 2 || Nat.eqb p 3))%bool
    then (flag "truncation.quadratic"%string && negb (given flag (p + 2)))%bool
    else term_active (flag "truncation.quadratic"%string) (given flag) p (fst mn) (snd mn)) (residual_pairs r p).
