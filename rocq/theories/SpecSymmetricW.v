(** Specification vocabulary for the W operators after symmetrisation: the mixed
    derivatives of exp(T), and the equation of motion. *)
From Coq Require Import List Arith Bool Ascii String Permutation.
From Verif Require Import PyBase SpecPartitions SpecW SpecDt SpecResidual SpecSumText SpecWText SpecDtText SpecEinsum SpecWValue SpecDtValue SpecFullCCValue SpecResidualText SpecResidualValue.
Import ListNotations.

(** All ways to deal a list out to two receivers, each keeping the order. *)
Fixpoint deals {X} (l : list X) : list (list X * list X) :=
  match l with
  | [] => [([], [])]
  | x :: r => flat_map (fun uv => [(x :: fst uv, snd uv); (fst uv, x :: snd uv)]) (deals r)
  end.

Section SymmetricW.
  Variable F : scalars.
  Variable A : nat.

  (** The product rule for derivatives: every mode differentiates one of the two
      factors. *)
  Definition deal_mul (x y : tensor_series F) : tensor_series F :=
    fun is => msum F (map (fun uv => mmul F A (x (fst uv)) (y (snd uv))) (deals is)).
  Fixpoint deal_power (x : tensor_series F) (j : nat) : tensor_series F :=
    match j with O => unit_series F | S j' => deal_mul x (deal_power x j') end.
  Definition deal_exp (n : nat) (x : tensor_series F) : tensor_series F :=
    fun is => msum F (map (fun j => mscale F (one_over F (fact j)) (deal_power x j is)) (seq 0 (S n))).
  (** The part of exp (x + y) that is at most linear in y. *)
  Fixpoint deal_power_linear (x y : tensor_series F) (j : nat) : tensor_series F :=
    match j with
    | O => unit_series F
    | S j' => fun is => msum F [deal_mul x (deal_power_linear x y j') is; deal_mul y (deal_power x j') is]
    end.
  Definition deal_exp_linear (n : nat) (x y : tensor_series F) : tensor_series F :=
    fun is => msum F (map (fun j => mscale F (one_over F (fact j)) (deal_power_linear x y j is)) (seq 0 (S n))).

  (** The entries of the array do not depend on the order of its [n] modes. *)
  Definition symmetric (n : nat) (x : array F) : Prop :=
    forall a b is js, List.length is = n -> Permutation js is -> entry x (a :: b :: js) = entry x (a :: b :: is).

  Variable N : nat.
  Variable env : string -> array F.

  (** The derivatives of T: the amplitudes of the truncation, without factorials. *)
  Definition amplitudes_at (trunc : string -> bool) (from to : nat) : tensor_series F :=
    fun is =>
      let r := List.length is in
      if (Nat.leb 1 r && Nat.leb from r && Nat.leb r to && trunc (rank_name r))%bool
      then at_modes F (env (amp_name r)) is
      else fun _ _ => kzero F.

  (** The derivative of exp(T) with respect to the k given modes; of exp(T) to
      first order in the amplitudes of rank two and more; of T. *)
  Definition w_symmetric (flag : string -> bool) (k : nat) : tensor_series F :=
    let T := amplitudes_at (trunc_of flag) in
    if flag "ansatz.VE_MIXED"%string then deal_exp_linear k (T 1 1) (T 2 k)
    else if flag "ansatz.VECC"%string then deal_exp k (T 1 k)
    else T 1 k.

  (** h^m_n acting on the W operators: m of the modes are created by h, the others
      are modes of W, and n modes of W are annihilated by h. *)
  Definition h_acts (m n : nat) (is : list nat) (a b : nat) : K F :=
    kmul F (one_over F (fact n))
      (ksum F (map (fun uv => sum_modes F N n (fun s =>
          mmul F A (at_modes F (env (h_name m n)) (s ++ fst uv)) (w_series F env (s ++ snd uv)) a b))
        (filter (fun uv => Nat.eqb (List.length (fst uv)) m) (deals is)))).
  (** The Hamiltonian of the given operators acting on the W operators. *)
  Definition hamiltonian_acts (ms : list (nat * nat)) (is : list nat) (a b : nat) : K F :=
    ksum F (map (fun mn => h_acts (fst mn) (snd mn) is a b) ms).

  (** h^2 does not depend on the order of the two modes it creates. *)
  Definition symmetric_hamiltonian : Prop := symmetric 2 (env (h_name 2 0)).
End SymmetricW.
