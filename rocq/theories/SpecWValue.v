(** Specification vocabulary for the values of the W operators: the parts of
    exp(T) with a given number of modes. *)
From Coq Require Import List Arith Bool Ascii String.
From Verif Require Import SpecEinsum SpecPartitions SpecW SpecSumText SpecWText.
Import ListNotations.

Section WValue.
  Variable F : scalars.
  Variable A N : nat.

  (** The array that each name stands for. *)
  Variable env : string -> array F.

  (** Amplitudes have the shapes the program expects (it knows six ranks). *)
  Definition amplitude_axes : Prop := forall r, 1 <= r <= 6 -> has_axes F A N r (env (amp_name r)).

  (** The call of numpy.einsum that the text of a product is. *)
  Definition product_accepted (p : product) : Prop := einsum_accepts F (p_ins p) (p_out p) (map env (p_ops p)).
  Definition product_value (p : product) (idx : list nat) : K F :=
    einsum_entry F (p_ins p) (p_out p) (map env (p_ops p)) idx.

  (** What is added to the entry [idx] of the array. *)
  Definition added (l : list (nat * product)) (idx : list nat) : K F :=
    ksum F (map (fun dp => kmul F (one_over F (fst dp)) (product_value (snd dp) idx)) l).

  (** The cluster operator: T with r modes is the amplitude of rank r divided by
      r!, for the ranks of the truncation; [from] and [to] bound the ranks. *)
  Definition cluster (trunc : string -> bool) (from to : nat) : tensor_series F :=
    fun is =>
      let r := List.length is in
      if (Nat.leb 1 r && Nat.leb from r && Nat.leb r to && trunc (rank_name r))%bool
      then mscale F (one_over F (fact r)) (at_modes F (env (amp_name r)) is)
      else fun _ _ => kzero F.

  (** The part of (x + y)^j that is at most linear in y. *)
  Fixpoint power_linear (x y : tensor_series F) (j : nat) : tensor_series F :=
    match j with
    | O => unit_series F
    | S j' => fun is => msum F [series_mul F A x (power_linear x y j') is; series_mul F A y (series_power F A x j') is]
    end.
  Definition exp_linear (n : nat) (x y : tensor_series F) : tensor_series F :=
    fun is => msum F (map (fun j => mscale F (one_over F (fact j)) (power_linear x y j is)) (seq 0 (S n))).

  (** The W operator of order [k] of an ansatz: the part with k modes of exp(T);
      of exp(T) to first order in the amplitudes of rank two and more; of T. *)
  Definition w_value (flag : string -> bool) (k : nat) : tensor_series F :=
    let T := cluster (trunc_of flag) in
    if flag "ansatz.VE_MIXED"%string then exp_linear k (T 1 1) (T 2 k)
    else if flag "ansatz.VECC"%string then series_exp F A k (T 1 k)
    else T 1 k.
End WValue.
