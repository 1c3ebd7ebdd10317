(** Model of /repo/termfactory/code_eT_zhz.py lines 759-880,
    [compute_prefactor_adjustment]: a factor for the terms of the e^T ansatz that
    the code in use does not apply any more (line 1094 is a comment). *)
From Verif Require Import PyBase ModelZhz ModelEt ModelEtPy.

(** lines 765-787 and 789-811: one side of h *)
Definition adjustment_h (m m_lhs m_r : nat) (m_t : list nat) : res nat :=
  if Nat.ltb 1 m then
    do internal_perms <- comb_minus m m_lhs m_r;
    Ok (factor_if (comb m m_lhs) * factor_if internal_perms * factorial_if (list_sum m_t))
  else Ok 1.

(** lines 815-852: the upper indices of z *)
Definition adjustment_z (z : etz) : res nat :=
  if Nat.ltb 1 (ez_m z) then
    do internal_perms <- comb_minus (ez_m z) (ez_m_lhs z) (ez_m_h z);
    do number <- comb_minus (ez_m z) (ez_m_lhs z + ez_m_h z) (list_sum (ez_m_t z));
    if Nat.eqb number 1
    then Ok (factor_if (comb (ez_m z) (ez_m_lhs z)) * factor_if internal_perms * factorial_if (ez_m_h z) * factorial_if (list_sum (ez_m_t z)))
    else Err AssertionErr
  else Ok 1.

(** lines 854-874: the lower indices of z *)
Definition adjustment_z_lower (z : etz) : nat :=
  if Nat.ltb 1 (ez_n z)
  then factor_if (comb (ez_n z) (ez_n_lhs z)) * factorial_if (ez_n_h z)
       * (if Nat.ltb 1 (list_sum (ez_n_t z)) then factorial (list_sum (ez_n_t z)) * comb (ez_n z) (list_sum (ez_n_t z)) else 1)
  else 1.

(** lines 759-880: adjustment and bottom.  Simplified: the code prints both and
    returns the quotient as a float; the model keeps the exact fraction. *)
Definition compute_prefactor_adjustment (h : eth) (z : etz) : res (nat * nat) :=
  do hm <- adjustment_h (eh_m h) (eh_m_lhs h) (eh_m_r h) (eh_m_t h);
  do hn <- adjustment_h (eh_n h) (eh_n_lhs h) (eh_n_r h) (eh_n_t h);
  do zm <- adjustment_z z;
  Ok (hm * hn * zm * adjustment_z_lower z,
      factorial_if (eh_m h) * factorial_if (eh_n h) * factorial_if (ez_m z) * factorial_if (ez_n z)).
