(** Specification vocabulary for the factors of the terms of the e^T ansatz: every
    index of h and of z is on the projection, on the other operator or on an
    amplitude. *)
From Coq Require Import List Arith Factorial.
From Verif Require Import PyBase ModelEt.
Import ListNotations.

Definition indices_placed (h : eth) (z : etz) : Prop :=
  eh_m h = eh_m_lhs h + eh_m_r h + list_sum (eh_m_t h) /\
  eh_n h = eh_n_lhs h + eh_n_r h + list_sum (eh_n_t h) /\
  ez_m z = ez_m_lhs z + ez_m_h z + list_sum (ez_m_t z) /\
  ez_n z = ez_n_lhs z + ez_n_h z + list_sum (ez_n_t z).

(** The orders of the indices that h and z have on the projection, and of those
    that h has on z. *)
Definition placed_orders (h : eth) (z : etz) : nat :=
  fact (eh_m_lhs h) * fact (eh_m_r h) * fact (eh_n_lhs h) * fact (eh_n_r h) * fact (ez_m_lhs z).

(** The orders of the indices on amplitudes. *)
Definition amplitude_orders (h : eth) (z : etz) : nat :=
  fact (list_sum (eh_m_t h)) * fact (list_sum (eh_n_t h)) * fact (list_sum (ez_m_t z)).

(** Amplitudes with at most one upper and one lower index. *)
Definition linear_amplitudes (ts : list ett) : Prop := Forall (fun t => et_m t <= 1 /\ et_n t <= 1) ts.
