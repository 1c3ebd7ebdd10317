(** Specification vocabulary for the full coupled cluster terms, independent
    of the functions of the model (only its records are used). *)
From Coq Require Import List Arith Permutation Sorted Ascii String.
From Verif Require Import PyBase ModelFullCC.
Import ListNotations.

Definition total {A} (f : A -> nat) (l : list A) : nat := fold_right (fun x r => f x + r) 0 l.

(** Upper and lower indices of an amplitude: those paired with the
    Hamiltonian plus those paired with the projection operator. *)
Definition up (t : tamp) : nat := m_h t + m_o t.
Definition down (t : tamp) : nat := n_h t + n_o t.

(** The amplitudes of the ansatz: t^m_n other than t^0_0 with m + n up to the
    coupled cluster rank; lower indices only when excited states are asked
    for. *)
Definition amplitude (cc : nat) (ground : bool) (t : tamp) : Prop :=
  1 <= up t + down t <= cc /\ (ground = true -> down t = 0).

(** A complete contraction of the projection operator with om creation and on
    annihilation operators, the Hamiltonian h^hm_hn and the amplitudes ts.
    No operator is paired with itself and no amplitude with an amplitude:
    every upper index of an amplitude meets a lower index of h or an
    annihilation operator of the projection, every lower index meets an upper
    index of h or a creation operator; f creation operators of the projection
    meet lower indices of h, fbar annihilation operators meet upper ones; and
    nothing is left over. *)
Definition contraction (om on hm hn : nat) (ts : list tamp) (f fbar : nat) : Prop :=
  om = total n_o ts + f /\
  hn = total m_h ts + f /\
  on = total m_o ts + fbar /\
  hm = total n_h ts + fbar.

(** The record the code keeps for such a contraction; the absence of
    amplitudes is written as the single factor 1. *)
Definition factors (ts : list tamp) : list tamp :=
  match ts with [] => [mkt 0 0 0 0] | _ => ts end.

Definition describes (om on hm hn : nat) (ts : list tamp) (f fbar : nat) (t : term) : Prop :=
  t = (mkco (om + on) om on f fbar (map n_o (factors ts)) (map m_o (factors ts)),
       mkch (hm + hn) hm hn fbar f (map n_h (factors ts)) (map m_h (factors ts)),
       factors ts).

(** python's order on the four fields *)
Definition tamp_le (a b : tamp) : Prop :=
  m_h a < m_h b \/ (m_h a = m_h b /\
  (n_h a < n_h b \/ (n_h a = n_h b /\
  (m_o a < m_o b \/ (m_o a = m_o b /\ n_o a <= n_o b))))).
Definition in_order (ts : list tamp) : Prop := StronglySorted tamp_le ts.

(** The contractions that belong to given truncations. *)
Definition requested (om on H cc S : nat) (ground remove_f : bool)
    (hm hn : nat) (ts : list tamp) (f fbar : nat) : Prop :=
  hm + hn <= H /\ List.length ts <= S /\
  Forall (amplitude cc ground) ts /\
  contraction om on hm hn ts f fbar /\
  (remove_f = true -> f = 0).

(** ** Groups *)

(** An amplitude without index on the Hamiltonian is disconnected. *)
Definition disconnected (t : tamp) : Prop := m_h t = 0 /\ n_h t = 0.

(** One factor takes all indices of the projection operator. *)
Definition takes_projection (om on : nat) (t : tamp) : Prop := m_o t = on /\ n_o t = om.

Definition fully_connected (ts : list tamp) : Prop := Forall (fun t => ~ disconnected t) ts.
Definition unlinked (om on : nat) (ts : list tamp) : Prop :=
  exists t, In t ts /\ disconnected t /\ takes_projection om on t.
Definition linked (om on : nat) (ts : list tamp) : Prop :=
  (exists t, In t ts /\ disconnected t) /\
  (forall t, In t ts -> disconnected t -> ~ takes_projection om on t).

(** l1 is l2 with some elements left out: the order is kept. *)
Inductive sublist {A} : list A -> list A -> Prop :=
| sub_nil l : sublist [] l
| sub_take x l l' : sublist l l' -> sublist (x :: l) (x :: l')
| sub_skip x l l' : sublist l l' -> sublist l (x :: l').


(** ** Operators *)

(** The name of a projection operator spells its operators: creation d's,
    then annihilation b's. *)
Definition spells (name : string) (m n : nat) : Prop :=
  list_ascii_of_string name = (repeat "d"%char m ++ repeat "b"%char n)%list.

(** A projection operator within the rank limits. *)
Definition projection (cc P : nat) (o : gop) : Prop :=
  spells (g_name o) (g_m o) (g_n o) /\ g_rank o = g_m o + g_n o /\
  g_rank o <= cc /\ g_rank o <= P.

(** A term of the Hamiltonian within the rank limit. *)
Definition hamiltonian_term (H : nat) (h : hop) : Prop :=
  h_rank h = h_m h + h_n h /\ h_rank h <= H.

(** A cluster operator within the rank limit (creation only for the ground
    state); its name shows the counts that are not zero. *)
Definition cluster (cc : nat) (ground : bool) (s : gop) : Prop :=
  g_rank s = g_m s + g_n s /\ 1 <= g_rank s <= cc /\
  (ground = true -> g_n s = 0) /\
  g_name s = ("s" ++ (match g_m s with 0 => "" | m => "^" ++ str_nat m end)
                  ++ (match g_n s with 0 => "" | n => "_" ++ str_nat n end))%string.
