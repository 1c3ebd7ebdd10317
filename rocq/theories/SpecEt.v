(** Specification vocabulary for the e^T ansatz, independent of the functions
    of the model (only its records are used). *)
From Coq Require Import List Arith String.
From Verif Require Import PyBase ModelFullCC ModelEt.
Import ListNotations.

(** ** Operators *)

(** The amplitudes t_1 .. t_r: "s_1", "s_2", ... in the code. *)
Definition eT_operator (r : nat) (t : gop) : Prop :=
  g_name t = String.append "s_" (str_nat (g_n t)) /\ g_rank t = g_n t /\ g_m t = 0 /\ 1 <= g_n t <= r.

(** The k-th term of the Taylor series of e^T: exactly the sequences of k
    amplitudes, each once. *)
Definition eT_power (r k : nat) (ts : list (list gop)) : Prop :=
  NoDup ts /\ forall l, In l ts <-> List.length l = k /\ Forall (eT_operator r) l.

(** ** Contractions *)

(** A contraction of  projection * t ... t * H * z  in the ground state: how
    many creation operators of z are paired with the projection ([e_zp]), with
    H ([e_zh]) and with each t ([e_zt]), and how many of H are paired with the
    projection ([e_hp]) and with each t ([e_ht]). *)
Record contraction := mkcontraction {
  e_zp : nat; e_zh : nat; e_zt : list nat; e_hp : nat; e_ht : list nat
}.

(** All operators of a projection with [P] annihilation operators, of [q]
    amplitudes t_1, of h^m_n and of z^k are paired. *)
Definition complete (P q m n k : nat) (c : contraction) : Prop :=
  e_zp c + e_hp c = P /\ e_zh c = n /\
  List.length (e_zt c) = q /\ List.length (e_ht c) = q /\
  (forall i, i < q -> nth i (e_zt c) 0 + nth i (e_ht c) 0 = 1) /\
  e_zp c + e_zh c + list_sum (e_zt c) = k /\
  e_hp c + list_sum (e_ht c) = m.

(** A t_1 paired with z, one paired with H, and the bare 1 of the series. *)
Definition t_with_z : ett := mket 1 0 1 0 0 0 0 0 0 0 1.
Definition t_with_h : ett := mket 1 0 1 0 0 0 0 0 1 0 0.
Definition t_bare : ett := mket 0 0 0 0 0 0 0 0 0 0 0.

(** The term the generator should emit for a contraction: the amplitudes
    paired with z come first. *)
Definition written (P q m n k : nat) (c : contraction) : etterm :=
  let x := list_sum (e_zt c) in
  let y := list_sum (e_ht c) in
  let ts := match q with 0 => [t_bare] | _ => repeat t_with_z x ++ repeat t_with_h y end in
  let none := match q with 0 => [0] | _ => repeat 0 q end in
  mketterm
    (mkel P 0 P none none 0 (e_hp c) 0 (e_zp c))
    ts
    (mkeh (m + n) m n (e_hp c) 0 (match q with 0 => [0] | _ => repeat 0 x ++ repeat 1 y end) none 0 (e_zh c))
    (mkez k k 0 (e_zp c) 0 (match q with 0 => [0] | _ => e_zt c end) none (e_zh c) 0 0 0)
    1.

(** ** What a term says about the pairings, and whether it is consistent *)

(** The counts of the four factors of a term agree with each other and add up
    to the ranks of the operators.  The amplitudes of a term are sorted while
    the entries of z are not, so z and the amplitudes agree up to order. *)
Definition consistent (t : etterm) : Prop :=
  let l := tt_lhs t in let ts := tt_ts t in let h := tt_h t in let z := tt_z t in
  (* projection *)
  el_m l = el_m_h l + el_m_r l + list_sum (el_m_t l) /\ el_n l = el_n_h l + el_n_r l + list_sum (el_n_t l) /\
  el_rank l = el_m l + el_n l /\
  (* Hamiltonian *)
  eh_m h = eh_m_lhs h + eh_m_r h + list_sum (eh_m_t h) /\ eh_n h = eh_n_lhs h + eh_n_r h + list_sum (eh_n_t h) /\
  eh_rank h = eh_m h + eh_n h /\
  (* Z *)
  ez_m z = ez_m_lhs z + ez_m_h z + list_sum (ez_m_t z) /\ ez_n z = ez_n_lhs z + ez_n_h z + list_sum (ez_n_t z) /\
  ez_rank z = ez_m z + ez_n z /\
  (* amplitudes *)
  Forall (fun t => et_m t = et_m_lhs t + et_m_h t + et_m_r t /\ et_n t = et_n_lhs t + et_n_h t + et_n_r t /\
                   et_rank t = et_m t + et_n t) ts /\
  (* pairs *)
  el_m_h l = eh_n_lhs h /\ el_n_h l = eh_m_lhs h /\ el_m_r l = ez_n_lhs z /\ el_n_r l = ez_m_lhs z /\
  el_m_t l = map et_n_lhs ts /\ el_n_t l = map et_m_lhs ts /\
  eh_m_r h = ez_n_h z /\ eh_n_r h = ez_m_h z /\
  eh_m_t h = map et_n_h ts /\ eh_n_t h = map et_m_h ts /\
  Permutation (ez_m_t z) (map et_n_r ts) /\ Permutation (ez_n_t z) (map et_m_r ts).

(** Position by position. *)
Definition z_positions_agree (t : etterm) : Prop :=
  ez_m_t (tt_z t) = map et_n_r (tt_ts t) /\ ez_n_t (tt_z t) = map et_m_r (tt_ts t).

(** ** Operators a term may be made of *)

Definition ground_z (Z : list gop) : Prop :=
  Z <> [] /\ Forall (fun z => g_n z = 0 /\ g_rank z = g_m z) Z /\ NoDup (map g_m Z).
Definition distinct_h (H : list hop) : Prop := NoDup (map (fun h => (h_m h, h_n h)) H).

(** The left hand side has time derivatives of amplitudes, which have no
    annihilation operators, in place of the Hamiltonian. *)
Definition allowed_on (s : side) (n : nat) : Prop := s = LHS -> n = 0.

(** The contractions of a projection with [P] annihilation operators, [q]
    amplitudes and operators h^m_n and z^k of the given lists. *)
Definition contraction_of_lists (s : side) (P q : nat) (H : list hop) (Z : list gop) (t : etterm) : Prop :=
  exists h z c, In h H /\ In z Z /\ allowed_on s (h_n h) /\
    complete P q (h_m h) (h_n h) (g_m z) c /\ t = written P q (h_m h) (h_n h) (g_m z) c.
