(** Specification vocabulary for the residual equations, independent of the
    model's helper functions. *)
From Coq Require Import List Arith String Ascii Bool.
From Verif Require Import SpecW SpecDt.
Import ListNotations.

(** The operators h^m_n of a Hamiltonian of the given rank that survive the
    projection on order p. *)
Definition residual_pairs (rank p : nat) : list (nat * nat) :=
  filter (fun mn => Nat.leb (fst mn + snd mn) rank && Nat.leb (fst mn) p)
         (list_prod (seq 0 (S rank)) (seq 0 (S rank))).

(** W operators of order 0 (absent) and 1 are always there; others may be
    missing. *)
Definition w_available (avail : nat -> bool) (k : nat) : bool := Nat.leb k 1 || avail k.

(** A term is to be added when its W operator is available and, for h with
    two or more upper or lower indices, quadratic terms are switched on. *)
Definition term_active (quadratic : bool) (avail : nat -> bool) (p m n : nat) : bool :=
  w_available avail (p - m + n) && (quadratic || negb (Nat.leb 2 m || Nat.leb 2 n)).

(** "h_ab", then [n] upper-case and [m] lower-case letters, consecutively from
    the alphabet i, j, k... *)
Definition h_name (m n : nat) : string :=
  ("h_ab" ++ String.substring 0 n "IJKL" ++ String.substring n m "ijkl")%string.

(** einsum labels of the contraction of h^m_n with W of p - m free and n
    contracted indices: chained surface labels a c, c b, then the contracted
    labels K on both operands, the free labels I1 of h and I2 of W; the
    output has the free labels in order; all labels are different. *)
Definition contraction_labels (p m n : nat) (hd wd od : list ascii) : Prop :=
  exists a b c K I1 I2,
    hd = a :: c :: (K ++ I1) /\
    wd = c :: b :: (K ++ I2) /\
    od = a :: b :: (I1 ++ I2) /\
    NoDup (a :: b :: c :: K ++ I1 ++ I2) /\
    List.length K = n /\ List.length I1 = m /\ List.length I2 = p - m.

(** [num/den] is the coefficient 1 / ((p-m)! n! m!). *)
Definition residual_coefficient (p m n num den : nat) : Prop :=
  den <> 0 /\ num * (fact_spec (p - m) * fact_spec n * fact_spec m) = den.

(** What the term of h^m_n refers to at order p. *)
Definition residual_key (p : nat) (mn : nat * nat) : string * option string :=
  (h_name (fst mn) (snd mn),
   match p - fst mn + snd mn with 0 => None | k => Some (w_name k) end).
