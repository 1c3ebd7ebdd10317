(** Specification vocabulary: what numpy.einsum computes, on exact numbers; and
    products of matrices whose entries depend on modes. *)
From Coq Require Import List Arith Ascii String Ring_theory.
Import ListNotations.

(** ** Numbers *)

(** A commutative ring in which one can divide by the numbers 1, 2, 3, ...
    (rational, real or complex numbers). *)
Record scalars := mkscalars {
  K : Type;
  kzero : K; kone : K;
  kadd : K -> K -> K; kmul : K -> K -> K; ksub : K -> K -> K; kopp : K -> K;
  one_over : nat -> K;
  k_ring : ring_theory kzero kone kadd kmul ksub kopp eq;
  k_over : forall n, kmul (fold_right (fun _ r => kadd kone r) kzero (seq 0 (S n))) (one_over (S n)) = kone
}.

Section Einsum.
  Variable F : scalars.
  Notation K := (K F).

  (** The natural numbers among them. *)
  Definition of_nat (n : nat) : K := fold_right (fun _ r => kadd F (kone F) r) (kzero F) (seq 0 n).

  Definition ksum (l : list K) : K := fold_right (kadd F) (kzero F) l.
  Definition kprod (l : list K) : K := fold_right (kmul F) (kone F) l.

  (** The sum of f 0, ..., f (n - 1). *)
  Definition sum_below (n : nat) (f : nat -> K) : K := ksum (map f (seq 0 n)).

  (** ** numpy.einsum *)

  (** An array: its shape and its entries. *)
  Record array := mkarray { shape : list nat; entry : list nat -> K }.

  Definition chars_of (s : string) : list ascii := list_ascii_of_string s.

  (** Each letter with the length of the axis it stands at. *)
  Definition letter_sizes (ins : list string) (xs : list array) : list (ascii * nat) :=
    flat_map (fun sx => combine (chars_of (fst sx)) (shape (snd sx))) (combine ins xs).
  Definition size_of (sizes : list (ascii * nat)) (c : ascii) : nat :=
    match find (fun x => Ascii.eqb (fst x) c) sizes with Some x => snd x | None => 0 end.

  (** The call raises no exception: one subscript for each operand and one letter
      for each axis, axes with the same letter are equally long, and the letters
      of the result are different letters of the operands. *)
  Definition einsum_accepts (ins : list string) (out : string) (xs : list array) : Prop :=
    Forall2 (fun s x => List.length (chars_of s) = List.length (shape x)) ins xs /\
    (forall c a b, In (c, a) (letter_sizes ins xs) -> In (c, b) (letter_sizes ins xs) -> a = b) /\
    NoDup (chars_of out) /\
    incl (chars_of out) (flat_map chars_of ins).

  (** Values of letters. *)
  Definition values := ascii -> nat.
  Definition with_value (rho : values) (c : ascii) (i : nat) : values := fun d => if Ascii.eqb d c then i else rho d.
  Fixpoint with_values (cs : list ascii) (is : list nat) (rho : values) : values :=
    match cs, is with
    | c :: cs', i :: is' => with_value (with_values cs' is' rho) c i
    | _, _ => rho
    end.

  (** The sum over all values of the letters. *)
  Fixpoint sum_letters (size : ascii -> nat) (cs : list ascii) (rho : values) (f : values -> K) : K :=
    match cs with
    | [] => f rho
    | c :: r => sum_below (size c) (fun i => sum_letters size r (with_value rho c i) f)
    end.

  (** The letters that are not letters of the result are summed over. *)
  Definition summed_letters (ins : list string) (out : string) : list ascii :=
    nodup ascii_dec (filter (fun c => negb (existsb (Ascii.eqb c) (chars_of out))) (flat_map chars_of ins)).

  (** The entry of the result at [idx]. *)
  Definition einsum_entry (ins : list string) (out : string) (xs : list array) (idx : list nat) : K :=
    sum_letters (size_of (letter_sizes ins xs)) (summed_letters ins out) (with_values (chars_of out) idx (fun _ => 0))
      (fun rho => kprod (map (fun sx => entry (snd sx) (map rho (chars_of (fst sx)))) (combine ins xs))).
  Definition einsum_array (ins : list string) (out : string) (xs : list array) : array :=
    mkarray (map (size_of (letter_sizes ins xs)) (chars_of out)) (einsum_entry ins out xs).

  (** ** Matrices *)

  (** Matrices with [A] rows and columns. *)
  Definition matrix := nat -> nat -> K.
  Variable A : nat.
  Definition identity : matrix := fun a b => if Nat.eqb a b then kone F else kzero F.
  Definition mmul (x y : matrix) : matrix := fun a b => sum_below A (fun c => kmul F (x a c) (y c b)).
  Definition mprod (l : list matrix) : matrix := fold_right mmul identity l.
  Definition msum (l : list matrix) : matrix := fun a b => ksum (map (fun x => x a b) l).
  Definition mscale (k : K) (x : matrix) : matrix := fun a b => kmul F k (x a b).

  (** The array has two axes of states and [n] axes of modes. *)
  Variable N : nat.
  Definition has_axes (n : nat) (x : array) : Prop := shape x = A :: A :: repeat N n.
  (** The matrix of an array for given modes. *)
  Definition at_modes (x : array) (modes : list nat) : matrix := fun a b => entry x (a :: b :: modes).

  (** ** Products of matrices that depend on lists of modes *)
  Definition tensor_series := list nat -> matrix.
  Definition unit_series : tensor_series := fun is => match is with [] => identity | _ => fun _ _ => kzero F end.
  (** The modes are divided among the factors, in order. *)
  Definition series_mul (x y : tensor_series) : tensor_series :=
    fun is => msum (map (fun p => mmul (x (firstn p is)) (y (skipn p is))) (seq 0 (S (List.length is)))).
  Fixpoint series_power (x : tensor_series) (j : nat) : tensor_series :=
    match j with O => unit_series | S j' => series_mul x (series_power x j') end.
  (** The part of exp x with at most [n] factors. *)
  Definition series_exp (n : nat) (x : tensor_series) : tensor_series :=
    fun is => msum (map (fun j => mscale (one_over F (fact j)) (series_power x j is)) (seq 0 (S n))).
End Einsum.
Arguments shape {F}. Arguments entry {F}. Arguments mkarray {F}.
