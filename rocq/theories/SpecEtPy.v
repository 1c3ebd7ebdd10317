(** Specification vocabulary for the generated python code of the e^T ansatz,
    independent of the functions of the model (only its records are used). *)
From Coq Require Import List Arith Ascii String.
From Verif Require Import PyBase ModelFullCC ModelEt ModelEtPy SpecFullCCPy SpecEt.
Import ListNotations.

(** ** Running a generated function *)

(** A body is run under the flags of the caller's truncation object: [fh i] is
    [truncation.h_at_least_...] of rank i, [ft j] is [truncation.t_...] of rank
    j, [fz k] is [truncation.z_at_least_...] of rank k.  The result is what the
    body adds, in order: a prefactor (numerator, denominator) and a call. *)
Section Run.
  Variables fh ft fz : nat -> bool.

  Definition run_zsums (b : zsums) : list (nat * nat * ecall) :=
    flat_map (fun kp => if Nat.eqb (fst kp) 0 || fz (fst kp)
                        then flat_map (fun pc => map (pair (fst pc)) (snd pc)) (snd kp) else []) b.
  Definition run_tifs (l : list (nat * zsums)) : list (nat * nat * ecall) :=
    flat_map (fun jb => if ft (fst jb) then run_zsums (snd jb) else []) l.
  Definition run_ebody (b : ebody) : list (nat * nat * ecall) :=
    match b with
    | ENoTerms | EInvalid => []
    | EBody b00 b0 bh =>
        (run_zsums b00 ++ run_tifs b0
         ++ flat_map (fun ib => if fh (fst ib) then run_zsums (fst (snd ib)) ++ run_tifs (snd (snd ib)) else []) bh)%list
    end.

  (** A contribution of ranks i (h), j (amplitudes) and k (z) is on; rank 0 has
      no flag. *)
  Definition is_on (i j k : nat) : bool :=
    (Nat.eqb i 0 || fh i) && (Nat.eqb j 0 || ft j) && (Nat.eqb k 0 || fz k).
End Run.

(** ** Printed form *)

Definition eT_prefactor_text (nd : nat * nat) : string :=
  if Nat.eqb (fst nd) (snd nd) then "" else ("(" ++ str_nat (fst nd) ++ " / " ++ str_nat (snd nd) ++ ") * ")%string.
Definition operand_text (o : string * (nat * nat)) : string :=
  (fst o ++ "[(" ++ str_nat (fst (snd o)) ++ ", " ++ str_nat (snd (snd o)) ++ ")]")%string.
Definition call_text (c : ecall) : string :=
  ("np.einsum('" ++ String.concat ", " (c_inputs c) ++ " -> " ++ c_output c ++ "', "
   ++ String.concat ", " (map operand_text (c_operands c)) ++ ")")%string.
Definition added_text (pc : nat * nat * ecall) : string * string := (eT_prefactor_text (fst pc), call_text (snd pc)).

(** ** Calls for a contraction *)

(** The operand H (or the derivative of the amplitudes, which is missing when
    it is that of rank 0) and the operand z (or its derivative). *)
Definition h_of_side (s : side) (m n : nat) (group : list ascii) : list (string * (string * (nat * nat))) :=
  match s with
  | RHS => [(of_chars ("a" :: "c" :: group)%char, ("h_args"%string, (m, n)))]
  | LHS => match m, n with 0, 0 => [] | _, _ => [(of_chars group, ("dT"%string, (m, n)))] end
  end.
Definition z_of_side (s : side) (m n k : nat) (group : list ascii) : string * (string * (nat * nat)) :=
  (of_chars ("c" :: group)%char,
   (match s, m, n with LHS, 0, 0 => "dz_args" | _, _, _ => "z_args" end%string, (k, 0))).
Definition t_of_side (s : side) : string * (nat * nat) :=
  (match s with RHS => "t_args" | LHS => "t_conj" end%string, (0, 1)).

(** The letters that are neither external nor summed with the amplitudes, H and
    z: the electronic ones. *)
Definition electronic (s : side) : list ascii := match s with RHS => ["a"; "c"]%char | LHS => ["c"%char] end.
Definition result_letter (s : side) : ascii := match s with RHS => "a"%char | LHS => "c"%char end.

(** The call computes the contraction [c]: a letter for every pair of an
    amplitude and z ([tz]), of an amplitude and H ([th]), of H and z ([hz]),
    and for every external index of H ([eh]) and of z ([ez]); each is written
    on both partners; different pairs have different letters. *)
Definition realises_eT (s : side) (m n k : nat) (c : contraction) (call : ecall) : Prop :=
  exists tz th hz eh ez : list ascii,
    List.length tz = list_sum (e_zt c) /\ List.length th = list_sum (e_ht c) /\ List.length hz = e_zh c /\
    List.length eh = e_hp c /\ List.length ez = e_zp c /\
    NoDup (electronic s ++ tz ++ th ++ hz ++ eh ++ ez)%list /\
    let groups := (map (fun x => (of_chars [x], t_of_side s)) (tz ++ th)
                   ++ h_of_side s m n (th ++ hz ++ eh) ++ [z_of_side s m n k (tz ++ hz ++ ez)])%list in
    c_inputs call = map fst groups /\ c_operands call = map snd groups /\
    c_output call = of_chars (result_letter s :: eh ++ ez).

(** Two contractions that differ only in the numbering of the amplitudes. *)
Definition same_up_to_order (c d : contraction) : Prop :=
  e_zp c = e_zp d /\ e_zh c = e_zh d /\ e_hp c = e_hp d /\
  list_sum (e_zt c) = list_sum (e_zt d) /\ list_sum (e_ht c) = list_sum (e_ht d).

(** The value of a contraction: one over the permutations of pairs of the same
    kind. *)
Definition pair_permutations (c : contraction) : nat :=
  fact (e_zp c) * fact (e_zh c) * fact (list_sum (e_zt c)) * fact (e_hp c) * fact (list_sum (e_ht c)).

(** Binomial coefficients: the number of [k]-element subsets. *)
Definition choose (n k b : nat) : Prop := b * (fact k * fact (n - k)) = fact n.

(** Well formed: as many groups as operands, each as long as the tensor has
    axes (H has two electronic axes, z one), every letter either on two inputs
    or on one input and the output, or absent; the output has the electronic
    axis and the [P] axes of the projection. *)
Definition electronic_axes (name : string) : nat :=
  if String.eqb name "h_args" then 2
  else if String.eqb name "z_args" || String.eqb name "dz_args" then 1 else 0.
Definition well_formed_call (P : nat) (c : ecall) : Prop :=
  List.length (c_inputs c) = List.length (c_operands c) /\
  Forall2 (fun g o => String.length g = electronic_axes (fst o) + fst (snd o) + snd (snd o))
    (c_inputs c) (c_operands c) /\
  (forall x, let i := list_sum (map (occurrences x) (c_inputs c)) in
             let o := occurrences x (c_output c) in
             (i = 0 /\ o = 0) \/ (i = 2 /\ o = 0) \/ (i = 1 /\ o = 1)) /\
  String.length (c_output c) = S P.

(** ** The operators of the ansatz *)

(** The Hamiltonian of the python generator (on the left hand side the
    derivatives of the amplitudes). *)
Definition h_of_ansatz (s : side) (H m n : nat) : Prop :=
  m + n <= H /\ (m + n < 3 \/ m = 0) /\ allowed_on s n.

(** A contraction of  projection * t ... t * H * z  that the code should add to
    the equation of a projection with [P] annihilation operators. *)
Definition of_ansatz (s : side) (H CC P q m n k : nat) (c : contraction) : Prop :=
  h_of_ansatz s H m n /\ k <= CC /\ complete P q m n k c.

(** The term 1 * h^0_0 * z^P (1 * 1 * dz^P/dtau on the left hand side). *)
Definition bare_term (P q m n k : nat) : Prop := q = 0 /\ m = 0 /\ n = 0 /\ k = P.

(** [added] is exactly the code for the contractions [good]: everything added
    is one of them with its value, and for each of them exactly one call is
    added. *)
Definition exactly_adds (s : side) (good : nat -> nat -> nat -> nat -> contraction -> Prop) (added : list (nat * nat * ecall)) : Prop :=
  (forall p call, In (p, call) added ->
     exists q m n k c, good q m n k c /\ realises_eT s m n k c call /\ p = (1, pair_permutations c)) /\
  (forall q m n k c, good q m n k c ->
     exists l1 p call l2, added = (l1 ++ (p, call) :: l2)%list /\ realises_eT s m n k c call /\
       p = (1, pair_permutations c) /\
       forall p' call', In (p', call') (l1 ++ l2)%list -> ~ realises_eT s m n k c call').

(** ** The lines of a term *)

(** [x] is (the rank of h, the largest rank of the amplitudes, the rank of z)
    of the term [t] together with the texts of its prefactor, in lowest terms,
    and of one of its calls. *)
Definition line_of (s : side) (t : etterm) (x : nat * nat * nat * (string * string)) : Prop :=
  let '(i, j, k, (p, c)) := x in
  exists nd calls call,
    build_eT_zhz_python_prefactor (tt_ts t) (tt_h t) (tt_z t) = Ok nd /\ eT_calls s t = Ok calls /\ In call calls /\
    i = Nat.max (eh_m (tt_h t)) (eh_n (tt_h t)) /\ j = list_max (map et_rank (tt_ts t)) /\ k = ez_rank (tt_z t) /\
    p = eT_prefactor_text (fraction nd) /\ c = call_text call.
