(** Specification vocabulary: the sum of products h z in the LaTeX document of the
    z ansatz as a number, without the functions of the model. *)
From Coq Require Import List Arith String.
From Verif Require Import PyBase ModelEt SpecFullCCLatex SpecZhz SpecEtLatex SpecEinsum SpecFullCCValue SpecEtValue.
Import ListNotations.
Local Open Scope string_scope.

(** In the section of the document for the projection with [p] annihilation operators
    the printed sum has one term for each of the contractions [cs]. *)
Definition prints_hz_sum (p : nat) (text : string) (cs : list (pairing nat)) : Prop :=
  exists before after lead trail ss,
    text = before ++ z_align_text 0 p (lead ++ "\\&+\sum\Big(" ++ hz_sum_text ss ++ "\Big)" ++ trail) ++ after /\
    Forall2 (z_term_text true right_only) cs ss.

Section Value.
  Variable F : scalars.
  Variables A N : nat.
  Variable args : string -> nat * nat -> array F.

  (** The number a printed term of the ground state stands for: one over the printed
      number times h z, the modes of the pairs of z and h summed over; the first
      modes of the projection are those of h.  (The powers of f are 1.) *)
  Definition hz_value (is : list nat) (a : nat) (c : pairing nat) : K F :=
    kmul F (SpecEinsum.one_over F (pair_factorials c))
      (sum_modes F N (c_rh c) (fun modes => sum_below F A (fun b =>
         kmul F (entry (args "h_args" (h_up c, h_down c)) (a :: b :: modes ++ firstn (c_hp c) is)%list)
                (entry (args "z_args" (r_up c, 0)) (b :: modes ++ skipn (c_hp c) is)%list)))).
  Definition hz_sum (cs : list (pairing nat)) (is : list nat) (a : nat) : K F := ksum F (map (hz_value is a) cs).
End Value.
