(** Specification vocabulary: derivatives of products of amplitudes of one electronic
    state. *)
From Coq Require Import List Arith Ascii String Sorted.
From Verif Require Import SpecLatexW SpecFullCCLatex.
Import ListNotations.
Local Open Scope string_scope.

(** The lower indices are those of the modes and then that of the state. *)
Definition with_state (x : list ascii * list ascii) : list ascii * list ascii :=
  (fst x, (snd x ++ match snd x with [] => [] | _ => [","%char] end ++ list_ascii_of_string "\gamma")%list).

(** All products of amplitudes that match the projection, each once and short ones
    first, and the derivative of each factor in turn. *)
Definition state_lhs_text (om on : nat) (text : string) : Prop :=
  match (om + on)%nat with
  | 0 => text = "i\left(\dv{\bs_{0,\gamma}}{\tau}\right)"
  | _ => exists gs xss,
      NoDup gs /\ (forall g, In g gs <-> contributes on om g /\ canonical g) /\
      StronglySorted (fun a b => List.length a <= List.length b) gs /\
      Forall2 labelled gs xss /\
      text = "i\left(" ++ String.concat " + " (flat_map (fun xs => derivative_texts "" (map with_state xs)) xss) ++ "\right)"
  end.
