(** When the thermal file has no beginning of a document. *)
From Coq Require Import List String.
From Verif Require Import SpecTex SpecTexDoc.
Import ListNotations.
Open Scope string_scope.

Definition newline : string := String (Ascii.ascii_of_nat 10) "".
Fixpoint number_of_newlines (s : string) : nat :=
  match s with EmptyString => 0 | String c r => (if Ascii.eqb c (Ascii.ascii_of_nat 10) then 1 else 0) + number_of_newlines r end.

(** [s] is the first k lines of [t] *)
Definition lines_of (k : nat) (t s : string) : Prop :=
  exists rest, t = s ++ rest /\
    ((number_of_newlines s = k /\ exists s', s = s' ++ newline) \/ (number_of_newlines s < k /\ rest = "")).

(** There is no file, or its first 29 lines do not begin a document. *)
Definition begins_document (s : string) : Prop := exists a b, tokens s = (a ++ begin_document ++ b)%list.
Definition no_document_kept (old : option string) : Prop :=
  match old with None => True | Some t => forall s, lines_of 29 t s -> ~ begins_document s end.
