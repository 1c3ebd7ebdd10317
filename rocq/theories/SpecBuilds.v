(** Specification vocabulary for several runs of the program one after the other. *)
From Coq Require Import List String.
From Verif Require Import PyBase ModelRun SpecCommandLine.
Import ListNotations.

(** The words name this file with truncations (the last -p counts). *)
Definition last_path (ss : list setting) (p : string) : Prop :=
  exists before after, ss = (before ++ SPath p :: after)%list /\ forall q, ~ In (SPath q) after.

(** A command line without -p. *)
Definition without_path (words : list string) : Prop :=
  exists ss wss, words = List.concat wss /\ Forall2 writes ss wss /\ forall p, ~ In (SPath p) ss.

(** No file at all. *)
Definition nothing_there : files := fun _ => None.

(** Runs one after the other; [program] is what one run makes of the files. *)
Definition in_turn (program : files -> list string -> files) (fs : files) (runs : list (list string)) : files :=
  fold_left program runs fs.
