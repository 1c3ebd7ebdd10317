(** What `python driver.py WORDS` should do: which words remove the f terms. *)
From Coq Require Import List ZArith String.
From Verif Require Import PyBase SpecCommandLine.
Import ListNotations.
Local Open Scope string_scope.

(** The last -rf has this text. *)
Definition last_remove_f (ss : list setting) (v : string) : Prop :=
  exists before after, ss = (before ++ SRemoveF v :: after)%list /\ forall w, ~ In (SRemoveF w) after.
Definition no_remove_f (ss : list setting) : Prop := forall w, ~ In (SRemoveF w) ss.
