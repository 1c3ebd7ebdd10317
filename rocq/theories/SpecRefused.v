(** Specification vocabulary for words that the program refuses, independent of
    the model. *)
From Coq Require Import List Arith Ascii String.
From Verif Require Import SpecCommandLine.
Import ListNotations.
Local Open Scope string_scope.

(** The options that the help text shows. *)
Definition names : list string :=
  ["-h"; "--help"; "-l"; "--log_path"; "-s"; "--stdlog"; "-t"; "-a"; "--ansatz"; "-es"; "--excited_state";
   "-rf"; "--remove_f_terms"; "-c"; "--code"; "-lhs"; "-p"; "--path"].

(** A name, or the beginning of a long name. *)
Definition name_or_beginning (n : string) : Prop :=
  In n names \/ exists c r rest, n = "--" ++ String c r /\ In (n ++ rest) names.

(** The words that are read as options: a name, a name with a text after "=",
    the two short names of two letters cut to one, and the short names of one
    letter with anything joined to them, apart from -lh which may as well be
    the beginning of -lhs. *)
Definition option_word (w : string) : Prop :=
  (exists n, name_or_beginning n /\ (w = n \/ exists v, w = n ++ "=" ++ v)) \/
  w = "-e" \/ w = "-r" \/
  (exists c v, In c ["h"; "l"; "s"; "t"; "a"; "c"; "p"]%char /\ w = String "-" (String c v) /\ w <> "-lh").

(** A word that begins with a letter or a dot is no whole number. *)
Definition letter_or_dot (c : ascii) : Prop :=
  c = "."%char \/ 65 <= nat_of_ascii c <= 90 \/ 97 <= nat_of_ascii c <= 122.
