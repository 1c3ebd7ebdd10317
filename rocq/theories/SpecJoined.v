(** Specification vocabulary: options joined in one word. *)
From Coq Require Import List Arith ZArith Ascii String.
From Verif Require Import SpecCommandLine.
Import ListNotations.
Local Open Scope string_scope.

(** The letters of the options that are written with one letter and have no value. *)
Inductive flags : list setting -> string -> Prop :=
| flags_none : flags [] ""
| flags_std ss t : flags ss t -> flags (SStd :: ss) (String "s" t)
| flags_code ss t : flags ss t -> flags (SCode :: ss) (String "c" t).

(** The words for settings of which several may be joined in one word: flags, and
    after them perhaps one option with a value, which may be joined as well. *)
Inductive joins : list setting -> list string -> Prop :=
| join_apart s ws : writes s ws -> joins [s] ws
| join_flags fs t : fs <> [] -> flags fs t -> joins fs [String "-" t]
| join_text fs t s c v : fs <> [] -> flags fs t -> needs_of s = Text v -> short_name s = String "-" (String c "") -> plain v ->
    joins (fs ++ [s])%list [String "-" (t ++ String c ""); v]
| join_value fs t s c v : fs <> [] -> flags fs t -> needs_of s = Text v -> short_name s = String "-" (String c "") -> v <> "" -> v <> "--" ->
    joins (fs ++ [s])%list [String "-" (t ++ String c v)]
| join_numbers fs t zs ws : fs <> [] -> flags fs t -> zs <> [] -> Forall2 number_text zs ws ->
    joins (fs ++ [STrunc zs])%list (String "-" (t ++ "t") :: ws)
| join_number fs t z w : fs <> [] -> flags fs t -> number_text z w ->
    joins (fs ++ [STrunc [z]])%list [String "-" (t ++ String "t" w)].
