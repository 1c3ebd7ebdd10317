(** Specification vocabulary for the command line, independent of the functions
    of the model (only its records are used). *)
From Coq Require Import List Arith ZArith Ascii String.
From Verif Require Import PyBase ModelTrunc ModelCommandLine.
Import ListNotations.
Local Open Scope string_scope.

(** What a user can ask for. *)
Inductive setting :=
| SLog (path : string) | SStd | STrunc (zs : list Z) | SAnsatz (name : string) | SExcited
| SRemoveF (text : string) | SCode | SLhs | SPath (path : string).

(** The names of the options as the help text shows them. *)
Definition short_name (s : setting) : string :=
  match s with
  | SLog _ => "-l" | SStd => "-s" | STrunc _ => "-t" | SAnsatz _ => "-a" | SExcited => "-es"
  | SRemoveF _ => "-rf" | SCode => "-c" | SLhs => "-lhs" | SPath _ => "-p"
  end.
Definition long_name (s : setting) : option string :=
  match s with
  | SLog _ => Some "--log_path" | SStd => Some "--stdlog" | STrunc _ => None | SAnsatz _ => Some "--ansatz"
  | SExcited => Some "--excited_state" | SRemoveF _ => Some "--remove_f_terms" | SCode => Some "--code"
  | SLhs => None | SPath _ => Some "--path"
  end.

Inductive needs := Nothing | Text (v : string) | Numbers (zs : list Z).
Definition needs_of (s : setting) : needs :=
  match s with
  | SLog v | SAnsatz v | SRemoveF v | SPath v => Text v
  | STrunc zs => Numbers zs
  | SStd | SExcited | SCode | SLhs => Nothing
  end.

(** Decimal numbers, perhaps with leading zeros. *)
Definition digit_value (c : ascii) : nat := nat_of_ascii c - 48.
Definition is_digit (c : ascii) : Prop := 48 <= nat_of_ascii c <= 57.
Definition decimal_value (l : list ascii) : Z :=
  fold_left (fun acc c => (10 * acc + Z.of_nat (digit_value c))%Z) l 0%Z.
Definition number_text (z : Z) (w : string) : Prop :=
  exists l, l <> [] /\ Forall is_digit l /\
    ((w = string_of_list_ascii l /\ z = decimal_value l) \/
     (w = String "-" (string_of_list_ascii l) /\ z = (- decimal_value l)%Z)).

(** A word that can only be a value. *)
Definition plain (w : string) : Prop := forall r, w <> String "-" r.

(** A name that means the option: the short one (-e for -es and -r for -rf will
    do as well), or the long one, of which the first letter is enough. *)
Definition name_of (s : setting) (n : string) : Prop :=
  n = short_name s \/ (short_name s = "-es" /\ n = "-e") \/ (short_name s = "-rf" /\ n = "-r") \/
  exists l c r rest, long_name s = Some l /\ n = "--" ++ String c r /\ l = n ++ rest.

(** The words for a setting. *)
Inductive writes (s : setting) : list string -> Prop :=
| write_flag n : needs_of s = Nothing -> name_of s n -> writes s [n]
| write_text n v : needs_of s = Text v -> name_of s n -> plain v -> writes s [n; v]
| write_equals n v : needs_of s = Text v -> name_of s n -> v <> "--" ->
    (n = short_name s \/ exists r, n = "--" ++ r) -> writes s [n ++ "=" ++ v]
| write_joined c v : needs_of s = Text (String c v) -> short_name s = "-a" \/ short_name s = "-p" ->
    c <> "="%char -> String c v <> "--" -> writes s [short_name s ++ String c v]
| write_numbers zs ws : needs_of s = Numbers zs -> zs <> [] -> Forall2 number_text zs ws -> writes s (short_name s :: ws).

(** What the program is asked for: of settings of the same kind the last one
    counts. *)
Definition apply_setting (ns : namespace) (s : setting) : namespace :=
  let a := ns_args ns in
  let with_args a := mkns a (ns_log ns) (ns_std ns) in
  match s with
  | SLog p => mkns a p (ns_std ns)
  | SStd => mkns a (ns_log ns) true
  | STrunc zs => with_args (mkArgs (Some zs) (arg_path a) (arg_ansatz a) (arg_excited a) (arg_remove_f a) (arg_code a) (arg_lhs a))
  | SAnsatz v => with_args (mkArgs (arg_t a) (arg_path a) (Some v) (arg_excited a) (arg_remove_f a) (arg_code a) (arg_lhs a))
  | SExcited => with_args (mkArgs (arg_t a) (arg_path a) (arg_ansatz a) true (arg_remove_f a) (arg_code a) (arg_lhs a))
  | SRemoveF v => with_args (mkArgs (arg_t a) (arg_path a) (arg_ansatz a) (arg_excited a) (Some v) (arg_code a) (arg_lhs a))
  | SCode => with_args (mkArgs (arg_t a) (arg_path a) (arg_ansatz a) (arg_excited a) (arg_remove_f a) true (arg_lhs a))
  | SLhs => with_args (mkArgs (arg_t a) (arg_path a) (arg_ansatz a) (arg_excited a) (arg_remove_f a) (arg_code a) true)
  | SPath p => with_args (mkArgs (arg_t a) (Some p) (arg_ansatz a) (arg_excited a) (arg_remove_f a) (arg_code a) (arg_lhs a))
  end.
Definition nothing_asked : namespace :=
  mkns (mkArgs None None None false None false false) "default_logging_file.txt" false.
Definition asked (ss : list setting) : namespace := fold_left apply_setting ss nothing_asked.

(** A word that begins with a dash and is neither "-" nor a negative number and
    has no blank: it is never taken as a value. *)
Definition dashed (w : string) : Prop :=
  exists c r, w = String "-" (String c r) /\
    (forall a b, w <> a ++ String " " b) /\ ~ is_digit c /\ c <> "."%char.

(** The texts of a request. *)
Definition texts (ns : namespace) : list string :=
  ns_log ns :: match arg_path (ns_args ns) with Some v => [v] | None => [] end
            ++ match arg_ansatz (ns_args ns) with Some v => [v] | None => [] end
            ++ match arg_remove_f (ns_args ns) with Some v => [v] | None => [] end.

(** The words ask for the log file l. *)
Definition logs_to (ss : list setting) (l : string) : Prop :=
  ~ In SStd ss /\ l <> "" /\
  ((exists before after, ss = (before ++ SLog l :: after)%list /\ forall m, ~ In (SLog m) after) \/
   (l = "default_logging_file.txt" /\ forall m, ~ In (SLog m) ss)).
