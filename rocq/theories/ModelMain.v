(** Model of `python driver.py WORDS`: driver.py 71-155 with the parser of
    ModelCommandLine, the log file and the run of ModelRun. *)
From Coq Require Import ZArith.
From Verif Require Import PyBase ModelFullCC ModelTrunc ModelRun ModelCommandLine.
Open Scope string_scope.

(** driver.py 74-79, log_conf.py 51-94: the file that gets the log.  With -s,
    and for an empty path, [logging.basicConfig] makes no file.  (The modules
    of the generators ask for log files of their own when they are loaded,
    _glue_.py 11-22; they are loaded later, and only the first call of
    basicConfig has an effect.) *)
Definition log_file (ns : namespace) : option string :=
  if ns_std ns then None else if String.eqb (ns_log ns) "" then None else Some (ns_log ns).

(** How a run ends: in the parser, or as in ModelRun. *)
Inductive ending := Parser (s : stop) | Program (r : res unit).

Section Main.
  Variable lt : list (list tamp) -> list (list tamp).
  Variable ln : list nat -> list nat.
  Variable lp : list (list (nat * nat)) -> list (list (nat * nat)).
  Variable pt : list (list tamp) -> list (list tamp).
  Variable pn : list nat -> list nat.
  Variable pl : list (list nat) -> list (list nat).
  Variable pc : list (list ascii) -> list (list ascii).
  (** the text of the log at the end; the messages are not modelled *)
  Variable messages : string.

  (** The log file is emptied (filemode 'w') before anything is read, and has
      the messages at the end.  Simplified: when the log file is also the file
      of the truncations or of the equations, python writes through two
      handles; the model then keeps the messages only.  That the directory of
      the log file may not exist is not modelled. *)
  Definition main (fs : files) (words : list string) : files * ending :=
    match parse_args words with
    | Stop s => (fs, Parser s)
    | Done ns =>
        let fs1 := match log_file ns with Some l => write fs l "" | None => fs end in
        let '(fs2, r) := run lt ln lp pt pn pl pc fs1 (ns_args ns) in
        (match log_file ns with Some l => write fs2 l messages | None => fs2 end, Program r)
    end.
End Main.
