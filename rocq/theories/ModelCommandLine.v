(** Model of /repo/termfactory/driver.py, lines 18-49: the command line.

    The parser is that of the standard library (argparse, python 3.9, the
    version that setup.py asks for); the part of it that this program uses is
    modelled here: options without and with values, abbreviations, options
    joined with their value or with each other.  There are no positional
    arguments, groups or sub-commands in this program.  Words are texts of
    one-byte characters, digits and blanks are those of ASCII.  The messages of
    errors are not modelled. *)
From Coq Require Import ZArith.
From Verif Require Import PyBase PyStr ModelTrunc.

(** ** Options (lines 29-42) *)

Inductive dest := DHelp | DLog | DStd | DT | DAnsatz | DExcited | DRemoveF | DCode | DLhs | DPath.
Inductive nargs := NZero | NOne | NPlus.

Definition nargs_of (d : dest) : nargs :=
  match d with
  | DHelp | DStd | DExcited | DCode | DLhs => NZero
  | DT => NPlus
  | DLog | DAnsatz | DRemoveF | DPath => NOne
  end.

(** the option strings in the order in which they are added; "-h" and "--help"
    are added by the parser *)
Definition option_strings : list (string * dest) :=
  [("-h", DHelp); ("--help", DHelp);
   ("-l", DLog); ("--log_path", DLog);
   ("-s", DStd); ("--stdlog", DStd);
   ("-t", DT);
   ("-a", DAnsatz); ("--ansatz", DAnsatz);
   ("-es", DExcited); ("--excited_state", DExcited);
   ("-rf", DRemoveF); ("--remove_f_terms", DRemoveF);
   ("-c", DCode); ("--code", DCode);
   ("-lhs", DLhs);
   ("-p", DPath); ("--path", DPath)]%string.

Definition find_option (s : string) : option dest :=
  match find (fun p => String.eqb (fst p) s) option_strings with
  | Some (_, d) => Some d
  | None => None
  end.

(** the values of the options; [ns_args] are those that the rest of the program
    uses *)
Record namespace := mkns { ns_args : arguments; ns_log : string; ns_std : bool }.
Definition defaults : namespace :=
  mkns (mkArgs None None None false None false false) "default_logging_file.txt" false.

(** the end of the program in the parser: the help text, the message about a
    wrong usage, an exception inside the library *)
Inductive stop := Help | Usage | Crash.
Inductive outcome (A : Type) := Done (a : A) | Stop (s : stop).
Arguments Done {A}. Arguments Stop {A}.

(** ** Numbers *)

Definition digit_char (c : ascii) : bool := Nat.leb 48 (nat_of_ascii c) && Nat.leb (nat_of_ascii c) 57.
Definition blank_char (c : ascii) : bool :=
  existsb (Nat.eqb (nat_of_ascii c)) [9; 10; 11; 12; 13; 28; 29; 30; 31; 32].

(** digits with single underscores between them; [ok]: an underscore or the end
    may follow *)
Fixpoint digits_value (ok : bool) (acc : Z) (l : list ascii) : option Z :=
  match l with
  | [] => if ok then Some acc else None
  | c :: r =>
      if digit_char c then digits_value true (10 * acc + Z.of_nat (nat_of_ascii c - 48)) r
      else if Ascii.eqb c "_" && ok then digits_value false acc r
      else None
  end.

Fixpoint drop_blanks (l : list ascii) : list ascii :=
  match l with
  | c :: r => if blank_char c then drop_blanks r else l
  | [] => []
  end.

(** [int(s)] *)
Definition int_of_string (s : string) : option Z :=
  match rev (drop_blanks (rev (drop_blanks (list_ascii_of_string s)))) with
  | c :: r =>
      if Ascii.eqb c "-" then option_map Z.opp (digits_value false 0 r)
      else if Ascii.eqb c "+" then digits_value false 0 r
      else digits_value false 0 (c :: r)
  | [] => None
  end.

(** the regular expression "^-\d+$|^-\d*\.\d+$" of the parser; "$" also matches
    before a last line break *)
Definition without_line_break (l : list ascii) : list ascii :=
  match rev l with
  | c :: r => if Nat.eqb (nat_of_ascii c) 10 then rev r else l
  | [] => []
  end.
Definition some_digits (l : list ascii) : bool := negb (Nat.eqb (List.length l) 0) && forallb digit_char l.
Fixpoint after_digits (l : list ascii) : list ascii :=
  match l with
  | c :: r => if digit_char c then after_digits r else l
  | [] => []
  end.
Definition negative_number (s : string) : bool :=
  match without_line_break (list_ascii_of_string s) with
  | c :: r =>
      Ascii.eqb c "-" &&
      (some_digits r || match after_digits r with
                        | p :: q => Ascii.eqb p "." && some_digits q
                        | [] => false
                        end)
  | [] => false
  end.

(** ** Words *)

(** the text before and after the first "=" *)
Fixpoint split_equals (s : string) : option (string * string) :=
  match s with
  | EmptyString => None
  | String c r =>
      if Ascii.eqb c "=" then Some (EmptyString, r)
      else match split_equals r with
           | Some (a, b) => Some (String c a, b)
           | None => None
           end
  end.

Definition has_char (c : ascii) (s : string) : bool := existsb (Ascii.eqb c) (list_ascii_of_string s).

(** argparse [_get_option_tuples]: the options a word may abbreviate, with the
    text joined to them *)
Definition option_tuples (s : string) : list (dest * string * option string) :=
  match s with
  | String _ (String c2 rest) =>
      if Ascii.eqb c2 "-" then
        let '(prefix, explicit) := match split_equals s with Some (a, b) => (a, Some b) | None => (s, None) end in
        flat_map (fun p => if String.prefix prefix (fst p) then [(snd p, fst p, explicit)] else []) option_strings
      else
        flat_map (fun p => if String.eqb (fst p) (String "-" (String c2 "")) then [(snd p, fst p, Some rest)]
                           else if String.prefix s (fst p) then [(snd p, fst p, None)] else []) option_strings
  | _ => []
  end.

(** argparse [_parse_optional]: a word is the value of an option, an option
    (with its name and the text joined to it), an unknown option, or cannot be
    read *)
Inductive word := WValue | WOption (d : dest) (name : string) (explicit : option string) | WUnknown | WAmbiguous.
Definition parse_optional (s : string) : word :=
  match s with
  | EmptyString => WValue
  | String c r =>
      if negb (Ascii.eqb c "-") then WValue
      else match find_option s with
      | Some d => WOption d s None
      | None =>
          match r with
          | EmptyString => WValue
          | _ =>
              match (match split_equals s with
                     | Some (a, b) => match find_option a with Some d => Some (WOption d a (Some b)) | None => None end
                     | None => None
                     end) with
              | Some w => w
              | None =>
                  match option_tuples s with
                  | [(d, name, explicit)] => WOption d name explicit
                  | _ :: _ :: _ => WAmbiguous
                  | [] => if negative_number s then WValue
                          else if has_char " " s then WValue
                          else WUnknown
                  end
              end
          end
      end
  end.

(** argparse [_parse_known_args], first loop: all words after "--" are values *)
Inductive kind_of_word := KValue | KDashes | KOption (d : dest) (name : string) (explicit : option string) | KUnknown.
Fixpoint classify (words : list string) : outcome (list (string * kind_of_word)) :=
  match words with
  | [] => Done []
  | w :: r =>
      if String.eqb w "--" then Done ((w, KDashes) :: map (fun x => (x, KValue)) r)
      else
        match parse_optional w with
        | WAmbiguous => Stop Usage
        | c =>
            match classify r with
            | Stop s => Stop s
            | Done l =>
                Done ((w, match c with
                          | WValue => KValue
                          | WOption d n e => KOption d n e
                          | _ => KUnknown
                          end) :: l)
            end
        end
  end.

(** ** Actions *)

Definition set_args (ns : namespace) (f : arguments -> arguments) : namespace :=
  mkns (f (ns_args ns)) (ns_log ns) (ns_std ns).

Fixpoint all_ints (l : list string) : option (list Z) :=
  match l with
  | [] => Some []
  | s :: r => match int_of_string s, all_ints r with
              | Some z, Some zs => Some (z :: zs)
              | _, _ => None
              end
  end.

(** argparse [_get_values]: the first "--" is removed *)
Fixpoint remove_dashes (l : list string) : list string :=
  match l with
  | [] => []
  | s :: r => if String.eqb s "--" then r else s :: remove_dashes r
  end.

(** [take_action] *)
Definition take_action (ns : namespace) (d : dest) (values : list string) : outcome namespace :=
  match d, remove_dashes values with
  | DHelp, _ => Stop Help
  | DStd, _ => Done (mkns (ns_args ns) (ns_log ns) true)
  | DExcited, _ => Done (set_args ns (fun a => mkArgs (arg_t a) (arg_path a) (arg_ansatz a) true (arg_remove_f a) (arg_code a) (arg_lhs a)))
  | DCode, _ => Done (set_args ns (fun a => mkArgs (arg_t a) (arg_path a) (arg_ansatz a) (arg_excited a) (arg_remove_f a) true (arg_lhs a)))
  | DLhs, _ => Done (set_args ns (fun a => mkArgs (arg_t a) (arg_path a) (arg_ansatz a) (arg_excited a) (arg_remove_f a) (arg_code a) true))
  | DT, l =>
      match all_ints l with
      | Some zs => Done (set_args ns (fun a => mkArgs (Some zs) (arg_path a) (arg_ansatz a) (arg_excited a) (arg_remove_f a) (arg_code a) (arg_lhs a)))
      | None => Stop Usage
      end
  | DLog, [v] => Done (mkns (ns_args ns) v (ns_std ns))
  | DAnsatz, [v] => Done (set_args ns (fun a => mkArgs (arg_t a) (arg_path a) (Some v) (arg_excited a) (arg_remove_f a) (arg_code a) (arg_lhs a)))
  | DRemoveF, [v] => Done (set_args ns (fun a => mkArgs (arg_t a) (arg_path a) (arg_ansatz a) (arg_excited a) (Some v) (arg_code a) (arg_lhs a)))
  | DPath, [v] => Done (set_args ns (fun a => mkArgs (arg_t a) (Some v) (arg_ansatz a) (arg_excited a) (arg_remove_f a) (arg_code a) (arg_lhs a)))
  | _, _ => Stop Crash
  end.

Fixpoint take_actions (ns : namespace) (l : list (dest * list string)) : outcome namespace :=
  match l with
  | [] => Done ns
  | (d, v) :: r => match take_action ns d v with Done ns' => take_actions ns' r | Stop s => Stop s end
  end.

(** ** consume_optional *)

(** The options in the text [explicit] joined to the option d without value
    whose name has one dash; [None] for the last one: its values are the words
    that follow. *)
Fixpoint joined (d : dest) (name explicit : string) : outcome (list (dest * option (list string))) :=
  match nargs_of d with
  | NZero =>
      match name with
      | String _ (String c2 _) =>
          if Ascii.eqb c2 "-" then Stop Usage
          else match explicit with
               | EmptyString => Stop Crash
               | String c r =>
                   let name' := String "-" (String c "") in
                   match find_option name' with
                   | None => Stop Usage
                   | Some d' =>
                       match r with
                       | EmptyString => Done [(d, Some []); (d', None)]
                       | _ => match joined d' name' r with
                              | Done l => Done ((d, Some []) :: l)
                              | Stop s => Stop s
                              end
                       end
                   end
               end
      | _ => Stop Crash
      end
  | _ => Done [(d, Some [explicit])]
  end.

Definition values_of (d : dest) (l : list (string * kind_of_word)) : outcome (list string * list (string * kind_of_word)) :=
  match nargs_of d with
  | NZero => Done ([], l)
  | NOne => match l with
            | (w, KValue) :: r => Done ([w], r)
            | _ => Stop Usage
            end
  | NPlus =>
      let fix span l := match l with
                        | (w, KValue) :: r => (w :: fst (span r), snd (span r))
                        | _ => ([], l)
                        end in
      match l with
      | (_, KValue) :: _ => Done (span l)
      | _ => Stop Usage
      end
  end.

(** the actions of an option word, and the words after it and its values *)
Definition consume_optional (d : dest) (name : string) (explicit : option string) (l : list (string * kind_of_word)) :
    outcome (list (dest * list string) * list (string * kind_of_word)) :=
  match (match explicit with Some e => joined d name e | None => Done [(d, None)] end) with
  | Stop s => Stop s
  | Done ds =>
      match rev ds with
      | (dl, None) :: before =>
          match values_of dl l with
          | Stop s => Stop s
          | Done (vs, rest) =>
              Done ((map (fun p => (fst p, match snd p with Some v => v | None => [] end)) (rev before) ++ [(dl, vs)])%list, rest)
          end
      | _ => Done (map (fun p => (fst p, match snd p with Some v => v | None => [] end)) ds, l)
      end
  end.

(** The second loop; [extras]: there was a word that nothing consumes.  Every
    step consumes a word, so the number of words is enough fuel. *)
Fixpoint consume (fuel : nat) (ns : namespace) (extras : bool) (l : list (string * kind_of_word)) : outcome namespace :=
  match l with
  | [] => if extras then Stop Usage else Done ns
  | (_, c) :: r =>
      match fuel with
      | 0 => Stop Crash
      | S fuel' =>
          match c with
          | KOption d name explicit =>
              match consume_optional d name explicit r with
              | Stop s => Stop s
              | Done (actions, rest) =>
                  match take_actions ns actions with
                  | Stop s => Stop s
                  | Done ns' => consume fuel' ns' extras rest
                  end
              end
          | _ => consume fuel' ns true r
          end
      end
  end.

(** line 48 [parser.parse_args()] for the words after the name of the program *)
Definition parse_args (words : list string) : outcome namespace :=
  match classify words with
  | Stop s => Stop s
  | Done l => consume (List.length l) defaults false l
  end.
