(** Whether LaTeX processes a document without an error, independent of the
    code that prints it.  The tokens are those of SpecTex.  A document is read
    with a stack of what is open: groups, environments, formulas and \left.

    Described is what the printed documents use: macros without and with
    arguments, the packages they load, sections, formulas, equation, align and split.
    Declarations of the preamble that are not described declare nothing.
    Everything else is an error here, so a document that is processed in this
    sense uses nothing else.  Not described: line and page breaking, fonts, and
    what the packages do inside of their commands. *)
From Coq Require Import List Ascii String Bool Arith.
From Verif Require Import SpecTex.
Import ListNotations.
Open Scope string_scope.

Inductive mode := Text | Math.

(** An argument in braces (or one token), an argument in braces that may be
    missing, or one in brackets that may be missing. *)
Inductive argument := Braces (m : mode) | Optional (m : mode) | Brackets.

(** What a command is: where it is allowed, its arguments, whether a delimiter
    follows, and whether it ends in an atom that has a superscript or subscript
    already. *)
Record signature := mksig {
  in_text : bool; in_math : bool; arguments_of : list argument; delimiter : bool; raises : bool; lowers : bool }.
Definition text_command (args : list argument) := mksig true false args false false false.
Definition math_command (args : list argument) := mksig false true args false false false.
Definition any_command (args : list argument) := mksig true true args false false false.
Definition delimiter_command := mksig false true [] true false false.

(** ** The commands of LaTeX and of the packages *)
Definition symbols : list string :=
  ["Omega"; "Psi"; "tau"; "varepsilon"; "gamma"; "delta"; "lambda"; "psi"; "chi"; "sum"; "cdots"; "equiv"; "approx"; "dagger"].
Definition kernel : list (string * signature) :=
  (map (fun x => (x, math_command [])) symbols ++
   map (fun x => (x, any_command [])) ["qquad"; "quad"; ","] ++
   map (fun x => (x, math_command [Braces Math])) ["hat"; "bar"] ++
   [("frac", math_command [Braces Math; Braces Math])] ++
   map (fun x => (x, any_command [Braces Text])) ["textbf"; "textit"] ++
   map (fun x => (x, text_command [Braces Text])) ["section"; "subsection"; "paragraph"; "vspace"] ++
   map (fun x => (x, text_command [])) ["newpage"; "clearpage"])%list.

(** An environment is known by the entry "begin" and its name, arguments of
    the kind G by "argument G" (no command has a blank in its name); the package
    physics loads amsmath and xparse. *)
Definition amsmath : list (string * signature) :=
  [("text", any_command [Braces Text]); ("Big", delimiter_command); ("Bigg", delimiter_command);
   ("begin align", text_command []); ("begin split", math_command [])].
Definition package (name : string) : list (string * signature) :=
  if String.eqb name "amsmath" then amsmath
  else if String.eqb name "physics" then
    amsmath ++ [("argument G", text_command []); ("dv", math_command [Braces Math; Optional Math]);
     ("ket", math_command [Braces Math]); ("bra", math_command [Braces Math]); ("mel", math_command [Braces Math; Braces Math; Braces Math])]
  else if String.eqb name "simplewick" then [("contraction", math_command [Brackets; Braces Math; Braces Math; Braces Math; Braces Math])]
  else if String.eqb name "dsfont" then [("mathds", math_command [Braces Math])]
  else if String.eqb name "bm" then [("bm", math_command [Braces Math])]
  else if String.eqb name "color" then [("color", any_command [Braces Text]); ("colorbox", any_command [Braces Text; Braces Text])]
  else [].

Fixpoint lookup (env : list (string * signature)) (name : string) : option signature :=
  match env with
  | [] => None
  | (x, sg) :: r => if String.eqb x name then Some sg else lookup r name
  end.

(** ** Reading *)

(** What is expected next. *)
Inductive pending :=
| Free (sup sub : bool)                              (* anything; the last atom has these scripts *)
| Script (sup sub : bool)                            (* a script; the atom then has these scripts *)
| Arguments (l : list argument) (sup sub : bool)     (* the arguments of a command *)
| InBrackets (l : list argument) (sup sub : bool)
| Delimiter                                          (* behind \left, \right or \Big *)
| NameOpen (begins : bool)                           (* behind \begin or \end *)
| Name (begins : bool) (read : string).

(** What is open: a group (with the mode outside and what is expected after
    it), an environment (with its name, and whether the row has a & already),
    \left, or a formula in the text. *)
Inductive frame := Brace (m : mode) (p : pending) | Env (name : string) (m : mode) (tab : bool) | LeftRight | Dollar.

Record conf := mkconf { c_mode : mode; c_stack : list frame; c_pending : pending }.
Inductive outcome := Running (c : conf) | Done.

Definition allows (sg : signature) (m : mode) : bool := match m with Text => in_text sg | Math => in_math sg end.

(** After all arguments the command stands there as an atom. *)
Definition expect (l : list argument) (sup sub : bool) : pending :=
  match l with [] => Free sup sub | _ => Arguments l sup sub end.

Definition delimiters : string := "()[]|./".
Definition is_delimiter (c : ascii) : bool := existsb (Ascii.eqb c) (list_ascii_of_string delimiters).

(** Environments: in which mode they may begin, what they are inside of, and
    the mode inside. *)
Definition known_environment (env : list (string * signature)) (name : string) : bool :=
  String.eqb name "equation" || match lookup env ("begin " ++ name) with Some _ => true | None => false end.
Definition begin_env (env : list (string * signature)) (name : string) (m : mode) (stack : list frame) : option conf :=
  let enter inner := if known_environment env name then Some (mkconf inner (Env name m false :: stack) (Free false false)) else None in
  if String.eqb name "equation" || String.eqb name "align" then
    match m, stack with Text, [Env "document" _ _] => enter Math | _, _ => None end
  else if String.eqb name "split" then
    match stack with Env "align" _ _ :: _ => enter Math | Env "equation" _ _ :: _ => enter Math | _ => None end
  else None.
Definition end_env (name : string) (stack : list frame) : option outcome :=
  match stack with
  | Env name' m _ :: rest =>
      if String.eqb name name' then
        if String.eqb name "document" then match rest with [] => Some Done | _ => None end
        else Some (Running (mkconf m rest (Free false false)))
      else None
  | _ => None
  end.

Definition running (m : mode) (stack : list frame) (p : pending) : option outcome := Some (Running (mkconf m stack p)).

(** A token where nothing particular is expected. *)
Definition read_free (env : list (string * signature)) (m : mode) (stack : list frame) (sup sub : bool) (t : token) : option outcome :=
  match t with
  | Char c =>
      if Ascii.eqb c "$" then
        match m, stack with
        | Text, _ => running Math (Dollar :: stack) (Free false false)
        | Math, Dollar :: rest => running Text rest (Free false false)
        | _, _ => None
        end
      else if Ascii.eqb c "&" then
        match stack with
        | Env "align" o _ :: rest => running m (Env "align" o true :: rest) (Free false false)
        | Env "split" o false :: rest => running m (Env "split" o true :: rest) (Free false false)
        | _ => None
        end
      else if Ascii.eqb c "#" then None
      else running m stack (Free false false)
  | Open => running m (Brace m (Free false false) :: stack) (Free false false)
  | Close => match stack with Brace m' p :: rest => running m' rest p | _ => None end
  | Sup => match m with Math => if sup then None else running m stack (Script true sub) | Text => None end
  | Sub => match m with Math => if sub then None else running m stack (Script sup true) | Text => None end
  | Paragraph => match m, stack with Text, [Env "document" _ _] => running m stack (Free false false) | _, _ => None end
  | Command name =>
      if String.eqb name "begin" then running m stack (NameOpen true)
      else if String.eqb name "end" then running m stack (NameOpen false)
      else if String.eqb name "left" then match m with Math => running m (LeftRight :: stack) Delimiter | Text => None end
      else if String.eqb name "right" then match stack with LeftRight :: rest => running m rest Delimiter | _ => None end
      else if String.eqb name "\" then
        match stack with
        | Env "align" o _ :: rest => running m (Env "align" o false :: rest) (Free false false)
        | Env "split" o _ :: rest => running m (Env "split" o false :: rest) (Free false false)
        | _ => None
        end
      else
        match lookup env name with
        | Some sg =>
            if allows sg m then
              running m stack (if delimiter sg then Delimiter else expect (arguments_of sg) (raises sg) (lowers sg))
            else None
        | None => None
        end
  end.

(** One token in the place of an argument or script: a character, or a command
    without arguments of its own. *)
Definition single (env : list (string * signature)) (m : mode) (t : token) : bool :=
  match t with
  | Char c => negb (Ascii.eqb c "$" || Ascii.eqb c "&" || Ascii.eqb c "#")
  | Command name =>
      match lookup env name with
      | Some sg => allows sg m && negb (delimiter sg) && match arguments_of sg with [] => true | _ => false end
                   && negb (raises sg) && negb (lowers sg)
      | None => false
      end
  | _ => false
  end.

Definition read (env : list (string * signature)) (c : conf) (t : token) : option outcome :=
  let m := c_mode c in let stack := c_stack c in
  match c_pending c with
  | Free sup sub => read_free env m stack sup sub t
  | Script sup sub =>
      match t with
      | Open => running Math (Brace m (Free sup sub) :: stack) (Free false false)
      | _ => if single env Math t then running m stack (Free sup sub) else None
      end
  | Arguments [] sup sub => read_free env m stack sup sub t
  | Arguments (Braces inner :: l) sup sub =>
      match t with
      | Open => running inner (Brace m (expect l sup sub) :: stack) (Free false false)
      | _ => if single env inner t then running m stack (expect l sup sub) else None
      end
  | Arguments (Optional inner :: l) sup sub =>
      match t, l with
      | Open, _ => running inner (Brace m (expect l sup sub) :: stack) (Free false false)
      | _, [] => read_free env m stack sup sub t
      | _, _ => None
      end
  | Arguments (Brackets :: l) sup sub =>
      match t with
      | Char c => if Ascii.eqb c "[" then running m stack (InBrackets l sup sub) else None
      | Open => match l with
                | Braces inner :: l' => running inner (Brace m (expect l' sup sub) :: stack) (Free false false)
                | _ => None
                end
      | _ => None
      end
  | InBrackets l sup sub =>
      match t with
      | Char c => if Ascii.eqb c "]" then running m stack (expect l sup sub) else running m stack (InBrackets l sup sub)
      | _ => None
      end
  | Delimiter =>
      match t with Char c => if is_delimiter c then running m stack (Free false false) else None | _ => None end
  | NameOpen b => match t with Open => running m stack (Name b "") | _ => None end
  | Name b x =>
      match t with
      | Char c => running m stack (Name b (x ++ String c ""))
      | Close => if b then option_map Running (begin_env env x m stack) else end_env x stack
      | _ => None
      end
  end.

(** All tokens; those behind \end{document} are ignored. *)
Fixpoint read_all (env : list (string * signature)) (c : conf) (ts : list token) : option outcome :=
  match ts with
  | [] => Some (Running c)
  | t :: r => match read env c t with
              | Some (Running c') => read_all env c' r
              | o => o
              end
  end.

(** ** The preamble *)

(** The tokens up to the brace that closes the group. *)
Fixpoint group_tokens (depth : nat) (ts : list token) : option (list token) :=
  match ts with
  | [] => None
  | Open :: r => option_map (cons Open) (group_tokens (S depth) r)
  | Close :: r => match depth with 0 => Some [] | S d => option_map (cons Close) (group_tokens d r) end
  | t :: r => option_map (cons t) (group_tokens depth r)
  end.

Definition is_hash (t : token) : bool := match t with Char c => Ascii.eqb c "#" | _ => false end.

(** A macro is what its body is in a formula, an argument of it standing for
    one atom. *)
Definition macro (env : list (string * signature)) (args : list argument) (ts : list token) : option signature :=
  match ts with
  | Open :: r =>
      match group_tokens 0 r with
      | Some body =>
          match read_all env (mkconf Math [] (Free false false)) (filter (fun t => negb (is_hash t)) body) with
          | Some (Running (mkconf Math [] (Free sup sub))) => Some (mksig false true args false sup sub)
          | _ => None
          end
      | None => None
      end
  | _ => None
  end.

Definition digit_value (c : ascii) : nat := nat_of_ascii c - 48.

Definition declaration (env : list (string * signature)) (ts : list token) : list (string * signature) :=
  let define x sg := match sg with Some s => [(x, s)] | None => [] end in
  match ts with
  | Command "newcommand" :: Open :: Command x :: Close :: Char "[" :: Char d :: Char "]" :: r =>
      define x (macro env (repeat (Braces Math) (digit_value d)) r)
  | Command "newcommand" :: Open :: Command x :: Close :: r => define x (macro env [] r)
  | Command "NewDocumentCommand" :: Open :: Command x :: Close :: Open :: Char "G" :: Open :: Close :: Close :: r =>
      match lookup env "argument G" with Some _ => define x (macro env [Optional Math] r) | None => [] end
  | Command "usepackage" :: Open :: r =>
      match group_tokens 0 r with
      | Some name => package (string_of_list_ascii (flat_map (fun t => match t with Char c => [c] | _ => [] end) name))
      | None => []
      end
  | _ => []
  end.

(** The commands known after the preamble, and the tokens behind
    \begin{document}. *)
Definition begin_document : list token :=
  (Command "begin" :: Open :: map Char (list_ascii_of_string "document") ++ [Close])%list.
Definition token_eq_dec : forall a b : token, {a = b} + {a <> b}.
Proof. decide equality; [apply string_dec|apply ascii_dec]. Defined.
Definition at_document (ts : list token) : bool :=
  if list_eq_dec token_eq_dec (firstn (List.length begin_document) ts) begin_document then true else false.
Fixpoint preamble (env : list (string * signature)) (ts : list token) : option (list (string * signature) * list token) :=
  if at_document ts then Some (env, skipn (List.length begin_document) ts)
  else match ts with
       | [] => None
       | _ :: r => preamble (declaration env ts ++ env)%list r
       end.

(** [processed s]: LaTeX processes the document [s] without an error. *)
Definition processed (s : string) : Prop :=
  exists env body, preamble kernel (tokens s) = Some (env, body) /\
    read_all env (mkconf Text [Env "document" Text false] (Free false false)) body = Some Done.
