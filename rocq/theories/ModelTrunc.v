(** Model of /repo/termfactory/truncation_keys.py, truncations.py, driver.py
    and _glue_.py: truncation dictionaries, JSON files, command line, dispatch. *)
From Coq Require Import ZArith.
From Verif Require Import PyBase PyStr.
Open Scope string_scope.

(** ** Keys (truncation_keys.py 6-24) *)

(** The members of the enum [TruncationsKeys]. *)
Inductive tkey := KH | KCC | KS | KP | KT | KeT.

Definition tkey_eqb (a b : tkey) : bool :=
  match a, b with
  | KH, KH | KCC, KCC | KS, KS | KP, KP | KT, KT | KeT, KeT => true
  | _, _ => false
  end.

(** [member.value] *)
Definition tkey_value (k : tkey) : string :=
  match k with
  | KH => "maximum_hamiltonian_rank"
  | KCC => "maximum_coupled_cluster_rank"
  | KS => "s_taylor_max_order"
  | KP => "omega_max_order"
  | KT => "maximum_T_rank"
  | KeT => "eT_taylor_max_order"
  end.

Definition all_tkeys : list tkey := [KH; KCC; KS; KP; KT; KeT].

(** [TruncationsKeys(s)], a ValueError for an unknown value. *)
Definition tkey_of_value (s : string) : res tkey :=
  match find (fun k => String.eqb (tkey_value k) s) all_tkeys with
  | Some k => Ok k
  | None => Err ValueErr
  end.

(** ** Dictionaries
    A python dictionary is the list of its items in insertion order, keys
    being enum members or strings.  Values are integers. *)
Inductive dkey := DEnum (k : tkey) | DStr (s : string).

Definition dkey_eqb (a b : dkey) : bool :=
  match a, b with
  | DEnum x, DEnum y => tkey_eqb x y
  | DStr x, DStr y => String.eqb x y
  | _, _ => false
  end.

Definition dict := list (dkey * Z).

Fixpoint dict_get (d : dict) (k : dkey) : option Z :=
  match d with
  | [] => None
  | (k', v) :: r => if dkey_eqb k k' then Some v else dict_get r k
  end.

(** [d[k] = v]: an existing key keeps its place, a new one goes last. *)
Fixpoint dict_set (d : dict) (k : dkey) (v : Z) : dict :=
  match d with
  | [] => [(k, v)]
  | (k', v') :: r => if dkey_eqb k k' then (k', v) :: r else (k', v') :: dict_set r k v
  end.

(** [del d[k]] *)
Definition dict_del (d : dict) (k : dkey) : dict :=
  filter (fun kv => negb (dkey_eqb k (fst kv))) d.

(** truncation_keys.py 26-33
    [change_dictionary_keys_from_enum_members_to_strings]: the loop runs over
    a snapshot of the items.  [key in cls] with a string key raises TypeError
    (python before 3.12; later versions raise AttributeError at [key.value],
    or skip the key when it is no member value - the verification functions
    reject such dictionaries before in every version). *)
Fixpoint enum_to_string_loop (items d : dict) : res dict :=
  match items with
  | [] => Ok d
  | (DEnum k, v) :: r => enum_to_string_loop r (dict_del (dict_set d (DStr (tkey_value k)) v) (DEnum k))
  | (DStr _, _) :: _ => Err TypeErr
  end.
Definition change_keys_to_strings (d : dict) : res dict := enum_to_string_loop d d.

(** lines 35-41 [change_dictionary_keys_from_strings_to_enum_members].
    [cls(key)] of an enum member is the member itself; the code then deletes
    it again. *)
Fixpoint string_to_enum_loop (items d : dict) : res dict :=
  match items with
  | [] => Ok d
  | (DStr s, v) :: r =>
      do k <- tkey_of_value s;
      string_to_enum_loop r (dict_del (dict_set d (DEnum k) v) (DStr s))
  | (DEnum k, v) :: r => string_to_enum_loop r (dict_del (dict_set d (DEnum k) v) (DEnum k))
  end.
Definition change_keys_to_enum (d : dict) : res dict := string_to_enum_loop d d.

(** lines 43-62 *)
Definition zhz_keys : list tkey := [KH; KCC; KP].
Definition fcc_keys : list tkey := [KH; KCC; KS; KP].
Definition eTz_keys : list tkey := [KH; KCC; KT; KeT; KP].

Inductive ktype := Zhz | Fcc | ETz.

Definition keys_of (t : ktype) : list tkey :=
  match t with Zhz => zhz_keys | Fcc => fcc_keys | ETz => eTz_keys end.

(** lines 64-74 [key_list_type]; only the length is used. *)
Definition key_list_type (len : nat) : res ktype :=
  if Nat.eqb len (List.length zhz_keys) then Ok Zhz
  else if Nat.eqb len (List.length fcc_keys) then Ok Fcc
  else if Nat.eqb len (List.length eTz_keys) then Ok ETz
  else Err GenericException.

(** ** Verification (truncations.py) *)

(** lines 22-29 [truncation_maximums] *)
Definition truncation_maximum (k : tkey) : Z :=
  match k with KH => 6 | KCC => 6 | KS => 6 | KP => 6 | KT => 1 | KeT => 8 end.

(** lines 83-95 [__verify_keys] on the copy with string keys. *)
Fixpoint verify_keys (d : dict) (keys : list tkey) : res unit :=
  match keys with
  | [] => Ok tt
  | k :: r =>
      match dict_get d (DStr (tkey_value k)) with
      | None => Err AssertionErr
      | Some v =>
          if negb (Z.leb 1 v) then Err AssertionErr
          else if negb (Z.leb v (truncation_maximum k)) then Err AssertionErr
          else verify_keys d r
      end
  end.

Definition is_enum (k : dkey) : bool := match k with DEnum _ => true | DStr _ => false end.

(** lines 98-149 [_verify_zhz/_fcc/_eT_z_t_truncations], the same code with
    three key lists.  [key not in tkeys] for a string key: TypeError. *)
Definition verify_truncations (t : ktype) (d : dict) : res unit :=
  match d with
  | [] => Err AssertionErr
  | _ =>
      if negb (forallb (fun kv => is_enum (fst kv)) d) then Err TypeErr
      else do s <- change_keys_to_strings d; verify_keys s (keys_of t)
  end.

(** ** JSON (truncations.py 156-239) *)

Definition str_Z (z : Z) : string :=
  match z with
  | Zneg p => "-" ++ str_nat (Pos.to_nat p)
  | _ => str_nat (Z.to_nat z)
  end.

Definition quote : string := String (ascii_of_nat 34) EmptyString.

(** [json.dumps] of a dictionary from strings to integers.  Key texts are
    member values, which need no escapes.  (An enum key would be a TypeError,
    but [_save_to_JSON] has replaced all of them.) *)
Definition json_item (kv : dkey * Z) : res string :=
  match fst kv with
  | DStr s => Ok (quote ++ s ++ quote ++ ": " ++ str_Z (snd kv))
  | DEnum _ => Err TypeErr
  end.
Definition json_dumps (d : dict) : res string :=
  do items <- mapM json_item d; Ok ("{" ++ join ", " items ++ "}").

(** lines 156-162 [_save_to_JSON]: the text written to the file. *)
Definition save_to_JSON (d : dict) : res string :=
  do s <- change_keys_to_strings d; json_dumps s.

(** [json.loads] restricted to objects whose values are integers and whose
    keys contain no escape sequence: any other text is reported as
    [ValueErr] here (the library would raise, or return values of other
    types, which are not modelled; it also rejects leading zeros). *)
Inductive token := TOpen | TClose | TColon | TComma | TStr (s : string) | TInt (z : Z).
Inductive lexstate := LIdle | LStr (acc : list ascii) | LInt (neg : bool) (acc : list ascii).

Definition is_digit_char (c : ascii) : bool :=
  Nat.leb 48 (nat_of_ascii c) && Nat.leb (nat_of_ascii c) 57.
Definition is_ws (c : ascii) : bool :=
  existsb (Nat.eqb (nat_of_ascii c)) [32; 9; 10; 13].

Definition lex_idle (c : ascii) : res (list token * lexstate) :=
  if is_ws c then Ok ([], LIdle)
  else if Ascii.eqb c "{" then Ok ([TOpen], LIdle)
  else if Ascii.eqb c "}" then Ok ([TClose], LIdle)
  else if Ascii.eqb c ":" then Ok ([TColon], LIdle)
  else if Ascii.eqb c "," then Ok ([TComma], LIdle)
  else if Ascii.eqb c (ascii_of_nat 34) then Ok ([], LStr [])
  else if Ascii.eqb c "-" then Ok ([], LInt true [])
  else if is_digit_char c then Ok ([], LInt false [c])
  else Err ValueErr.

(** a number from its digits (the last one first); JSON has no numbers with more than
    one digit that begin with 0 *)
Definition leading_zero (digits : list ascii) : bool :=
  match digits with z :: _ :: _ => Ascii.eqb z "0" | _ => false end.
Definition int_token (neg : bool) (acc : list ascii) : res token :=
  if leading_zero (rev acc) then Err ValueErr
  else
    do n <- py_int (of_chars (rev acc));
    Ok (TInt (if neg then Z.opp (Z.of_nat n) else Z.of_nat n)).

Fixpoint lex (st : lexstate) (s : string) : res (list token) :=
  match s with
  | EmptyString =>
      match st with
      | LIdle => Ok []
      | LStr _ => Err ValueErr
      | LInt neg acc => do t <- int_token neg acc; Ok [t]
      end
  | String c r =>
      match st with
      | LIdle => do ts <- lex_idle c; do rest <- lex (snd ts) r; Ok (fst ts ++ rest)%list
      | LStr acc =>
          if Ascii.eqb c (ascii_of_nat 34) then do rest <- lex LIdle r; Ok (TStr (of_chars (rev acc)) :: rest)
          else if Ascii.eqb c "\" then Err ValueErr
          else lex (LStr (c :: acc)) r
      | LInt neg acc =>
          if is_digit_char c then lex (LInt neg (c :: acc)) r
          else do t <- int_token neg acc;
               do ts <- lex_idle c; do rest <- lex (snd ts) r; Ok (t :: fst ts ++ rest)%list
      end
  end.

Fixpoint parse_members (d : dict) (ts : list token) : res dict :=
  match ts with
  | TStr k :: TColon :: TInt v :: TClose :: rest =>
      match rest with [] => Ok (dict_set d (DStr k) v) | _ => Err ValueErr end
  | TStr k :: TColon :: TInt v :: TComma :: rest => parse_members (dict_set d (DStr k) v) rest
  | _ => Err ValueErr
  end.

Definition json_loads (s : string) : res dict :=
  do ts <- lex LIdle s;
  match ts with
  | [TOpen; TClose] => Ok []
  | TOpen :: r => parse_members [] r
  | _ => Err ValueErr
  end.

(** lines 175-214 [_load_from_JSON] of a file with the given text; the loop
    of lines 196-197 assigns each value to its own key. *)
Definition load_from_JSON (text : string) : res dict :=
  do s <- json_loads text;
  do d <- change_keys_to_enum s;
  do t <- key_list_type (List.length d);
  do ok <- verify_truncations t d;
  Ok d.

(** lines 217-239 [load_trunc_from_JSON]: with a non-empty dictionary nothing
    is loaded and None is returned. *)
Definition load_trunc_from_JSON (text : string) (dictionary : option dict) : res (option dict) :=
  match dictionary with
  | Some (_ :: _) => Ok None
  | _ => do d <- load_from_JSON text; Ok (Some d)
  end.

(** ** Driver (driver.py) *)

(** lines 52-68 [_make_trunc] *)
Definition make_trunc (values : list Z) : res dict :=
  do t <- key_list_type (List.length values);
  Ok (combine (map DEnum (keys_of t)) values).

(** The parsed command line (lines 19-49).  [arg_remove_f] is the text given
    after -rf ([type=bool]: any non-empty text is true). *)
Record arguments := mkArgs {
  arg_t : option (list Z);
  arg_path : option string;
  arg_ansatz : option string;
  arg_excited : bool;
  arg_remove_f : option string;
  arg_code : bool;
  arg_lhs : bool }.

Inductive kind := KLatex | KPython.
Inductive ansatz := FullCC | ZT | ETZT.
Inductive side := LHS | RHS.

(** Which generator the dispatcher calls, with which arguments. *)
Record generator_call := mkCall {
  gc_kind : kind;
  gc_ansatz : ansatz;
  gc_path : string;
  gc_trunc : dict;
  gc_ground : bool;
  gc_remove_f : bool;
  gc_side : side }.

Definition ansatz_of_name (s : string) : res ansatz :=
  if String.eqb s "eT_z_t ansatz" then Ok ETZT
  else if String.eqb s "z_t ansatz" then Ok ZT
  else if String.eqb s "full cc" then Ok FullCC
  else Err AssertionErr.

Definition ansatz_of_type (t : ktype) : ansatz :=
  match t with Fcc => FullCC | Zhz => ZT | ETz => ETZT end.

Definition ktype_eqb (a b : ktype) : bool :=
  match a, b with Zhz, Zhz | Fcc, Fcc | ETz, ETz => true | _, _ => false end.

Definition type_of_ansatz (a : ansatz) : ktype :=
  match a with FullCC => Fcc | ZT => Zhz | ETZT => ETz end.

(** ** Dispatch and default paths (_glue_.py) *)

Definition side_text (rhs lhs : string) (s : side) : string :=
  match s with RHS => rhs | LHS => lhs end.
Definition f_term_string (remove_f : bool) : string := if remove_f then "_no_f_terms" else "".
Definition gs_string (ground : bool) : string := if ground then "ground_state_" else "".

(** lines 61-74, 110-175: the LaTeX wrappers and the full cc python wrapper *)
Definition named_path (rhs name ext : string) (lhs : string) (ground remove_f : bool) (s : side) : string :=
  "./" ++ gs_string ground ++ name ++ side_text rhs lhs s ++ f_term_string remove_f ++ ext.

(** lines 77-100 [_gen_wrapper_eT_zhz_python]; a missing key is a KeyError. *)
Definition dict_value (d : dict) (k : tkey) : res Z :=
  match dict_get d (DEnum k) with Some v => Ok v | None => Err KeyErr end.

Definition eT_python_path (d : dict) (s : side) : res string :=
  do h <- dict_value d KH; do p <- dict_value d KP; do t <- dict_value d KT;
  do e <- dict_value d KeT; do z <- dict_value d KCC;
  Ok ("./eT_zhz_eqs_" ++ side_text "RHS" "LHS" s
      ++ "_H(" ++ str_Z h ++ ")_P(" ++ str_Z p ++ ")_T(" ++ str_Z t
      ++ ")_exp(" ++ str_Z e ++ ")_Z(" ++ str_Z z ++ ").py").

Definition default_path (k : kind) (a : ansatz) (d : dict) (ground remove_f : bool) (s : side) : res string :=
  match k, a with
  | KLatex, FullCC => Ok (named_path "symmetric_equations" "full_cc_" ".tex" "special_LHS_terms" ground remove_f s)
  | KLatex, ZT => Ok (named_path "symmetric_equations" "z_t_" ".tex" "special_LHS_terms" ground remove_f s)
  | KLatex, ETZT => Ok (named_path "symmetric_equations" "eT_z_t_" ".tex" "special_LHS_terms" ground remove_f s)
  | KPython, FullCC => Ok (named_path "equations" "full_cc_" ".py" "special_LHS_equations" ground remove_f s)
  | KPython, ZT => Err NotImplementedErr
  | KPython, ETZT => eT_python_path d s
  end.

(** lines 28-58 [_generate_python] and 103-135 [_generate_latex] *)
Definition dispatch (k : kind) (a : ansatz) (d : dict) (ground remove_f : bool) (s : side) : res generator_call :=
  do t <- key_list_type (List.length d);
  if negb (ktype_eqb t (type_of_ansatz a)) then Err AssertionErr
  else do path <- default_path k a d ground remove_f s;
       Ok (mkCall k a path d ground remove_f s).

(** driver.py 71-155, the main block: the text saved in ../truncs.json (with
    -t) and the generator call.  [file] gives the text of an existing file. *)
Definition driver_main (file : string -> option string) (a : arguments)
  : res (option string * generator_call) :=
  do st <- match arg_t a, arg_path a with
           | Some _, Some _ => Err GenericException
           | Some values, None =>
               do d <- make_trunc values; do text <- save_to_JSON d; Ok (Some text, d)
           | None, Some p =>
               match file p with
               | None => Err AssertionErr
               | Some text => do d <- load_from_JSON text; Ok (None, d)
               end
           | None, None => Err GenericException
           end;
  let ground := negb (arg_excited a) in
  let remove_f := match arg_remove_f a with Some s => negb (String.eqb s "") | None => false end in
  do an <- match arg_ansatz a with
           | Some name =>
               if String.eqb name "" then
                 do t <- key_list_type (List.length (snd st)); Ok (ansatz_of_type t)
               else ansatz_of_name name
           | None => do t <- key_list_type (List.length (snd st)); Ok (ansatz_of_type t)
           end;
  do call <- dispatch (if arg_code a then KPython else KLatex) an (snd st) ground remove_f
               (if arg_lhs a then LHS else RHS);
  Ok (fst st, call).
