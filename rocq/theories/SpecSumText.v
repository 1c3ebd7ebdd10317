(** Specification vocabulary for the text of the generated modules that add up
    products of amplitudes: what a call computes, which products statements add
    to an array, and which lists of contraction expressions statements build. *)
From Coq Require Import List Arith Ascii String.
From Verif Require Import PyBase SpecPartitions SpecW SpecDt SpecPython.
Import ListNotations.
Local Open Scope string_scope.

Definition commas (l : list string) : string := String.concat ", " l.

(** ** Products *)

(** A contraction: the names of its operands, their subscripts and those of
    the result. *)
Record product := mkproduct { p_ops : list string; p_ins : list string; p_out : string }.

Definition subscripts (ins : list string) (out : string) : string := "'" ++ commas ins ++ "->" ++ out ++ "'".
Definition einsum_text (p : product) : string :=
  "np.einsum(" ++ subscripts (p_ins p) (p_out p) ++ ", " ++ commas (p_ops p) ++ ")".
(** The next expression of a list of expressions, applied to the operands. *)
Definition next_text (p : product) : string := "next(optimized_einsum)(" ++ commas (p_ops p) ++ ")".
Definition contract_text (ins : list string) (out : string) (shapes : list string) : string :=
  "oe.contract_expression(" ++ subscripts ins out ++ ", " ++ commas shapes ++ ")".

(** The shape of a tensor, by its name. *)
Definition has_shape (name shape : string) : Prop :=
  exists n, (name = amp_name n \/ name = dt_amp_name n \/ name = w_name n) /\ shape = amp_shape n.

(** [computes q t p q']: the expression [t] computes the product [p]; the list
    of expressions is [q] before and [q'] after. *)
Inductive computes : list string -> string -> product -> list string -> Prop :=
| computes_einsum q p : computes q (einsum_text p) p q
| computes_next p shapes q : Forall2 has_shape (p_ops p) shapes ->
    computes (contract_text (p_ins p) (p_out p) shapes :: q) (next_text p) p q.

Inductive compute : list string -> list string -> list product -> list string -> Prop :=
| compute_nil q : compute q [] [] q
| compute_cons q t p q' ts ps q'' : computes q t p q' -> compute q' ts ps q'' -> compute q (t :: ts) (p :: ps) q''.

(** ** Weighted sums *)

Definition factorial_text (n : nat) : string := "factorial(" ++ str_nat n ++ ")".
(** The text [t] is the number 1/d. *)
Definition weight_text (d : nat) (t : string) : Prop :=
  exists ns, d = fold_right (fun n acc => fact_spec n * acc) 1 ns /\
    ((exists n, ns = [n] /\ t = "1/" ++ factorial_text n) \/
     ns <> [] /\ t = "1/(" ++ String.concat " * " (map factorial_text ns) ++ ")").

(** [adds W q ts l q']: the statements [ts] add to the array [W] the products
    of [l], each multiplied by one over the number beside it, in this order.
    (A sum over several lines is read with blanks inside the brackets.) *)
Inductive adds (W : string) : list string -> list string -> list (nat * product) -> list string -> Prop :=
| adds_nil q : adds W q [] [] q
| adds_sum q w d calls ps q' t ts l q'' :
    weight_text d w -> calls <> [] -> compute q calls ps q' ->
    (t = W ++ " += " ++ w ++ " * (" ++ String.concat " + " calls ++ ")" \/
     t = W ++ " += " ++ w ++ " * ( " ++ String.concat " + " calls ++ " )") ->
    adds W q' ts l q'' ->
    adds W q (t :: ts) (map (pair d) ps ++ l)%list q''.

(** Names for the first entries of a sequence. *)
Definition unpack_text (names : list string) (from : string) : string :=
  commas (names ++ ["*unusedargs"])%list ++ " = " ++ from.

(** ** Lists of expressions *)

Inductive list_stmt :=
| Start (names : list string)                    (* a, b = [], [] *)
| Extend (name : string) (entries : list string) (* a.extend([x, y,]) *)
| Append (name : string) (entry : string)        (* a.append(x) *)
| Warn (text : string).                          (* log.warning('..') *)

Definition list_text (s : list_stmt) : string :=
  match s with
  | Start names => commas names ++ " = " ++ commas (map (fun _ => "[]") names)
  | Extend name es => name ++ ".extend([ " ++ String.concat " " (map (fun e => e ++ ",") es) ++ " ])"
  | Append name e => name ++ ".append(" ++ e ++ ")"
  | Warn t => "log.warning('" ++ t ++ "')"
  end.

(** The values of the list variables: [None] when a name has no value. *)
Definition lists := string -> option (list string).
Definition set_list (env : lists) (x : string) (l : list string) : lists :=
  fun y => if String.eqb y x then Some l else env y.
Definition run_list_stmt (env : lists) (s : list_stmt) : option lists :=
  match s with
  | Start names => Some (fold_left (fun e x => set_list e x []) names env)
  | Extend x es => match env x with Some l => Some (set_list env x (l ++ es)%list) | None => None end
  | Append x e => match env x with Some l => Some (set_list env x (l ++ [e])%list) | None => None end
  | Warn _ => Some env
  end.
Fixpoint run_list_stmts (env : lists) (l : list list_stmt) : option lists :=
  match l with
  | [] => Some env
  | s :: r => match run_list_stmt env s with Some env' => run_list_stmts env' r | None => None end
  end.
Definition no_lists : lists := fun _ => None.

(** The statements [ts] of a function (a documentation string, then statements
    about lists) return the list [result] of lists: each is an empty list or
    the value of a variable.  Nothing is executed after the return. *)
Definition item_is (env : lists) (item : string) (l : list string) : Prop :=
  (item = "[]" /\ l = []) \/ env item = Some l.
Definition returns_lists (ts : list string) (result : list (list string)) : Prop :=
  exists doc stmts items after env,
    ts = (doc :: map list_text stmts ++ ("return [" ++ commas items ++ "]")%string :: after)%list /\
    String.prefix triple doc = true /\
    run_list_stmts no_lists stmts = Some env /\ Forall2 (item_is env) items result.
(** They return the value of one variable. *)
Definition returns_list (ts : list string) (result : list string) : Prop :=
  exists doc stmts name after env,
    ts = (doc :: map list_text stmts ++ ("return " ++ name)%string :: after)%list /\
    String.prefix triple doc = true /\
    run_list_stmts no_lists stmts = Some env /\ env name = Some result.
