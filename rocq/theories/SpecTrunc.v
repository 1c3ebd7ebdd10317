(** Specification vocabulary for truncations and the command line,
    independent of the model's helper functions. *)
From Coq Require Import List ZArith String.
From Verif Require Import PyBase ModelTrunc.
Import ListNotations.

(** The published keys of each ansatz, with their bounds, in the documented
    order of the -t values. *)
Definition documented (t : ktype) : list (tkey * Z) :=
  match t with
  | Zhz => [(KH, 6%Z); (KCC, 6%Z); (KP, 6%Z)]
  | Fcc => [(KH, 6%Z); (KCC, 6%Z); (KS, 6%Z); (KP, 6%Z)]
  | ETz => [(KH, 6%Z); (KCC, 6%Z); (KT, 1%Z); (KeT, 8%Z); (KP, 6%Z)]
  end.

(** Dictionaries: no key twice. *)
Definition is_dict (d : dict) : Prop := NoDup (map fst d).

Definition has_value (d : dict) (k : tkey) (v : Z) : Prop := In (DEnum k, v) d.

(** Every key is a truncation key, and each key of the ansatz has a value in
    its bounds. *)
Definition acceptable (t : ktype) (d : dict) : Prop :=
  (forall k v, In (k, v) d -> exists m, k = DEnum m) /\
  (forall k top, In (k, top) (documented t) -> exists v, has_value d k v /\ (1 <= v <= top)%Z).

(** ... and there is no other key. *)
Definition exactly_valid (t : ktype) (d : dict) : Prop :=
  acceptable t d /\ forall k v, In (k, v) d -> exists m top, k = DEnum m /\ In (m, top) (documented t).

Definition ansatz_type (a : ansatz) : ktype :=
  match a with FullCC => Fcc | ZT => Zhz | ETZT => ETz end.

Definition ansatz_name (a : ansatz) : string :=
  match a with FullCC => "full cc" | ZT => "z_t ansatz" | ETZT => "eT_z_t ansatz" end.

(** The dictionary that the values after -t stand for. *)
Definition dict_of_values (t : ktype) (values : list Z) (d : dict) : Prop :=
  List.length values = List.length (documented t) /\
  d = combine (map (fun kt => DEnum (fst kt)) (documented t)) values.

(** Where the truncations come from: the values after -t (saved as a file), or
    the file after --path, loaded and valid. *)
Definition source_ok (file : string -> option string) (a : arguments) (t : ktype) (saved : option string) (d : dict) : Prop :=
  (exists values text, arg_t a = Some values /\ arg_path a = None /\ dict_of_values t values d /\
     save_to_JSON d = Ok text /\ saved = Some text) \/
  (exists p text, arg_t a = None /\ arg_path a = Some p /\ file p = Some text /\
     load_trunc_from_JSON text None = Ok (Some d) /\ exactly_valid t d /\ saved = None).

(** No ansatz asked for, or this one. *)
Definition ansatz_argument_ok (a : arguments) (an : ansatz) : Prop :=
  match arg_ansatz a with
  | None => True
  | Some s => s = ""%string \/ s = ansatz_name an
  end.

(** The generator call that the arguments ask for.  (Any non-empty text after
    -rf switches the removal on.) *)
Definition call_ok (a : arguments) (t : ktype) (d : dict) (c : generator_call) : Prop :=
  gc_trunc c = d /\ ansatz_type (gc_ansatz c) = t /\
  gc_kind c = (if arg_code a then KPython else KLatex) /\
  gc_side c = (if arg_lhs a then LHS else RHS) /\
  gc_ground c = negb (arg_excited a) /\
  (gc_remove_f c = true <-> exists s, arg_remove_f a = Some s /\ s <> ""%string) /\
  ansatz_argument_ok a (gc_ansatz c) /\
  ~ (gc_ansatz c = ZT /\ gc_kind c = KPython).

(** Same values of the five keys of the exponential ansatz. *)
Definition same_eT_values (d d' : dict) : Prop := forall k, In k [KH; KCC; KT; KeT; KP] -> dict_value d k = dict_value d' k.

(** What the default path of a request depends on. *)
Definition same_target (c c' : generator_call) : Prop :=
  gc_kind c = gc_kind c' /\ gc_ansatz c = gc_ansatz c' /\ gc_side c = gc_side c' /\
  (if match gc_kind c, gc_ansatz c with KPython, ETZT => true | _, _ => false end
   then same_eT_values (gc_trunc c) (gc_trunc c')
   else gc_ground c = gc_ground c' /\ gc_remove_f c = gc_remove_f c').
