(** Specification vocabulary for truncation files written by hand: which texts are
    layouts of a JSON object of numbers.  Independent of the model's lexer. *)
From Coq Require Import List ZArith String Ascii.
From Verif Require Import PyBase ModelTrunc.
Import ListNotations.

(** The four characters that may stand between tokens (JSON, RFC 8259 section 2). *)
Definition blank_char (c : ascii) : Prop :=
  c = ascii_of_nat 32 \/ c = ascii_of_nat 9 \/ c = ascii_of_nat 10 \/ c = ascii_of_nat 13.

Definition blank (s : string) : Prop := Forall blank_char (list_ascii_of_string s).

(** The names of the keys as the README and truncation_keys.py 6-24 publish them. *)
Definition published (k : tkey) : string :=
  match k with
  | KH => "maximum_hamiltonian_rank"
  | KCC => "maximum_coupled_cluster_rank"
  | KS => "s_taylor_max_order"
  | KP => "omega_max_order"
  | KT => "maximum_T_rank"
  | KeT => "eT_taylor_max_order"
  end.

Definition double_quote : string := String (ascii_of_nat 34) EmptyString.

(** One member, with blanks wherever JSON lets them stand. *)
Definition member_layout (kv : tkey * Z) (s : string) : Prop :=
  exists b1 b2 b3 b4, blank b1 /\ blank b2 /\ blank b3 /\ blank b4 /\
    s = (b1 ++ double_quote ++ published (fst kv) ++ double_quote ++ b2 ++ ":" ++ b3 ++ str_Z (snd kv) ++ b4)%string.

(** Members separated by commas, none after the last one. *)
Inductive members_layout : list (tkey * Z) -> string -> Prop :=
| layout_one kv s : member_layout kv s -> members_layout [kv] s
| layout_more kv s l r : member_layout kv s -> members_layout l r -> members_layout (kv :: l) (s ++ "," ++ r)%string.

Definition object_layout (l : list (tkey * Z)) (s : string) : Prop :=
  exists b1 m b2, blank b1 /\ blank b2 /\ members_layout l m /\ s = (b1 ++ "{" ++ m ++ "}" ++ b2)%string.

(** The dictionary of a list of items, in the order of the file. *)
Definition dictionary_of (l : list (tkey * Z)) : dict := map (fun kv => (DEnum (fst kv), snd kv)) l.

(** The value of a name that may stand there more than once: the last one. *)
Definition last_value (l : list (tkey * Z)) (k : tkey) (v : Z) : Prop :=
  exists before after, l = (before ++ (k, v) :: after)%list /\ ~ In k (map fst after).
