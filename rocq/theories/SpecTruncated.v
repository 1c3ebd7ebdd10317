(** Specification vocabulary: which terms of an equation belong to smaller
    truncations, read off the recorded terms (only the records of the model are
    used). *)
From Coq Require Import List Arith Bool.
From Verif Require Import PyBase ModelFullCC ModelZhz ModelEt SpecFullCC.
Import ListNotations.

(** The amplitudes of a term; the factor 1 is none. *)
Definition proper (x : tamp) : bool := Nat.leb 1 (up x + down x).

(** A full coupled cluster term without operator beyond the truncations: the
    rank of h, the number of amplitudes, their ranks, and in the ground state
    equations no amplitude with lower indices. *)
Definition cc_within (H cc S : nat) (ground : bool) (t : term) : bool :=
  let '(_, h, ts) := t in
  Nat.leb (ch_rank h) H && Nat.leb (List.length (filter proper ts)) S &&
  forallb (fun x => Nat.leb (up x + down x) cc && (negb ground || Nat.eqb (down x) 0)) ts.

(** A term of the z t symmetrised equations. *)
Definition z_small (cc : nat) (ground : bool) (z : option zcon) : bool :=
  match z with
  | None => true
  | Some z => Nat.leb (z_rank z) cc && (negb ground || Nat.eqb (z_n z) 0)
  end.
Definition zt_within (H cc : nat) (ground : bool) (t : zterm) : bool :=
  let '(_, h, (l, r)) := t in
  Nat.leb (hz_rank h) H && z_small cc ground l && z_small cc ground r.

(** A term of the e^T equations. *)
Definition et_within (H cc : nat) (t : etterm) : bool :=
  Nat.leb (eh_rank (tt_h t)) H && Nat.leb (ez_rank (tt_z t)) cc.
