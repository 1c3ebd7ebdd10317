(** The contractions of the z ansatz for lists of operators that may be empty. *)
From Verif Require Import PyBase ModelZhz SpecZhz ProofsZhz.

Lemma fails_exactly_for_empty lhs H k l r :
  let used_list_is_empty := (k <> right_only /\ l = []) \/ (k <> left_only /\ r = []) in
  (used_list_is_empty -> filter_out_valid_z_terms lhs H (sides k l r) = Err IndexErr) /\
  (~ used_list_is_empty -> exists ts, filter_out_valid_z_terms lhs H (sides k l r) = Ok ts).
Proof.
  intros u. split.
  - intros [[Hk ->]|[Hk ->]]; destruct k; try contradiction; try reflexivity. destruct l; reflexivity.
  - intros Hu. destruct k.
    + assert (l <> []) as Hl by (intros ->; apply Hu; left; now split).
      change (sides left_only l r) with (sides left_only l l). eexists. now apply filter_out_ok.
    + assert (r <> []) as Hr by (intros ->; apply Hu; right; now split).
      change (sides right_only l r) with (sides right_only r r). eexists. now apply filter_out_ok.
    + eexists. apply filter_out_ok; intros ->; apply Hu; [left|right]; now split.
Qed.
