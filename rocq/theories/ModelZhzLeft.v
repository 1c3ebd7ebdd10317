(** Model of /repo/termfactory/latex_zhz.py lines 171-271: left hand sides of the
    equations for amplitudes of the electronic state gamma.  (No other code of the
    repository calls this function.) *)
From Verif Require Import PyBase ModelFullCC ModelLatexW ModelFullCCLatex.
Open Scope string_scope.

(** line 244 *)
Definition add_gamma (lower_label : string) : string :=
  lower_label ++ (if String.eqb lower_label "" then "\gamma" else ",\gamma").

Section Left.
  Variable sop : list (list (nat * nat)) -> list (list (nat * nat)).  (* matched_set *)

  (** lines 181-248: lines 181-224 are those of latex_full_cc.py 1399-1442, and lines
      234-242 are those of 1451-1460 *)
  Definition z_left_groups (omega : gop) : option (list (list amp)) :=
    match generate_t_terms_group sop (g_n omega, g_m omega) with
    | inl _ => None
    | inr gs => Some (map (fun g => map (fun a => (fst a, add_gamma (snd a))) (label_group 0 g)) gs)
    end.

  (** lines 171-271 [_generate_t_symmetric_left_hand_side]; lines 250-267 are those of
      latex_full_cc.py 1471-1487 *)
  Definition generate_t_symmetric_left_hand_side (omega : gop) : string :=
    match z_left_groups omega with
    | None => "i\left(\dv{\bs_{0,\gamma}}{\tau}\right)"
    | Some gs => "i\left(" ++ join " + " (map render_lhs_term (flat_map derivatives gs)) ++ "\right)"
    end.
End Left.
