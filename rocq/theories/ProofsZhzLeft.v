(** Proofs about the left hand sides for amplitudes of one electronic state. *)
From Coq Require Import Sorted ZArith.
From Verif Require Import PyBase PyBaseFacts PyStr ModelHelper ModelW ModelLatexW ModelTrunc ModelFullCC ModelPrefactor ModelFullCCPy ModelFullCCLatex
  SpecW SpecLatexW SpecTrunc SpecFullCC SpecFullCCPy SpecPrefactor SpecFullCCLatex ProofsHelper ProofsW ProofsStr ProofsLatexW ProofsTrunc ProofsFullCC ProofsFullCCLabels
  ProofsFullCCPy ProofsFullCCBuckets ProofsFullCCFile ProofsFullCCLatexText ProofsFullCCLatex.
From Verif Require Import ProofsFullCCLatexFile ModelZhzLeft SpecZhzLeft.
Open Scope string_scope.

Lemma gamma_text l : add_gamma (string_of_list_ascii l) =
  string_of_list_ascii (l ++ match l with [] => [] | _ => [","%char] end ++ list_ascii_of_string "\gamma")%list.
Proof.
  unfold add_gamma. destruct l as [|c l]; [reflexivity|]. cbn [String.eqb string_of_list_ascii].
  change ((if false then "\gamma" else ",\gamma")) with ",\gamma".
  change (String c (string_of_list_ascii l)) with (string_of_list_ascii (c :: l)). generalize (c :: l). clear. intros l.
  induction l as [|c l IH]; [reflexivity|]. cbn [string_of_list_ascii app append]. now rewrite IH.
Qed.

Lemma gamma_letters g : forall k,
  map render_amp (map (fun a => (fst a, add_gamma (snd a))) (label_group k g)) = map pair_text (map with_state (left_letters k g)).
Proof.
  induction g as [|[a b] g IH]; intros k; [reflexivity|]. cbn [label_group left_letters map fst snd]. rewrite IH. f_equal.
  unfold render_amp, pair_text, with_state. cbn [fst snd]. rewrite !sslice_of_chars. rewrite <- gamma_text. reflexivity.
Qed.

Theorem state_left sop omega : set_order sop -> g_m omega + g_n omega <= 10 ->
  state_lhs_text (g_m omega) (g_n omega) (generate_t_symmetric_left_hand_side sop omega).
Proof.
  intros Hso Hr. unfold state_lhs_text. destruct (g_m omega + g_n omega) as [|r] eqn:E.
  - unfold generate_t_symmetric_left_hand_side, z_left_groups, generate_t_terms_group. cbn [fst snd].
    replace (g_n omega + g_m omega) with 0 by lia. reflexivity.
  - destruct (t_terms_group_exact sop (g_n omega) (g_m omega) Hso) as (gs & Eg & N & I & So).
    { intros X. injection X as X1 X2. lia. }
    unfold generate_t_symmetric_left_hand_side, z_left_groups. rewrite Eg.
    exists gs, (map (left_letters 0) gs). split; [exact N|]. split; [exact I|]. split; [exact So|]. split.
    + assert (T : forall g, In g gs -> pairs_total g <= 10).
      { intros g Hg. apply I in Hg as [Hg _]. apply contributes_total in Hg. lia. }
      clear - T. induction gs as [|g gs IH]; [constructor|]. cbn [map]. constructor; [|apply IH; intros; apply T; now right].
      destruct (left_letters_labelled g 0) as [L1 L2]; [apply T; now left|]. split; [exact L1|]. now exists (pairs_total g).
    + f_equal. f_equal. rewrite join_concat. f_equal. rewrite flat_map_map.
      rewrite !flat_map_concat_map, !map_map. f_equal. apply map_ext. intros g.
      rewrite derivatives_render. apply derivatives_text. apply gamma_letters.
Qed.
