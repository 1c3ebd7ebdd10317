(** C134: lines of a w function with permutations of indices. *)
From Coq Require Import List Arith Lia String Ascii.
From Verif Require Import PyBase ModelPermutations SpecPermutations ProofsPermutations.
Import ListNotations.
Open Scope string_scope.

(** C134: for products of amplitudes with [n] modes in all, each with as many
    amplitudes as there are fixed parts, and groups of [n] characters, neither function
    fails.  There is one line for each group of characters; its calls spread the
    characters over the operands, so that every subscript has one character for each
    mode of its amplitude after the fixed part and no character is lost or used twice. *)
Theorem C134_lines : forall l_t l_fix l_perm n W prefactor,
  l_t <> [] -> (forall g, In g l_t -> product_of_rank l_fix n g) -> (forall cs, In cs l_perm -> List.length cs = n) ->
  exists perms lines,
    permutation_function l_t l_fix l_perm n = Ok perms /\ write_permutations l_t perms W prefactor = Ok (concat_str lines) /\
    Forall2 (fun cs line => exists calls, line = sum_line W prefactor calls /\ calls_of l_t l_fix cs calls) l_perm lines.
Proof. exact permutation_lines. Qed.
Print Assumptions C134_lines.

(** C134: the function fails only on two kinds of input. *)
Theorem C134_errors : forall l_t l_fix l_perm n e, permutation_function l_t l_fix l_perm n = Err e <->
  l_perm <> [] /\ ((e = IndexErr /\ exists g, In g l_t /\ List.length l_fix < List.length g) \/
                   (e = UnboundLocalErr /\ l_t = [] /\ List.length l_fix = n)).
Proof. exact when_it_fails. Qed.
Print Assumptions C134_errors.

(** Without the condition on [n] the claim is false: if [n] is the number of fixed
    parts but not of characters, the one call that is written has the subscripts of
    the last product and the names of the first one. *)
Theorem C134_other_n_refuted : exists l_t l_fix cs n text,
  (forall g, In g l_t -> product_of_rank l_fix (List.length cs) g) /\
  (exists perms, permutation_function l_t l_fix [cs] n = Ok perms /\ write_permutations l_t perms "W" "1" = Ok text) /\
  text = sum_line "W" "1" [einsum_call ["acij"; "cbk"] ["t_i"; "t_ij"]] /\
  forall os, spread l_fix ["t_i"; "t_ij"] cs os -> os <> ["acij"; "cbk"].
Proof.
  exists [["t_i"; "t_ij"]; ["t_ij"; "t_i"]], ["ac"; "cb"], ["i"; "j"; "k"], 2. eexists. split; [|split; [|split]].
  - intros g [<-|[<-|[]]]; (split; [reflexivity|]); [exists [1; 2]|exists [2; 1]]; (split; [repeat constructor|]); (split; [repeat constructor|reflexivity]).
  - eexists. split; vm_compute; reflexivity.
  - vm_compute. reflexivity.
  - intros os D. inversion D as [|f fs t ts piece rest os' R D' E1 E2 Ec Eo]; subst. unfold rank_is in R. cbn in R.
    destruct piece as [|a [|b piece]]; try discriminate R. cbn in Ec. injection Ec as -> _. discriminate.
Qed.
Print Assumptions C134_other_n_refuted.

(** Two amplitudes, three modes, two orders of the characters. *)
Example C134_example :
  let l_t := [["t_i"; "t_ij"]; ["t_ij"; "t_i"]] in
  (forall g, In g l_t -> product_of_rank ["ac"; "cb"] 3 g) /\
  permutation_function l_t ["ac"; "cb"] [["i"; "j"; "k"]; ["k"; "j"; "i"]] 3
    = Ok [[["aci"; "cbjk"]; ["acij"; "cbk"]]; [["ack"; "cbji"]; ["ackj"; "cbi"]]] /\
  write_permutations l_t [[["aci"; "cbjk"]; ["acij"; "cbk"]]; [["ack"; "cbji"]; ["ackj"; "cbi"]]] "W_3[:]" "1/2"
    = Ok (("    W_3[:] += 1/2 * (np.einsum('aci, cbjk', t_i, t_ij) + np.einsum('acij, cbk', t_ij, t_i))" ++ nl) ++
          ("    W_3[:] += 1/2 * (np.einsum('ack, cbji', t_i, t_ij) + np.einsum('ackj, cbi', t_ij, t_i))" ++ nl)) /\
  permutation_function [["t_i"; "t_i"]] ["ac"; "cb"] [["i"; "j"]; ["j"; "i"]] 2 = Ok [[["aci"; "cbj"]]; [["acj"; "cbi"]]] /\
  permutation_function [["t_i"; "t_i"]] ["ab"] [["i"; "j"]] 2 = Err IndexErr /\
  permutation_function [] ["ab"] [["i"]] 1 = Err UnboundLocalErr.
Proof.
  cbv zeta. split; [|repeat split; vm_compute; reflexivity].
  intros g [<-|[<-|[]]]; (split; [reflexivity|]); [exists [1; 2]|exists [2; 1]]; (split; [repeat constructor|]); (split; [repeat constructor|reflexivity]).
Qed.
