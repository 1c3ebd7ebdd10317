(** Property theorems C28 - C33, C46 (full coupled cluster part), C50 - C53:
    the python code generated for the full coupled cluster equations. *)
From Coq Require Import Sorted ZArith.
From Verif Require Import PyBase ModelHelper ModelFullCC ModelPrefactor ModelFullCCPy ModelTrunc
  SpecFullCC SpecPrefactor SpecFullCCPy SpecTrunc ProofsHelper ProofsPrefactor ProofsFullCCPy ProofsFullCCBuckets ProofsFullCCFile.

Definition same {A} (l : list A) : list A := l.
Lemma same_order {A} : set_order (@same A).
Proof. intros l. apply Permutation_refl. Qed.

(** C28: cancelling takes the same factors out of both lists, leaves nothing in
    common and changes nothing when there is nothing in common.  Full coupled
    cluster python code (factorial arguments). *)
Theorem C28_cancelling_python :
  forall so num den, set_order so ->
    let '(n, d) := simplify_prefactor Nat.eqb so num den in
    cancelled num den n d /\ no_common_factor n d /\ (no_common_factor num den -> n = num /\ d = den).
Proof. exact nat_simplify. Qed.
Print Assumptions C28_cancelling_python.

(** The same for factors that are texts (LaTeX, and every python version). *)
Theorem C28_cancelling_texts :
  forall so num den, set_order so ->
    let '(n, d) := simplify_prefactor String.eqb so num den in
    cancelled num den n d /\ no_common_factor n d /\ (no_common_factor num den -> n = num /\ d = den).
Proof. exact string_simplify. Qed.
Print Assumptions C28_cancelling_texts.

(** The same in the python code of the e^T ansatz, which also sorts the lists
    when there was something in common. *)
Theorem C28_cancelling_sorted :
  forall so leb num den, set_order so ->
    (forall a b : string, leb a b = true \/ leb b a = true) ->
    (forall a b c, leb a b = true -> leb b c = true -> leb a c = true) ->
    let '(n, d) := simplify_prefactor_sorted String.eqb so leb num den in
    cancelled num den n d /\ no_common_factor n d /\ (no_common_factor num den -> n = num /\ d = den) /\
    (~ no_common_factor num den ->
     Sorted.StronglySorted (fun a b => leb a b = true) n /\ Sorted.StronglySorted (fun a b => leb a b = true) d).
Proof. exact string_simplify_sorted. Qed.
Print Assumptions C28_cancelling_sorted.

Example C28_sorted_example :
  simplify_prefactor_sorted String.eqb same (fun a b => Nat.leb (String.length a) (String.length b)) ["aaa"; "c"; "bb"; "d"]%string ["c"; "e"]%string
  = (["d"; "bb"; "aaa"], ["e"])%string.
Proof. reflexivity. Qed.

(** Cancelling does not change the value, whatever the factors stand for. *)
Theorem C28_value_unchanged :
  forall (A : Type) (w : A -> nat) num den num' den',
    cancelled num den num' den' -> same_fraction w num den num' den'.
Proof. exact @cancelled_fraction. Qed.
Print Assumptions C28_value_unchanged.

Example C28_example :
  simplify_prefactor Nat.eqb same [2; 3; 2] [3; 2; 4; 3] = ([2], [4; 3]) /\
  cancelled [2; 3; 2] [3; 2; 4; 3] [2] [4; 3] /\
  same_fraction fact [2; 3; 2] [3; 2; 4; 3] [2] [4; 3].
Proof.
  split; [reflexivity|].
  assert (C : cancelled [2; 3; 2] [3; 2; 4; 3] [2] [4; 3]).
  { exists [2; 3]. split; cbn [app]; [reflexivity|]. apply perm_swap. }
  split; [exact C|]. now apply cancelled_fraction.
Qed.

(** C29: the printed prefactor is x! / (h.m! h.n! k!) with x the number of
    different amplitudes paired with the Hamiltonian and k the number of
    amplitudes, with common factorials cancelled. *)
Theorem C29_prefactor :
  forall so om on hm hn us f fbar t, set_order so ->
    describes om on hm hn us f fbar t -> Forall (fun t => 1 <= up t + down t) us -> us <> [] ->
    exists x num den,
      different_connected us x /\
      build_prefactor so (snd (fst t)) (snd t) = (num, den) /\
      fact_product num * (fact hm * fact hn * fact (List.length us)) = fact x * fact_product den /\
      no_common_factor num den.
Proof. exact prefactor_value. Qed.
Print Assumptions C29_prefactor.

(** Its text. *)
Theorem C29_prefactor_text :
  forall p, render_full_prefactor p = prefactor_text (fst p) (snd p).
Proof. exact prefactor_text_eq. Qed.
Print Assumptions C29_prefactor_text.

Theorem C29_bare_hamiltonian :
  forall so om on hm hn f fbar t, describes om on hm hn [] f fbar t ->
    build_prefactor so (snd (fst t)) (snd t) = ([], []).
Proof. exact prefactor_bare. Qed.
Print Assumptions C29_bare_hamiltonian.

(** A term with h^0_3 and the amplitudes t^1 and t^3 *)
Definition term_03 : term :=
  (mkco 1 0 1 0 0 [0; 0] [0; 1], mkch 3 0 3 0 0 [0; 0] [1; 2], [mkt 1 0 0 0; mkt 2 0 1 0]).

Example C29_example :
  describes 0 1 0 3 [mkt 1 0 0 0; mkt 2 0 1 0] 0 0 term_03 /\
  build_prefactor same (snd (fst term_03)) (snd term_03) = ([], [3]) /\
  render_full_prefactor ([], [3]) = "1/(factorial(3)) * "%string /\
  different_connected [mkt 1 0 0 0; mkt 2 0 1 0] 2.
Proof.
  repeat split; auto. exists [mkt 1 0 0 0; mkt 2 0 1 0]. split; [|split; [|reflexivity]].
  - repeat constructor; cbn; intuition discriminate.
  - intros t. split; [|now intros []]. intros H. split; [exact H|].
    destruct H as [<-|[<-|[]]]; intros [E _]; discriminate E.
Qed.

(** C30: every call that is written for a term computes the term's
    contraction: see [realises].  The limits hold for every accepted
    truncation (at most 6 amplitudes, Hamiltonian and projection rank at most
    6). *)
Theorem C30_labels_consistent :
  forall son soc om on hm hn us f fbar t,
    set_order son -> set_order soc ->
    contraction om on hm hn us f fbar -> describes om on hm hn us f fbar t ->
    us <> [] -> List.length us <= 6 -> hm + hn <= 10 -> om + on <= 8 ->
    exists calls, einsum_calls son soc t = Ok calls /\ calls <> [] /\
      Forall (realises om on hm hn f fbar us) calls.
Proof. exact labels_consistent. Qed.
Print Assumptions C30_labels_consistent.

(** Such a call has one letter per axis of its operands, and every letter is
    written exactly twice: on two operands, or on an operand and the result. *)
Theorem C30_letters :
  forall om on hm hn f fbar us c, realises om on hm hn f fbar us c ->
    map String.length (e_inputs c) = (2 + hm + hn) :: map (fun mn => 2 + fst mn + snd mn) (e_ts c) /\
    String.length (e_output c) = 2 + om + on /\
    forall x, (occurrences x (concat_str (e_inputs c) +++ e_output c) = 0 \/
               occurrences x (concat_str (e_inputs c) +++ e_output c) = 2) /\
              occurrences x (e_output c) <= 1.
Proof. exact realises_letters. Qed.
Print Assumptions C30_letters.

Example C30_example :
  contraction 0 1 0 3 [mkt 1 0 0 0; mkt 2 0 1 0] 0 0 /\
  describes 0 1 0 3 [mkt 1 0 0 0; mkt 2 0 1 0] 0 0 term_03 /\
  match einsum_calls same same term_03 with
  | Ok calls => map render_einsum calls =
      ["np.einsum('acijk, cdi, dbjkz -> abz', h_args[(0, 3)], t_args[(1, 0)], t_args[(3, 0)])";
       "np.einsum('acijk, cdjkz, dbi -> abz', h_args[(0, 3)], t_args[(3, 0)], t_args[(1, 0)])"]%string
  | Err _ => False
  end.
Proof. repeat split. Qed.

(** C31: the body written for a list of terms contains all bare Hamiltonian
    terms, and of the other terms exactly the last one of every slot (flags and
    printed prefactor).  Holds for the three groups of every projection
    operator of an accepted truncation with Hamiltonian rank at most 5. *)
Theorem C31_code_keeps_last_of_slot :
  forall sot so son soc, set_order sot -> set_order son -> set_order soc ->
  forall H cc S, (1 <= cc <= 6 /\ S <= 6 /\ H <= 6) -> forall omega, g_m omega + g_n omega <= 8 ->
  forall ground, H <= 5 ->
    exists fully linked unlinked bodies,
      python_groups sot H cc S omega ground = Ok (fully, linked, unlinked) /\
      generate_full_cc_einsums sot so son soc H cc S omega ground = Ok bodies /\
      Forall2 (keeps_last so (einsum_calls son soc)) [fully; linked; unlinked] bodies.
Proof. exact group_bodies. Qed.
Print Assumptions C31_code_keeps_last_of_slot.

(** So a requested contraction can be missing from the code: at ranks 3, 2, 2
    no call of h^1_2 with t^2 is written for the projection operator b. *)
Theorem C31_every_term_written_refuted :
  exists H cc S omega bodies hm hn us f fbar,
    requested (g_m omega) (g_n omega) H cc S true true hm hn us f fbar /\
    generate_full_cc_einsums same same same same H cc S omega true = Ok bodies /\
    forall body, In body bodies -> forall p c,
      In (p, c) (run (fun _ => true) (fun _ => true) body) ->
      (e_h c, e_ts c) <> ((hm, hn), map (fun t => (up t, down t)) us).
Proof.
  exists 3, 2, 2, (mkgop "b" 1 0 1).
  destruct (generate_full_cc_einsums same same same same 3 2 2 (mkgop "b" 1 0 1) true) as [bodies|] eqn:E; [|discriminate E].
  exists bodies, 1, 2, [mkt 2 0 0 0], 0, 1.
  split; [repeat split; cbn; auto; repeat constructor; cbn; auto|]. split; [reflexivity|].
  intros body Hb p c Hc.
  assert (F : forallb (fun body => forallb (fun pc =>
      negb (match e_h (snd pc), e_ts (snd pc) with (1, 2), [(2, 0)] => true | _, _ => false end))
      (run (fun _ => true) (fun _ => true) body))
      match generate_full_cc_einsums same same same same 3 2 2 (mkgop "b" 1 0 1) true with Ok b => b | Err _ => [] end = true)
    by (vm_compute; reflexivity).
  rewrite E in F. rewrite forallb_forall in F. specialize (F body Hb). rewrite forallb_forall in F.
  specialize (F (p, c) Hc). cbn [snd] in F. intros [= E1 E2]. rewrite E1, E2 in F. discriminate F.
Qed.
Print Assumptions C31_every_term_written_refuted.

(** C32: the calls of a term with two or more amplitudes are pairwise different
    (one for each order of the amplitudes); for a single amplitude the same
    call is repeated (om + on)! times. *)
Theorem C32_calls_of_a_term :
  forall son soc om on hm hn us f fbar t,
    set_order son -> set_order soc ->
    contraction om on hm hn us f fbar -> describes om on hm hn us f fbar t ->
    Forall (fun t => 1 <= up t + down t) us ->
    us <> [] -> List.length us <= 6 -> hm + hn <= 10 -> om + on <= 8 ->
    exists calls, einsum_calls son soc t = Ok calls /\
      (List.length us = 1 -> exists c, calls = repeat c (fact (om + on))) /\
      (2 <= List.length us -> NoDup calls /\ List.length calls = fact (List.length us)).
Proof. exact calls_of_term. Qed.
Print Assumptions C32_calls_of_a_term.

Theorem C32_calls_different_refuted :
  exists om on hm hn us f fbar t calls,
    contraction om on hm hn us f fbar /\ describes om on hm hn us f fbar t /\
    einsum_calls same same t = Ok calls /\ ~ NoDup calls.
Proof.
  exists 0, 2, 0, 0, [mkt 0 0 2 0], 0, 0,
    (mkco 2 0 2 0 0 [0] [2], mkch 0 0 0 0 0 [0] [0], [mkt 0 0 2 0]).
  eexists. repeat split. intros N. inversion N as [|? ? H _]. apply H. now left.
Qed.
Print Assumptions C32_calls_different_refuted.

(** C33: for every projection operator and under all flags the list built by
    the path function has one entry for each next() of the optimised function,
    in the same order, with the shapes of the operands. *)
Theorem C33_paths_consumed_in_order :
  forall sot so son soc, set_order sot -> set_order son -> set_order soc ->
  forall H cc S, (1 <= cc <= 6 /\ S <= 6 /\ H <= 6) -> forall omega, g_m omega + g_n omega <= 8 ->
  forall ground, H <= 5 ->
    exists nexts paths,
      generate_full_cc_nexts sot so son soc H cc S omega ground = Ok nexts /\
      generate_full_cc_optimized_paths sot so son soc H cc S omega ground = Ok paths /\
      Forall2 (fun next path => forall fh ft,
        map snd (run fh ft path) = map (fun pc => shapes (snd pc)) (run fh ft next)) nexts paths.
Proof. exact paths_part. Qed.
Print Assumptions C33_paths_consumed_in_order.

(** C52: under all flags the optimised function adds the bare terms of the
    default function and makes its calls in the same order with the same
    prefactors and operands. *)
Theorem C52_optimised_equals_default :
  forall sot so son soc, set_order sot -> set_order son -> set_order soc ->
  forall H cc S, (1 <= cc <= 6 /\ S <= 6 /\ H <= 6) -> forall omega, g_m omega + g_n omega <= 8 ->
  forall ground, H <= 5 ->
    exists bodies nexts,
      generate_full_cc_einsums sot so son soc H cc S omega ground = Ok bodies /\
      generate_full_cc_nexts sot so son soc H cc S omega ground = Ok nexts /\
      Forall2 (fun body next => run_bare next = run_bare body /\
        forall fh ft, run fh ft next =
          map (fun pc => (fst pc, mknext (e_h (snd pc)) (e_ts (snd pc)))) (run fh ft body)) bodies nexts.
Proof. exact default_part. Qed.
Print Assumptions C52_optimised_equals_default.

(** Non-trivial bodies: number of calls and of bare terms. *)
Example C33_example :
  match generate_full_cc_nexts same same same same 3 2 2 (mkgop "b" 1 0 1) true,
        generate_full_cc_optimized_paths same same same same 3 2 2 (mkgop "b" 1 0 1) true with
  | Ok nexts, Ok paths =>
      map (fun b => List.length (run (fun _ => true) (fun _ => true) b)) nexts = [8; 0; 5] /\
      map (fun b => List.length (run (fun i => Nat.leb i 1) (fun j => Nat.leb j 1) b)) paths = [1; 0; 3] /\
      map (fun b => run_bare b) nexts = [[(1, 0)]; []; []]
  | _, _ => False
  end.
Proof. vm_compute. auto. Qed.

(** C46, full coupled cluster: an accepted truncation is generated exactly when
    its Hamiltonian rank is at most 5; rank 6 ends in an IndexError. *)
Theorem C46_full_cc_python :
  forall sot so son soc d H cc S P,
    set_order sot -> set_order son -> set_order soc ->
    is_dict d -> acceptable Fcc d ->
    has_value d KH (Z.of_nat H) -> has_value d KCC (Z.of_nat cc) ->
    has_value d KS (Z.of_nat S) -> has_value d KP (Z.of_nat P) ->
    (H <= 5 -> exists text, generate_full_cc_python_file_contents sot so son soc H cc S P = Ok text) /\
    (5 < H -> generate_full_cc_python_file_contents sot so son soc H cc S P = Err IndexErr).
Proof. exact file_iff. Qed.
Print Assumptions C46_full_cc_python.

Theorem C46_full_cc_python_refuted :
  exists d, is_dict d /\ acceptable Fcc d /\
    has_value d KH (Z.of_nat 6) /\ has_value d KCC (Z.of_nat 1) /\ has_value d KS (Z.of_nat 1) /\ has_value d KP (Z.of_nat 1) /\
    generate_full_cc_python_file_contents same same same same 6 1 1 1 = Err IndexErr.
Proof.
  set (d := [(DEnum KH, 6%Z); (DEnum KCC, 1%Z); (DEnum KS, 1%Z); (DEnum KP, 1%Z)]).
  assert (A : is_dict d) by (repeat constructor; cbn; intuition discriminate).
  assert (B : acceptable Fcc d).
  { split.
    - intros k v [[= <- _]|[[= <- _]|[[= <- _]|[[= <- _]|[]]]]]; eexists; reflexivity.
    - intros k top [[= <- <-]|[[= <- <-]|[[= <- <-]|[[= <- <-]|[]]]]]; eexists; (split; [unfold has_value; cbn; auto|]); lia. }
  exists d. split; [exact A|]. split; [exact B|].
  assert (V : has_value d KH (Z.of_nat 6) /\ has_value d KCC (Z.of_nat 1) /\ has_value d KS (Z.of_nat 1) /\ has_value d KP (Z.of_nat 1))
    by (unfold has_value; cbn; auto 10).
  destruct V as (V1 & V2 & V3 & V4). repeat (split; [assumption|]).
  apply (file_iff same same same same d 6 1 1 1); auto using same_order.
Qed.
Print Assumptions C46_full_cc_python_refuted.

(** C50: a call is made exactly when the flag of max(h.m, h.n) is set (or that
    number is 0) and the flag of the largest amplitude rank is set. *)
Theorem C50_flags :
  forall sot so son soc, set_order sot -> set_order son -> set_order soc ->
  forall H cc S, (1 <= cc <= 6 /\ S <= 6 /\ H <= 6) -> H <= 5 ->
  forall omega, g_m omega + g_n omega <= 8 ->
  forall ground bodies, generate_full_cc_einsums sot so son soc H cc S omega ground = Ok bodies ->
  forall body, In body bodies -> forall fh ft p c,
    In (p, c) (run fh ft body) <->
    In (p, c) (run (fun _ => true) (fun _ => true) body) /\
    (fst (flags_of c) = 0 \/ fh (fst (flags_of c)) = true) /\ ft (snd (flags_of c)) = true.
Proof. exact code_flags. Qed.
Print Assumptions C50_flags.

(** Not the flag of the Hamiltonian rank h.m + h.n: with only the linear flag
    set, h^1_1 is still used. *)
Theorem C50_rank_flag_refuted :
  exists H cc S omega bodies body p c,
    generate_full_cc_einsums same same same same H cc S omega true = Ok bodies /\ In body bodies /\
    In (p, c) (run (fun i => Nat.leb i 1) (fun _ => true) body) /\ fst (e_h c) + snd (e_h c) = 2.
Proof.
  exists 2, 2, 1, (mkgop "b" 1 0 1). do 4 eexists. split; [vm_compute; reflexivity|].
  split; [left; reflexivity|]. split; [vm_compute; left; reflexivity|]. reflexivity.
Qed.
Print Assumptions C50_rank_flag_refuted.

(** C51: in the ground state code the axes have a uniform order.  h_args[(m, n)]
    has its n summed axes first and then the m axes of the result; every
    amplitude has its summed axes before those of the result. *)
Theorem C51_axis_order :
  forall sot so son soc, set_order sot -> set_order so -> set_order son -> set_order soc ->
  forall H cc S, (1 <= cc <= 6 /\ S <= 6 /\ H <= 6) -> H <= 5 ->
  forall omega, g_m omega + g_n omega <= 8 ->
  forall ground bodies, ground = true ->
  generate_full_cc_einsums sot so son soc H cc S omega ground = Ok bodies ->
  forall body, In body bodies -> forall fh ft p c, In (p, c) (run fh ft body) ->
    exists hs rest, e_inputs c = hs :: rest /\ axes (e_output c) (snd (e_h c)) (fst (e_h c)) hs /\
      Forall2 (fun s mn => exists k, k <= fst mn /\ axes (e_output c) k (fst mn - k) s) rest (e_ts c).
Proof. exact code_axes. Qed.
Print Assumptions C51_axis_order.

(** C53: whatever the flags, every call made by a generated function computes a
    contraction that was asked for, and its printed prefactor has the value
    x! / (h.m! h.n! k!). *)
Theorem C53_code_sound :
  forall sot so son soc, set_order sot -> set_order so -> set_order son -> set_order soc ->
  forall H cc S, (1 <= cc <= 6 /\ S <= 6 /\ H <= 6) -> H <= 5 ->
  forall omega, g_m omega + g_n omega <= 8 ->
  forall ground bodies, generate_full_cc_einsums sot so son soc H cc S omega ground = Ok bodies ->
  forall body, In body bodies -> forall fh ft p c, In (p, c) (run fh ft body) ->
    exists hm hn (us : list tamp) f fbar x num den, us <> [] /\
      requested (g_m omega) (g_n omega) H cc S ground true hm hn us f fbar /\
      realises (g_m omega) (g_n omega) hm hn f fbar us c /\
      p = prefactor_text num den /\
      different_connected us x /\
      fact_product num * (fact hm * fact hn * fact (List.length us)) = fact x * fact_product den.
Proof. exact code_sound. Qed.
Print Assumptions C53_code_sound.

Example C50_C51_C53_example :
  match generate_full_cc_einsums same same same same 3 2 2 (mkgop "b" 1 0 1) true with
  | Ok bodies => match bodies with
      | body :: _ => match nth_error (run (fun _ => true) (fun _ => true) body) 2 with
          | Some (p, c) => (p ++ render_einsum c)%string =
              "1/(factorial(2) * factorial(2)) * np.einsum('acijz, cdi, dbj -> abz', h_args[(1, 2)], t_args[(1, 0)], t_args[(1, 0)])"%string
              /\ flags_of c = (2, 1)
          | None => False
          end
      | [] => False
      end
  | Err _ => False
  end.
Proof. vm_compute. auto. Qed.
