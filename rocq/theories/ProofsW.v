(** Proofs about the W generator. *)
From Verif Require Import PyBase PyBaseFacts ModelHelper SpecPartitions ProofsHelper SpecW ModelW.
From Coq Require Import Sorted.

(** ** mapM *)
Lemma mapM_ok {A B} (f : A -> res B) (g : A -> B) l :
  (forall x, In x l -> f x = Ok (g x)) -> mapM f l = Ok (map g l).
Proof.
  induction l as [|x xs IH]; intros H; cbn; [reflexivity|].
  rewrite (H x) by now left. cbn. rewrite IH by (intros; apply H; now right). reflexivity.
Qed.

Lemma mapM_ext {A B} (f g : A -> res B) l :
  (forall x, In x l -> f x = g x) -> mapM f l = mapM g l.
Proof.
  induction l as [|x xs IH]; intros H; cbn; [reflexivity|].
  rewrite (H x) by now left. rewrite IH by (intros; apply H; now right). reflexivity.
Qed.

Lemma of_chars_string_of l : of_chars l = string_of l.
Proof. induction l; cbn; congruence. Qed.

(** ** tables *)
Lemma t_term_string_ok n : 1 <= n <= 8 -> t_term_string n = Ok (amp_name n).
Proof.
  intros H. do 9 (destruct n as [|n]; [solve [lia|reflexivity]|]). lia.
Qed.

Lemma tag_ok r : 1 <= r <= 6 -> py_nth taylor_series_order_tag r = Ok (rank_name r).
Proof. intros H. do 7 (destruct r as [|r]; [solve [lia|reflexivity]|]). lia. Qed.

Lemma factorial_spec n : factorial n = fact_spec n.
Proof. induction n; cbn; congruence. Qed.

Lemma shape_ok n : t_term_shape_string n = amp_shape n.
Proof.
  unfold t_term_shape_string, amp_shape.
  enough (H : forall n, (join ", " ("A"%string :: repeat "N"%string n) ++ ")")%string = ("A" ++ ns_text n)%string).
  { cbn [app join]. specialize (H n).
    change (join ", " ("A"%string :: "A"%string :: repeat "N"%string n))
      with ("A" ++ ", " ++ join ", " ("A"%string :: repeat "N"%string n))%string.
    cbn [append]. f_equal. f_equal. f_equal. f_equal. exact H. }
  assert (J : forall m, (join ", " (repeat "N"%string (S m)) ++ ")")%string = ("N" ++ ns_text m)%string).
  { induction m as [|m IHm]; [reflexivity|].
    change (join ", " (repeat "N"%string (S (S m))))
      with ("N" ++ ", " ++ join ", " (repeat "N"%string (S m)))%string.
    cbn [append]. f_equal. cbn [ns_text append]. f_equal. f_equal. exact IHm. }
  intros [|m]; [reflexivity|].
  change (join ", " ("A"%string :: repeat "N"%string (S m)))
    with ("A" ++ ", " ++ join ", " (repeat "N"%string (S m)))%string.
  cbn [append]. f_equal. cbn [ns_text append]. f_equal. f_equal. apply J.
Qed.

Lemma string_of_inj l l' : string_of l = string_of l' -> l = l'.
Proof.
  revert l'; induction l as [|a l IH]; intros [|b l']; cbn; try discriminate; [reflexivity|].
  intros E. inversion E as [[E1 E2]]. f_equal. auto.
Qed.

Lemma amp_name_inj n m : 1 <= n <= 8 -> 1 <= m <= 8 -> amp_name n = amp_name m -> n = m.
Proof.
  intros Hn Hm E. unfold amp_name in E. inversion E as [E1].
  apply string_of_inj in E1. apply (f_equal (@List.length ascii)) in E1.
  rewrite !firstn_length in E1. cbn in E1. lia.
Qed.

Lemma map_amp_inj c c' :
  Forall (fun n => 1 <= n <= 8) c -> Forall (fun n => 1 <= n <= 8) c' ->
  map amp_name c = map amp_name c' -> c = c'.
Proof.
  revert c'; induction c as [|n c IH]; intros [|m c'] H H'; cbn [map]; try discriminate; [reflexivity|].
  intros E. pose proof (f_equal (hd EmptyString) E) as E1. pose proof (f_equal (@tl _) E) as E2.
  cbn [hd tl] in E1, E2. inversion H; inversion H'; subst. f_equal; [|apply IH; auto].
  apply amp_name_inj; auto.
Qed.

(** ** prefactors *)
Lemma prefactor_ok c :
  c <> [] -> c <> [1] -> Forall (fun n => 1 <= n) c ->
  prefactor_denominator (generate_w_operator_prefactor c) = Some (exp_denominator c).
Proof.
  intros Hne Hn1 Hpos. unfold generate_w_operator_prefactor, exp_denominator.
  assert (Hmax : 1 <= list_max c).
  { destruct c as [|x xs]; [congruence|]. inversion Hpos; subst.
    pose proof (in_le_list_max x (x :: xs) (or_introl eq_refl)). lia. }
  destruct (Nat.eqb_spec (list_max c) 1) as [Em|Em]; cbn [andb].
  - assert (Hall : c = repeat 1 (List.length c)).
    { assert (Forall (fun x => x <= 1) c) as F by (apply list_max_le; lia).
      clear -F Hpos. induction c as [|x xs IH]; [reflexivity|].
      inversion F; inversion Hpos; subst. cbn. f_equal; [lia|auto]. }
    destruct (Nat.eqb_spec (List.length c) 1) as [El|El].
    + rewrite El in Hall. cbn in Hall. congruence.
    + cbn [prefactor_denominator]. rewrite factorial_spec. f_equal.
      assert (E1 : fold_right (fun n acc => fact_spec n * acc) 1 c = 1)
        by (rewrite Hall; generalize (List.length c); clear; intros k; induction k as [|k IHk]; cbn; lia).
      rewrite E1. lia.
  - destruct (Nat.eqb_spec (List.length c) 1) as [El|El].
    + destruct c as [|x [|y ys]]; cbn in El; try lia.
      cbn. rewrite Nat.max_0_r, factorial_spec. f_equal. lia.
    + cbn [prefactor_denominator map fold_right]. rewrite factorial_spec. f_equal. f_equal.
      clear. induction c as [|x xs IH]; [reflexivity|]. cbn [filter fold_right].
      destruct (Nat.eqb_spec x 1) as [->|Hx]; cbn [negb map fold_right].
      * rewrite IH. cbn. lia.
      * rewrite IH, factorial_spec. reflexivity.
Qed.

Lemma exp_denominator_perm c c' : Permutation c c' -> exp_denominator c = exp_denominator c'.
Proof.
  intros P. unfold exp_denominator. f_equal; [f_equal; now apply Permutation_length|].
  induction P; cbn; lia.
Qed.

(** ** einsum text *)
Fixpoint groups_of (letters : list ascii) (comb : list nat) : list (list ascii) :=
  match comb with
  | [] => []
  | n :: ns => firstn n letters :: groups_of (skipn n letters) ns
  end.

Lemma pop_groups_ok letters comb :
  list_sum comb <= List.length letters ->
  pop_groups letters comb = Ok (map string_of (groups_of letters comb)).
Proof.
  revert letters; induction comb as [|n ns IH]; intros letters H; [reflexivity|].
  unfold list_sum in *. cbn [fold_right] in H. cbn [pop_groups groups_of map].
  destruct (Nat.ltb_spec (List.length letters) n); [lia|].
  rewrite IH by (rewrite skipn_length; lia). cbn [bind]. now rewrite of_chars_string_of.
Qed.

Lemma groups_of_lengths letters comb :
  list_sum comb <= List.length letters ->
  map (@List.length ascii) (groups_of letters comb) = comb.
Proof.
  revert letters; induction comb as [|n ns IH]; intros letters H; [reflexivity|].
  unfold list_sum in *. cbn [fold_right] in H. cbn [groups_of map]. f_equal; [rewrite firstn_length; lia|].
  apply IH. rewrite skipn_length. lia.
Qed.

Lemma groups_of_concat letters comb :
  list_sum comb = List.length letters -> List.concat (groups_of letters comb) = letters.
Proof.
  revert letters; induction comb as [|n ns IH]; intros letters H; cbn [groups_of List.concat].
  - destruct letters; [reflexivity|cbn in H; discriminate].
  - unfold list_sum in *. cbn [fold_right] in H. rewrite IH by (rewrite skipn_length; lia).
    apply firstn_skipn.
Qed.

Lemma groups_of_length letters comb : List.length (groups_of letters comb) = List.length comb.
Proof. revert letters; induction comb; intros; cbn; auto. Qed.

(** The inner state letters used for a product of [k] factors. *)
Definition inner_states (k : nat) : list ascii := firstn (k - 1) ["c"; "d"; "e"; "f"; "g"; "h"; "i"]%char.

Definition pair_strings (states : list ascii) : list string :=
  (fix go l := match l with
               | s :: ((s' :: _) as r) => string_of [s; s'] :: go r
               | _ => []
               end) states.

Lemma surface_ok p :
  1 <= List.length p <= 6 ->
  generate_surface_index p = Ok (pair_strings ("a" :: inner_states (List.length p) ++ ["b"])%char).
Proof.
  intros H. unfold generate_surface_index.
  destruct (List.length p) as [|k]; [lia|]. clear p.
  do 6 (destruct k as [|k]; [reflexivity|]). lia.
Qed.

Lemma string_of_app l l' : (string_of l ++ string_of l')%string = string_of (l ++ l').
Proof. induction l; cbn; congruence. Qed.

Lemma chain_subscripts_ok states groups :
  List.length states = S (List.length groups) ->
  exists ins, chain_subscripts states groups = Some ins /\
              zip_append (pair_strings states) (map string_of groups) = Ok ins.
Proof.
  revert states; induction groups as [|g gs IH]; intros states H.
  - destruct states as [|s [|s' r]]; cbn in H; try lia. exists []. auto.
  - destruct states as [|s [|s' r]]; cbn in H; try lia.
    destruct (IH (s' :: r)) as [ins [H1 H2]]; [cbn; lia|].
    change (chain_subscripts (s :: s' :: r) (g :: gs))
      with (match chain_subscripts (s' :: r) gs with
            | Some l => Some (string_of (s :: s' :: g) :: l) | None => None end).
    rewrite H1. eexists. split; [reflexivity|].
    change (pair_strings (s :: s' :: r)) with (string_of [s; s'] :: pair_strings (s' :: r)).
    cbn [zip_append map]. rewrite H2. cbn [bind]. f_equal.
Qed.

(** The subscripts the generator writes for one composition. *)
Definition ins_of (order : nat) (c : list nat) : list string :=
  match chain_subscripts ("a" :: inner_states (List.length c) ++ ["b"])%char
                         (groups_of (firstn order mode_letters) c) with
  | Some l => l | None => [] end.
Definition out_of (order : nat) : string := string_of ("a" :: "b" :: firstn order mode_letters)%char.

Lemma inner_states_length k : 1 <= k <= 6 -> List.length (inner_states k) = k - 1.
Proof. intros H. unfold inner_states. rewrite firstn_length. cbn. lia. Qed.

Lemma out_dims_ok order : order <= 6 -> ("ab" ++ sslice 0 order tag_str)%string = out_of order.
Proof. intros H. do 7 (destruct order as [|order]; [reflexivity|]). lia. Qed.

Lemma firstn_tag order : order <= 6 -> firstn order (chars tag_str) = firstn order mode_letters.
Proof. reflexivity. Qed.

Lemma sub_nodup (order k : nat) : order <= 6 -> 1 <= k <= 6 ->
  NoDup (("a" :: inner_states k ++ ["b"]) ++ firstn order mode_letters)%char.
Proof.
  intros Ho Hk.
  assert (D : forall l : list ascii, (if list_eq_dec ascii_dec (nodup ascii_dec l) l then true else false) = true -> NoDup l).
  { intros l. destruct (list_eq_dec ascii_dec (nodup ascii_dec l) l) as [<-|]; [|discriminate].
    intros _. apply NoDup_nodup. }
  apply D.
  destruct k as [|k]; [lia|].
  do 6 (destruct k as [|k]; [do 7 (destruct order as [|order]; [reflexivity|]); lia|]). lia.
Qed.

Lemma comp_bounds order c :
  composition_of order c -> 1 <= order ->
  1 <= List.length c <= order /\ Forall (fun n => 1 <= n <= order) c.
Proof.
  intros [Hpos Hsum] Ho. pose proof (list_sum_ones c Hpos) as Hge. unfold list_sum in Hge.
  split.
  - destruct c; cbn in *; lia.
  - rewrite Forall_forall in *. intros x Hx. specialize (Hpos x Hx).
    apply in_le_list_sum in Hx. unfold list_sum in Hx. lia.
Qed.

Lemma ins_of_chain order c :
  1 <= order <= 6 -> composition_of order c ->
  matrix_chain c (ins_of order c) (out_of order).
Proof.
  intros Ho Hc. destruct (comp_bounds order c Hc) as [Hl Hb]; [lia|].
  destruct Hc as [Hpos Hsum].
  assert (Hlen : List.length (firstn order mode_letters) = order) by (rewrite firstn_length; cbn; lia).
  exists (inner_states (List.length c)), (groups_of (firstn order mode_letters) c).
  cbv zeta. rewrite groups_of_concat by (unfold list_sum; lia).
  split; [apply sub_nodup; lia|]. split; [apply groups_of_lengths; unfold list_sum; lia|].
  split; [|reflexivity]. unfold ins_of.
  destruct (chain_subscripts_ok ("a" :: inner_states (List.length c) ++ ["b"])%char
              (groups_of (firstn order mode_letters) c)) as [ins [H1 _]].
  { cbn. rewrite app_length, groups_of_length, inner_states_length by lia. cbn. lia. }
  now rewrite H1.
Qed.

Section W.
  Variable so : list (list nat) -> list (list nat).
  Hypothesis Hso : set_order so.

  Lemma perm_comp order p c : partition_of order p -> Permutation c p -> composition_of order c.
  Proof.
    intros [[Hpos Hsum] _] P. split.
    - rewrite Forall_forall in *. intros x Hx. apply Hpos. eapply Permutation_in; eauto.
    - rewrite <- Hsum. apply (list_sum_perm _ _ P).
  Qed.

  Lemma zip_append_ok order c :
    1 <= order <= 6 -> composition_of order c ->
    zip_append (pair_strings ("a" :: inner_states (List.length c) ++ ["b"])%char)
               (map string_of (groups_of (firstn order mode_letters) c)) = Ok (ins_of order c).
  Proof.
    intros Ho Hc. destruct (comp_bounds order c Hc) as [Hl Hb]; [lia|]. unfold ins_of.
    destruct (chain_subscripts_ok ("a" :: inner_states (List.length c) ++ ["b"])%char
                (groups_of (firstn order mode_letters) c)) as [ins [H1 H2]].
    { cbn. rewrite app_length, groups_of_length, inner_states_length by lia. cbn. lia. }
    now rewrite H1, H2.
  Qed.

  Lemma mode_index_ok order p :
    1 <= order <= 6 -> partition_of order p ->
    generate_mode_index so p order =
      Ok (map (fun c => map string_of (groups_of (firstn order mode_letters) c))
              (unique_permutations so p)).
  Proof.
    intros Ho Hp. unfold generate_mode_index. destruct (Nat.ltb_spec 6 order); [lia|].
    rewrite firstn_tag by lia. apply mapM_ok. intros c Hc.
    apply in_unique_permutations in Hc; [|exact Hso].
    pose proof (perm_comp _ _ _ Hp Hc) as [Hpos Hsum].
    apply pop_groups_ok. rewrite firstn_length. unfold list_sum. rewrite Hsum. cbn. lia.
  Qed.

  Lemma args_ok order c :
    1 <= order <= 6 -> composition_of order c -> mapM t_term_string c = Ok (map amp_name c).
  Proof.
    intros Ho Hc. destruct (comp_bounds order c Hc) as [Hl Hb]; [lia|].
    apply mapM_ok. intros n Hn. rewrite Forall_forall in Hb. specialize (Hb n Hn).
    apply t_term_string_ok. lia.
  Qed.

  Lemma zip_calls_ok order k cs :
    1 <= order <= 6 -> (forall c, In c cs -> composition_of order c /\ List.length c = k) ->
    zip_calls (pair_strings ("a" :: inner_states k ++ ["b"])%char) (out_of order) cs
              (map (fun c => map string_of (groups_of (firstn order mode_letters) c)) cs)
    = Ok (map (fun c => Einsum (ins_of order c) (out_of order) (map amp_name c)) cs).
  Proof.
    intros Ho. induction cs as [|c cs IH]; intros H; [reflexivity|]. cbn [zip_calls map].
    destruct (H c) as [Hc Hk]; [now left|]. subst k.
    rewrite zip_append_ok by assumption. cbn [bind]. rewrite (args_ok order) by assumption. cbn [bind].
    rewrite IH by (intros c' Hc'; apply H; now right). reflexivity.
  Qed.

  Lemma zip_paths_ok order k cs :
    1 <= order <= 6 -> (forall c, In c cs -> composition_of order c /\ List.length c = k) ->
    zip_paths (pair_strings ("a" :: inner_states k ++ ["b"])%char) (out_of order) cs
              (map (fun c => map string_of (groups_of (firstn order mode_letters) c)) cs)
    = Ok (map (fun c => mkPath (ins_of order c) (out_of order) (map amp_shape c)) cs).
  Proof.
    intros Ho. induction cs as [|c cs IH]; intros H; [reflexivity|]. cbn [zip_paths map].
    destruct (H c) as [Hc Hk]; [now left|]. subst k.
    rewrite zip_append_ok by assumption. cbn [bind].
    rewrite IH by (intros c' Hc'; apply H; now right). cbn [bind].
    do 3 f_equal. apply map_ext. apply shape_ok.
  Qed.

  Lemma perms_of_partition order p c :
    partition_of order p -> In c (unique_permutations so p) ->
    composition_of order c /\ List.length c = List.length p.
  Proof.
    intros Hp Hc. apply in_unique_permutations in Hc; [|exact Hso].
    split; [eapply perm_comp; eauto|now apply Permutation_length].
  Qed.

  Lemma partition_bounds order p : 1 <= order -> partition_of order p ->
    1 <= List.length p <= order /\ 1 <= list_max p <= order.
  Proof.
    intros Ho Hp. destruct (comp_bounds order p (proj1 Hp) Ho) as [Hl Hb]. split; [exact Hl|].
    assert (Hin : In (list_max p) p) by (apply list_max_in; destruct p; [cbn in Hl; lia|discriminate]).
    rewrite Forall_forall in Hb. apply Hb, Hin.
  Qed.

  Lemma w_einsum_list_ok order p :
    1 <= order <= 6 -> partition_of order p ->
    w_einsum_list so p order
    = Ok (map (fun c => Einsum (ins_of order c) (out_of order) (map amp_name c))
              (unique_permutations so p)).
  Proof.
    intros Ho Hp. destruct (partition_bounds order p) as [Hl _]; [lia|exact Hp|].
    unfold w_einsum_list. rewrite surface_ok by lia. cbn [bind].
    rewrite mode_index_ok by assumption. cbn [bind]. rewrite out_dims_ok by lia.
    apply zip_calls_ok; [exact Ho|]. intros c. now apply perms_of_partition.
  Qed.

  Lemma optimized_w_einsum_list_ok order p :
    1 <= order <= 6 -> partition_of order p ->
    optimized_w_einsum_list so p order
    = Ok (map (fun c => NextOpt (map amp_name c)) (unique_permutations so p)).
  Proof.
    intros Ho Hp. unfold optimized_w_einsum_list. apply mapM_ok. intros c Hc.
    destruct (perms_of_partition order p c Hp Hc) as [Hcc _].
    now rewrite (args_ok order).
  Qed.

  Definition call_of (opt : bool) (order : nat) (c : list nat) : expr :=
    if opt then NextOpt (map amp_name c)
    else Einsum (ins_of order c) (out_of order) (map amp_name c).

  Definition contrib_of (order : nat) (opt : bool) (p : list nat) : contrib :=
    {| cb_tag := rank_name (list_max p);
       cb_guard := if Nat.leb 2 (list_max p) then Some (rank_name (list_max p)) else None;
       cb_pref := generate_w_operator_prefactor p;
       cb_oneline := Nat.eqb (List.length p) order;
       cb_calls := map (call_of opt order) (unique_permutations so p) |}.

  Lemma generate_contrib_ok order opt p :
    1 <= order <= 6 -> partition_of order p ->
    generate_contrib so order opt p = Ok (contrib_of order opt p).
  Proof.
    intros Ho Hp. destruct (partition_bounds order p) as [_ Hm]; [lia|exact Hp|].
    unfold generate_contrib. rewrite tag_ok by lia. cbn [bind].
    destruct opt.
    - rewrite optimized_w_einsum_list_ok by assumption. reflexivity.
    - rewrite w_einsum_list_ok by assumption. reflexivity.
  Qed.

  Lemma names_ok a b : 1 <= a -> b <= 9 -> mapM t_term_string (range a b) = Ok (map amp_name (range a b)).
  Proof.
    intros Ha Hb. apply mapM_ok. intros n Hn. apply in_range in Hn. apply t_term_string_ok. lia.
  Qed.

  Lemma vemx_ok order opt : 2 <= order <= 6 ->
    generate_vemx_contributions so order opt
    = Ok (CFbody (map amp_name (range 1 order))
                 (map (contrib_of order opt) (generate_linked_disconnected_partitions_of_n so order))).
  Proof.
    intros Ho. unfold generate_vemx_contributions.
    destruct (Nat.ltb_spec 6 order); [lia|]. rewrite names_ok by lia. cbn [bind].
    destruct (Nat.ltb_spec order 2); [lia|].
    rewrite (mapM_ok _ (contrib_of order opt)); [reflexivity|].
    intros p Hp. apply in_linked in Hp; [|exact Hso|lia]. apply generate_contrib_ok; [lia|tauto].
  Qed.

  Lemma vecc_ok order opt : 4 <= order <= 6 ->
    generate_vecc_contributions so order opt
    = Ok (CFbody (map amp_name (range 1 (order - 1)))
                 (map (contrib_of order opt) (generate_un_linked_disconnected_partitions_of_n so order))).
  Proof.
    intros Ho. unfold generate_vecc_contributions.
    destruct (Nat.ltb_spec 6 order); [lia|]. rewrite names_ok by lia. cbn [bind].
    destruct (Nat.ltb_spec order 4); [lia|].
    rewrite (mapM_ok _ (contrib_of order opt)); [reflexivity|].
    intros p Hp. apply in_unlinked in Hp; [|exact Hso|lia]. apply generate_contrib_ok; [lia|tauto].
  Qed.

  (** ** What the functions add *)
  Lemma level_down trunc r s : level_truncation trunc -> r <= 6 -> 1 <= s -> s <= r ->
    has_rank trunc r -> has_rank trunc s.
  Proof.
    intros [_ Hd] Hr Hs Hsr H. induction r as [|r IH]; [lia|].
    destruct (Nat.eq_dec s (S r)) as [->|]; [exact H|].
    apply IH; [lia|lia|]. apply Hd; [lia|lia|exact H].
  Qed.

  Lemma guard_allowed trunc order p :
    level_truncation trunc -> 1 <= order <= 6 -> partition_of order p ->
    (guard_ok trunc (cb_guard (contrib_of order false p)) = true <-> allowed trunc p).
  Proof.
    intros Hl Ho Hp. destruct (partition_bounds order p) as [Hlen Hm]; [lia|exact Hp|].
    destruct (comp_bounds order p (proj1 Hp)) as [_ Hb]; [lia|].
    unfold allowed. cbn [cb_guard contrib_of]. split.
    - intros H. rewrite Forall_forall in *. intros x Hx. pose proof (in_le_list_max x p Hx) as Hle.
      specialize (Hb x Hx).
      destruct (Nat.leb_spec 2 (list_max p)) as [Hge|Hlt].
      + apply (level_down trunc (list_max p)); auto; lia.
      + assert (x = 1) by lia. subst. exact (proj1 Hl).
    - intros H. destruct (Nat.leb_spec 2 (list_max p)) as [Hge|Hlt]; [|reflexivity].
      rewrite Forall_forall in H. apply H. apply list_max_in. destruct p; [cbn in Hlen; lia|discriminate].
  Qed.

  (** The compositions added by a list of partition blocks. *)
  Definition blocks_comps (trunc : string -> bool) (order : nat) (ps : list (list nat)) : list (list nat) :=
    flat_map (fun p => if guard_ok trunc (cb_guard (contrib_of order false p))
                       then unique_permutations so p else []) ps.

  Lemma run_contribs trunc order opt ps :
    1 <= order <= 6 -> (forall p, In p ps -> partition_of order p /\ 2 <= List.length p) ->
    flat_map (run_contrib trunc) (map (contrib_of order opt) ps)
    = map (fun c => mkAdd (Some (exp_denominator c)) (call_of opt order c)) (blocks_comps trunc order ps).
  Proof.
    intros Ho. unfold blocks_comps. induction ps as [|p ps IH]; intros H; [reflexivity|].
    cbn [map flat_map]. rewrite IH by (intros; apply H; now right). rewrite map_app. f_equal.
    unfold run_contrib. destruct (H p) as [Hp Hlen]; [now left|].
    replace (cb_guard (contrib_of order opt p)) with (cb_guard (contrib_of order false p)) by reflexivity.
    destruct (guard_ok _ _); [|reflexivity].
    cbn [cb_pref cb_calls contrib_of]. rewrite map_map. apply map_ext_in. intros c Hc. f_equal.
    rewrite prefactor_ok.
    - f_equal. apply exp_denominator_perm. symmetry. apply in_unique_permutations in Hc; [exact Hc|exact Hso].
    - destruct p; [cbn in Hlen; lia|discriminate].
    - destruct p as [|x [|y ys]]; cbn in Hlen; try lia. discriminate.
    - apply Hp.
  Qed.

  Lemma in_blocks_comps trunc order ps c :
    level_truncation trunc -> 1 <= order <= 6 -> (forall p, In p ps -> partition_of order p) ->
    (In c (blocks_comps trunc order ps) <-> exists p, In p ps /\ Permutation c p /\ allowed trunc c).
  Proof.
    intros Hl Ho Hps. unfold blocks_comps. rewrite in_flat_map. split.
    - intros [p [Hp H]]. exists p. split; [exact Hp|].
      destruct (guard_ok trunc _) eqn:E; [|destruct H].
      apply guard_allowed in E; [|exact Hl|exact Ho|auto].
      apply in_unique_permutations in H; [|exact Hso]. split; [exact H|].
      unfold allowed in *. rewrite Forall_forall in *. intros x Hx. apply E. eapply Permutation_in; eauto.
    - intros [p [Hp [P Ha]]]. exists p. split; [exact Hp|].
      assert (E : guard_ok trunc (cb_guard (contrib_of order false p)) = true).
      { apply guard_allowed; auto. unfold allowed in *. rewrite Forall_forall in *.
        intros x Hx. apply Ha. eapply Permutation_in; [symmetry; exact P|exact Hx]. }
      rewrite E. apply in_unique_permutations; [exact Hso|exact P].
  Qed.

  Lemma partition_perm_eq n p q : partition_of n p -> partition_of n q -> Permutation p q -> p = q.
  Proof.
    intros Hp Hq P. rewrite <- (partition_isort n p Hp), <- (partition_isort n q Hq).
    apply isort_ext; [apply geb_total|apply geb_trans|apply geb_antisym|exact P].
  Qed.

  Lemma nodup_blocks_comps trunc order ps :
    NoDup ps -> (forall p, In p ps -> partition_of order p) -> NoDup (blocks_comps trunc order ps).
  Proof.
    intros Hnd Hps. unfold blocks_comps. apply NoDup_flat_map; [exact Hnd| |].
    - intros p _. destruct (guard_ok _ _); [now apply nodup_unique_permutations|constructor].
    - intros p q c Hp Hq H1 H2.
      destruct (guard_ok trunc (cb_guard (contrib_of order false p))); [|destruct H1].
      destruct (guard_ok trunc (cb_guard (contrib_of order false q))); [|destruct H2].
      apply in_unique_permutations in H1, H2; try exact Hso.
      apply (partition_perm_eq order); auto. now rewrite <- H1, H2.
  Qed.

  Definition sorted_part (c : list nat) : list nat := isort geb c.

  Lemma comp_sorted order c : composition_of order c -> partition_of order (sorted_part c) /\ Permutation c (sorted_part c).
  Proof. intros H. split; [now apply isort_geb_partition|apply isort_perm]. Qed.

  Lemma big_parts_perm c p : Permutation c p -> big_parts c = big_parts p.
  Proof.
    intros P. unfold big_parts. induction P; cbn [filter]; auto.
    - destruct (1 <? x); cbn; auto.
    - destruct (1 <? x), (1 <? y); reflexivity.
    - congruence.
  Qed.

  Lemma linked_blocks trunc order c :
    level_truncation trunc -> 1 <= order <= 6 ->
    (In c (blocks_comps trunc order (generate_linked_disconnected_partitions_of_n so order))
     <-> composition_of order c /\ linked_shape c /\ allowed trunc c).
  Proof.
    intros Hl Ho. rewrite in_blocks_comps; [|exact Hl|exact Ho|intros p Hp; apply in_linked in Hp; [tauto|exact Hso|lia]].
    split.
    - intros [p [Hp [P Ha]]]. apply in_linked in Hp; [|exact Hso|lia]. destruct Hp as [Hp [Hp1 Hp2]].
      split; [eapply perm_comp; eauto|]. split; [|exact Ha].
      split; [rewrite (Permutation_length P); exact Hp1|rewrite (big_parts_perm _ _ P); exact Hp2].
    - intros [Hc [[H1 H2] Ha]]. destruct (comp_sorted order c Hc) as [Hp P].
      exists (sorted_part c). split; [|auto]. apply in_linked; [exact Hso|lia|]. split; [exact Hp|].
      split; [rewrite <- (Permutation_length P); exact H1|rewrite <- (big_parts_perm _ _ P); exact H2].
  Qed.

  Lemma unlinked_blocks trunc order c :
    level_truncation trunc -> 1 <= order <= 6 ->
    (In c (blocks_comps trunc order (generate_un_linked_disconnected_partitions_of_n so order))
     <-> composition_of order c /\ unlinked_shape c /\ allowed trunc c).
  Proof.
    intros Hl Ho. rewrite in_blocks_comps; [|exact Hl|exact Ho|intros p Hp; apply in_unlinked in Hp; [tauto|exact Hso|lia]].
    unfold unlinked_shape. split.
    - intros [p [Hp [P Ha]]]. apply in_unlinked in Hp; [|exact Hso|lia]. destruct Hp as [Hp Hp1].
      split; [eapply perm_comp; eauto|]. split; [|exact Ha]. rewrite (big_parts_perm _ _ P). exact Hp1.
    - intros [Hc [H1 Ha]]. destruct (comp_sorted order c Hc) as [Hp P].
      exists (sorted_part c). split; [|auto]. apply in_unlinked; [exact Hso|lia|]. split; [exact Hp|].
      unfold unlinked_shape. rewrite <- (big_parts_perm _ _ P). exact H1.
  Qed.

  (** Shapes of a composition. *)
  Lemma comp_shapes order c : 1 <= order -> composition_of order c ->
    (c = [order] /\ ~ linked_shape c /\ ~ unlinked_shape c)
    \/ (c <> [order] /\ linked_shape c /\ ~ unlinked_shape c)
    \/ (c <> [order] /\ ~ linked_shape c /\ unlinked_shape c).
  Proof.
    intros Ho Hc. destruct (comp_sorted order c Hc) as [Hp P].
    pose proof (shapes_cover order (sorted_part c) Ho Hp) as H.
    unfold linked_shape, unlinked_shape in *.
    rewrite <- (big_parts_perm _ _ P), <- (Permutation_length P) in H.
    assert (E : sorted_part c = [order] <-> c = [order]).
    { split; [|intros ->; reflexivity]. intros E. rewrite E in P.
      apply Permutation_sym in P. apply Permutation_length_1_inv in P. exact P. }
    rewrite E in H. exact H.
  Qed.

  (** The additions of the whole W function, as compositions. *)
  Definition veci_comps (trunc : string -> bool) (order : nat) : list (list nat) :=
    if Nat.eqb order 1 then [[1]] else if trunc (rank_name order) then [[order]] else [].

  Definition w_comps (an : ansatz) (trunc : string -> bool) (order : nat) : list (list nat) :=
    match an with
    | VECI => veci_comps trunc order
    | VE_MIXED => veci_comps trunc order
        ++ blocks_comps trunc order (generate_linked_disconnected_partitions_of_n so order)
    | VECC => veci_comps trunc order
        ++ blocks_comps trunc order (generate_linked_disconnected_partitions_of_n so order)
        ++ blocks_comps trunc order (generate_un_linked_disconnected_partitions_of_n so order)
    end.

  Definition add_of (opt : bool) (order : nat) (c : list nat) : addend :=
    mkAdd (Some (exp_denominator c))
          (if Nat.eqb (List.length c) 1 then plain (amp_name order) else call_of opt order c).

  Lemma not_linked_1 p : In p (generate_linked_disconnected_partitions_of_n so 1) -> False.
  Proof.
    intros H. apply in_linked in H; [|exact Hso|lia]. destruct H as [Hp [H _]].
    destruct (comp_bounds 1 p (proj1 Hp)); lia.
  Qed.
  Lemma not_unlinked_small order p : 1 <= order < 4 -> In p (generate_un_linked_disconnected_partitions_of_n so order) -> False.
  Proof.
    intros Ho H. apply in_unlinked in H; [|exact Hso|lia]. destruct H as [Hp H].
    pose proof (unlinked_max order p Hp H) as Hm. unfold unlinked_shape in H.
    assert (big_parts p <= order / 2).
    { destruct Hp as [[Hpos Hsum] _]. apply Nat.div_le_lower_bound; [lia|]. rewrite <- Hsum.
      clear. unfold big_parts. induction p as [|x xs IH]; cbn [filter fold_right]; [cbn; lia|].
      destruct (Nat.ltb_spec 1 x); cbn [List.length]; lia. }
    assert (order / 2 <= 1) by (apply Nat.lt_succ_r, Nat.div_lt_upper_bound; lia). lia.
  Qed.

  Lemma nil_of_empty {A} (l : list A) : (forall x, In x l -> False) -> l = [].
  Proof. destruct l as [|x xs]; [reflexivity|]. intros H. destruct (H x); now left. Qed.

  Lemma map_add_of trunc opt order ps :
    1 <= order -> (forall p, In p ps -> partition_of order p /\ 2 <= List.length p) ->
    map (fun c => mkAdd (Some (exp_denominator c)) (call_of opt order c)) (blocks_comps trunc order ps)
    = map (add_of opt order) (blocks_comps trunc order ps).
  Proof.
    intros Ho Hps. apply map_ext_in. intros c Hc. unfold add_of. f_equal.
    unfold blocks_comps in Hc. apply in_flat_map in Hc as [p [Hp Hc]].
    destruct (guard_ok _ _); [|destruct Hc]. apply in_unique_permutations in Hc; [|exact Hso].
    rewrite (Permutation_length Hc). destruct (Hps p Hp) as [_ Hlen].
    destruct (Nat.eqb_spec (List.length p) 1); [lia|reflexivity].
  Qed.

  Lemma linked_len order p : 1 <= order -> In p (generate_linked_disconnected_partitions_of_n so order) ->
    partition_of order p /\ 2 <= List.length p.
  Proof. intros Ho H. apply in_linked in H; [|exact Hso|lia]. destruct H as [H [H1 _]]. auto. Qed.

  Lemma big_parts_le_length p : big_parts p <= List.length p.
  Proof. unfold big_parts. induction p as [|x xs IH]; cbn [filter]; [auto|]. destruct (1 <? x); cbn [List.length]; lia. Qed.

  Lemma unlinked_len order p : 1 <= order -> In p (generate_un_linked_disconnected_partitions_of_n so order) ->
    partition_of order p /\ 2 <= List.length p.
  Proof.
    intros Ho H. apply in_unlinked in H; [|exact Hso|lia]. destruct H as [H H1]. split; [exact H|].
    unfold unlinked_shape in H1. pose proof (big_parts_le_length p). lia.
  Qed.

  Lemma exp_denominator_single n : exp_denominator [n] = fact_spec n.
  Proof. unfold exp_denominator. cbn. lia. Qed.

  Theorem run_w_ok order opt an trunc : 1 <= order <= 6 ->
    run_w so order opt an trunc = Ok (map (add_of opt order) (w_comps an trunc order)).
  Proof.
    intros Ho. unfold run_w, write_w_function.
    destruct (Nat.ltb_spec 6 order); [lia|]. rewrite names_ok by lia. cbn [bind].
    destruct (Nat.eqb_spec order 0); [lia|].
    destruct (Nat.eqb_spec order 1) as [->|H1].
    { cbn [bind]. unfold w_comps, veci_comps. cbn [Nat.eqb].
      assert (E1 : generate_linked_disconnected_partitions_of_n so 1 = [])
        by (apply nil_of_empty; apply not_linked_1).
      assert (E2 : generate_un_linked_disconnected_partitions_of_n so 1 = [])
        by (apply nil_of_empty; intros p Hp; apply (not_unlinked_small 1 p); [lia|exact Hp]).
      rewrite E1, E2. destruct an; reflexivity. }
    rewrite tag_ok by lia. cbn [bind]. rewrite t_term_string_ok by lia. cbn [bind].
    assert (Hveci : (if trunc (rank_name order)
                     then [mkAdd (prefactor_denominator (generate_w_operator_prefactor [order])) (plain (amp_name order))]
                     else []) = map (add_of opt order) (veci_comps trunc order)).
    { unfold veci_comps. destruct (Nat.eqb_spec order 1); [lia|].
      destruct (trunc (rank_name order)); [|reflexivity]. cbn [map]. unfold add_of. cbn [List.length Nat.eqb].
      rewrite prefactor_ok; [reflexivity|discriminate|congruence|constructor; [lia|constructor]]. }
    assert (Hlinked : (do vf <- generate_vemx_contributions so order opt; run_contrib_fun trunc vf)
              = Ok (map (add_of opt order) (blocks_comps trunc order (generate_linked_disconnected_partitions_of_n so order)))).
    { rewrite vemx_ok by lia. cbn [bind run_contrib_fun].
      rewrite run_contribs; [|lia|intros p; apply linked_len; lia].
      rewrite map_add_of; [reflexivity|lia|intros p; apply linked_len; lia]. }
    destruct an; cbn [w_comps].
    - now rewrite Hveci.
    - destruct (generate_vemx_contributions so order opt) as [vf|e]; cbn [bind] in *; [|discriminate].
      rewrite Hlinked. cbn [bind]. rewrite Hveci, map_app. reflexivity.
    - destruct (generate_vemx_contributions so order opt) as [vf|e]; cbn [bind] in *; [|discriminate].
      rewrite Hlinked. cbn [bind]. rewrite !map_app.
      destruct (Nat.ltb_spec order 4) as [H4|H4]; cbn [negb].
      + assert (E2 : generate_un_linked_disconnected_partitions_of_n so order = [])
          by (apply nil_of_empty; intros p Hp; apply (not_unlinked_small order p); [lia|exact Hp]).
        rewrite E2, Hveci. cbn. now rewrite app_nil_r.
      + rewrite vecc_ok by lia. cbn [bind run_contrib_fun].
        rewrite run_contribs; [|lia|intros p; apply unlinked_len; lia].
        rewrite map_add_of; [|lia|intros p; apply unlinked_len; lia]. now rewrite Hveci.
  Qed.

  (** Which compositions each ansatz contains. *)
  Definition in_ansatz (an : ansatz) (order : nat) (c : list nat) : Prop :=
    match an with
    | VECI => c = [order]
    | VE_MIXED => big_parts c <= 1
    | VECC => True
    end.

  Lemma in_w_comps an trunc order c :
    level_truncation trunc -> 1 <= order <= 6 ->
    (In c (w_comps an trunc order)
     <-> composition_of order c /\ in_ansatz an order c /\ allowed trunc c).
  Proof.
    intros Hl Ho.
    assert (Hv : In c (veci_comps trunc order) <-> c = [order] /\ allowed trunc c).
    { unfold veci_comps. destruct (Nat.eqb_spec order 1) as [->|H1].
      - cbn. split; [intros [<-|[]]; split; [reflexivity|constructor; [exact (proj1 Hl)|constructor]]|].
        intros [-> _]. now left.
      - destruct (trunc (rank_name order)) eqn:E; cbn.
        + split; [intros [<-|[]]; split; [reflexivity|constructor; [exact E|constructor]]|].
          intros [-> _]. now left.
        + split; [tauto|]. intros [-> Ha]. inversion Ha; subst. unfold has_rank in *. congruence. }
    assert (Hself : composition_of order [order]) by (split; [constructor; [lia|constructor]|cbn; lia]).
    destruct an; cbn [w_comps in_ansatz]; rewrite ?in_app_iff, Hv, ?linked_blocks, ?unlinked_blocks by assumption.
    - split; [intros [-> Ha]; auto|tauto].
    - split.
      + intros [[-> Ha]|[Hc [[_ Hs] Ha]]]; [|auto]. split; [exact Hself|]. split; [|exact Ha].
        unfold big_parts. cbn [filter]. destruct (1 <? order); cbn; lia.
      + intros [Hc [Hb Ha]]. destruct (comp_shapes order c) as [[-> _]|[[_ [Hs _]]|[_ [_ Hs]]]]; [lia|exact Hc|tauto|tauto|].
        unfold unlinked_shape in Hs. lia.
    - split.
      + intros [[-> Ha]|[[Hc [_ Ha]]|[Hc [_ Ha]]]]; auto.
      + intros [Hc [_ Ha]]. destruct (comp_shapes order c) as [[-> _]|[[_ [Hs _]]|[_ [_ Hs]]]]; [lia|exact Hc|tauto|tauto|tauto].
  Qed.

  Lemma nodup_w_comps an trunc order : level_truncation trunc -> 1 <= order <= 6 -> NoDup (w_comps an trunc order).
  Proof.
    intros Hl Ho.
    assert (Nv : NoDup (veci_comps trunc order)).
    { unfold veci_comps. destruct (order =? 1); [repeat constructor; auto|].
      destruct (trunc _); repeat constructor; auto. }
    assert (Nl := nodup_blocks_comps trunc order _ (nodup_linked so Hso order)
                    (fun p H => proj1 (linked_len order p (proj1 Ho) H))).
    assert (Nu := nodup_blocks_comps trunc order _ (nodup_unlinked so Hso order)
                    (fun p H => proj1 (unlinked_len order p (proj1 Ho) H))).
    assert (Hv : forall c, In c (veci_comps trunc order) -> c = [order]).
    { intros c. unfold veci_comps. destruct (Nat.eqb_spec order 1) as [->|];
        [|destruct (trunc _)]; cbn; intuition congruence. }
    assert (D1 : forall c, In c (veci_comps trunc order) -> ~ In c (blocks_comps trunc order (generate_linked_disconnected_partitions_of_n so order))).
    { intros c Hc. apply Hv in Hc. subst. rewrite linked_blocks by assumption. unfold linked_shape. cbn. lia. }
    assert (D2 : forall c, In c (veci_comps trunc order) -> ~ In c (blocks_comps trunc order (generate_un_linked_disconnected_partitions_of_n so order))).
    { intros c Hc. apply Hv in Hc. subst. rewrite unlinked_blocks by assumption. unfold unlinked_shape.
      pose proof (big_parts_le_length [order]). cbn [List.length] in *. lia. }
    assert (D3 : forall c, In c (blocks_comps trunc order (generate_linked_disconnected_partitions_of_n so order)) ->
                           ~ In c (blocks_comps trunc order (generate_un_linked_disconnected_partitions_of_n so order))).
    { intros c. rewrite linked_blocks, unlinked_blocks by assumption. unfold linked_shape, unlinked_shape. lia. }
    destruct an; cbn [w_comps]; [exact Nv|apply NoDup_app_intro; auto|].
    apply NoDup_app_intro; [exact Nv|apply NoDup_app_intro; auto|].
    intros c Hc Hc'. apply in_app_iff in Hc' as [Hc'|Hc']; [eapply D1|eapply D2]; eauto.
  Qed.

  Lemma operands_add opt order c : composition_of order c -> 1 <= order ->
    operands (ad_call (add_of opt order c)) = map amp_name c.
  Proof.
    intros Hc Ho. unfold add_of. cbn [ad_call].
    destruct (Nat.eqb_spec (List.length c) 1) as [E|E].
    - destruct c as [|x [|y ys]]; cbn in E; try lia. destruct Hc as [_ Hs]. cbn in Hs.
      cbn. do 2 f_equal. lia.
    - unfold call_of. destruct opt; reflexivity.
  Qed.

  (** Main statement behind C04/C05. *)
  Theorem w_sum_exact order opt an trunc :
    level_truncation trunc -> 1 <= order <= 6 ->
    exists adds, run_w so order opt an trunc = Ok adds /\
      NoDup (map (fun a => operands (ad_call a)) adds) /\
      (forall ops, In ops (map (fun a => operands (ad_call a)) adds) <->
         exists c, composition_of order c /\ in_ansatz an order c /\ allowed trunc c /\ ops = map amp_name c) /\
      (forall a, In a adds -> exists c, composition_of order c /\
         operands (ad_call a) = map amp_name c /\ ad_den a = Some (exp_denominator c)).
  Proof.
    intros Hl Ho. exists (map (add_of opt order) (w_comps an trunc order)).
    split; [now apply run_w_ok|]. rewrite map_map.
    assert (Hin : forall c, In c (w_comps an trunc order) ->
              composition_of order c /\ Forall (fun n => 1 <= n <= 8) c).
    { intros c Hc. apply in_w_comps in Hc; [|exact Hl|exact Ho]. destruct Hc as [Hc _].
      split; [exact Hc|]. destruct (comp_bounds order c Hc) as [_ Hb]; [lia|].
      eapply Forall_impl; [|exact Hb]. cbn. lia. }
    split; [|split].
    - apply NoDup_map_inj; [now apply nodup_w_comps|].
      intros x y Hx Hy E. destruct (Hin x Hx), (Hin y Hy).
      rewrite !operands_add in E by (assumption || lia). now apply map_amp_inj.
    - intros ops. rewrite in_map_iff. split.
      + intros [c [<- Hc]]. pose proof (Hin c Hc) as [Hcc _].
        apply in_w_comps in Hc; [|exact Hl|exact Ho]. exists c.
        rewrite operands_add by (assumption || lia). tauto.
      + intros [c [Hc [Han [Ha ->]]]]. exists c. rewrite operands_add by (assumption || lia).
        split; [reflexivity|]. apply in_w_comps; auto.
    - intros a Ha. apply in_map_iff in Ha as [c [<- Hc]]. exists c.
      destruct (Hin c Hc) as [Hcc _]. rewrite operands_add by (assumption || lia). auto.
  Qed.

  Theorem w_rejects order opt an trunc : 6 < order -> run_w so order opt an trunc = Err NotImplementedErr.
  Proof.
    intros H. unfold run_w, write_w_function. destruct (Nat.ltb_spec 6 order); [reflexivity|lia].
  Qed.

  (** C06: every einsum call is the ordered matrix product. *)
  Theorem w_calls_chain order an trunc adds ins out args :
    level_truncation trunc -> 1 <= order <= 6 ->
    run_w so order false an trunc = Ok adds ->
    In (Einsum ins out args) (map ad_call adds) -> ins <> [] ->
    exists c, composition_of order c /\ args = map amp_name c /\ matrix_chain c ins out.
  Proof.
    intros Hl Ho Hr Hin Hne. rewrite run_w_ok in Hr by lia. inversion Hr; subst adds; clear Hr.
    rewrite map_map in Hin. apply in_map_iff in Hin as [c [E Hc]].
    apply in_w_comps in Hc; [|exact Hl|exact Ho]. destruct Hc as [Hc _].
    unfold add_of in E. cbn [ad_call] in E. destruct (Nat.eqb (List.length c) 1).
    - unfold plain in E. inversion E; subst. congruence.
    - unfold call_of in E. inversion E; subst. exists c.
      split; [exact Hc|]. split; [reflexivity|]. apply ins_of_chain; auto.
  Qed.

  (** C07: the names each function uses are among those it unpacks. *)
  Theorem vemx_names_bound order opt trunc f adds :
    1 <= order -> generate_vemx_contributions so order opt = Ok f ->
    run_contrib_fun trunc f = Ok adds ->
    bound_names f = map amp_name (range 1 order) /\
    forall a x, In a adds -> In x (operands (ad_call a)) -> In x (bound_names f).
  Proof.
    intros Ho Hf Hr.
    destruct (le_lt_dec order 6) as [H6|H6].
    2:{ unfold generate_vemx_contributions in Hf. destruct (Nat.ltb_spec 6 order); [discriminate|lia]. }
    destruct (le_lt_dec 2 order) as [H2|H2].
    2:{ unfold generate_vemx_contributions in Hf. destruct (Nat.ltb_spec 6 order); [lia|].
        rewrite names_ok in Hf by lia. cbn [bind] in Hf. destruct (Nat.ltb_spec order 2); [|lia].
        inversion Hf; subst. discriminate. }
    rewrite vemx_ok in Hf by lia. inversion Hf; subst f; clear Hf. split; [reflexivity|].
    cbn [run_contrib_fun] in Hr. inversion Hr; subst adds; clear Hr.
    rewrite run_contribs; [|lia|intros p; apply linked_len; lia].
    intros a x Ha Hx. apply in_map_iff in Ha as [c [<- Hc]].
    unfold blocks_comps in Hc. apply in_flat_map in Hc as [p [Hp Hc]].
    destruct (guard_ok _ _); [|destruct Hc]. apply in_unique_permutations in Hc; [|exact Hso].
    assert (Hops : operands (ad_call (mkAdd (Some (exp_denominator c)) (call_of opt order c))) = map amp_name c)
      by (cbn; unfold call_of; destruct opt; reflexivity).
    rewrite Hops in Hx. apply in_map_iff in Hx as [n [<- Hn]]. cbn [bound_names]. apply in_map.
    destruct (linked_len order p) as [Hpp Hlen]; [lia|exact Hp|].
    assert (Hmax : list_max p < order) by (apply (is_mixed_max_lt order p); [lia|exact Hpp|exact Hlen]).
    assert (In n p) as Hnp by (eapply Permutation_in; eauto).
    apply in_range. pose proof (in_le_list_max n p Hnp).
    destruct Hpp as [[Hpos _] _]. rewrite Forall_forall in Hpos. specialize (Hpos n Hnp). lia.
  Qed.

  Theorem vecc_names_bound order opt trunc f adds :
    1 <= order -> generate_vecc_contributions so order opt = Ok f ->
    run_contrib_fun trunc f = Ok adds ->
    bound_names f = map amp_name (range 1 (order - 1)) /\
    forall a x, In a adds -> In x (operands (ad_call a)) -> In x (bound_names f).
  Proof.
    intros Ho Hf Hr.
    destruct (le_lt_dec order 6) as [H6|H6].
    2:{ unfold generate_vecc_contributions in Hf. destruct (Nat.ltb_spec 6 order); [discriminate|lia]. }
    destruct (le_lt_dec 4 order) as [H2|H2].
    2:{ unfold generate_vecc_contributions in Hf. destruct (Nat.ltb_spec 6 order); [lia|].
        rewrite names_ok in Hf by lia. cbn [bind] in Hf. destruct (Nat.ltb_spec order 4); [|lia].
        inversion Hf; subst. discriminate. }
    rewrite vecc_ok in Hf by lia. inversion Hf; subst f; clear Hf. split; [reflexivity|].
    cbn [run_contrib_fun] in Hr. inversion Hr; subst adds; clear Hr.
    rewrite run_contribs; [|lia|intros p; apply unlinked_len; lia].
    intros a x Ha Hx. apply in_map_iff in Ha as [c [<- Hc]].
    unfold blocks_comps in Hc. apply in_flat_map in Hc as [p [Hp Hc]].
    destruct (guard_ok _ _); [|destruct Hc]. apply in_unique_permutations in Hc; [|exact Hso].
    assert (Hops : operands (ad_call (mkAdd (Some (exp_denominator c)) (call_of opt order c))) = map amp_name c)
      by (cbn; unfold call_of; destruct opt; reflexivity).
    rewrite Hops in Hx. apply in_map_iff in Hx as [n [<- Hn]]. cbn [bound_names]. apply in_map.
    apply in_unlinked in Hp; [|exact Hso|lia]. destruct Hp as [Hpp Hu].
    pose proof (unlinked_max order p Hpp Hu) as Hmax.
    assert (In n p) as Hnp by (eapply Permutation_in; eauto).
    apply in_range. pose proof (in_le_list_max n p Hnp).
    destruct Hpp as [[Hpos _] _]. rewrite Forall_forall in Hpos. specialize (Hpos n Hnp). lia.
  Qed.

  (** ** C08: optimised paths *)
  Definition path_of (order : nat) (c : list nat) : path :=
    mkPath (ins_of order c) (out_of order) (map amp_shape c).

  Lemma contracted_ok order ps :
    1 <= order <= 6 -> (forall p, In p ps -> partition_of order p /\ 2 <= List.length p) ->
    contracted_expressions so ps order
    = Ok (map (fun p => (list_max p, map (path_of order) (unique_permutations so p))) ps).
  Proof.
    intros Ho. induction ps as [|p ps IH]; intros H; [reflexivity|].
    cbn [contracted_expressions map]. destruct (H p) as [Hp Hlen]; [now left|].
    destruct (Nat.eqb_spec (List.length p) 1); [lia|].
    destruct (partition_bounds order p) as [Hl _]; [lia|exact Hp|].
    rewrite surface_ok by lia. cbn [bind]. rewrite mode_index_ok by assumption. cbn [bind].
    rewrite out_dims_ok by lia. rewrite zip_paths_ok; [|exact Ho|intros c; now apply perms_of_partition].
    cbn [bind]. rewrite IH by (intros; apply H; now right). reflexivity.
  Qed.

  Definition block_of (order : nat) (p : list nat) : path_block :=
    {| pb_guard := rank_name (list_max p); pb_order := order;
       pb_paths := map (path_of order) (unique_permutations so p) |}.

  Lemma path_blocks_ok order ps :
    1 <= order <= 6 -> (forall p, In p ps -> partition_of order p /\ 2 <= List.length p) ->
    (do l <- contracted_expressions so ps order; path_blocks order l) = Ok (map (block_of order) ps).
  Proof.
    intros Ho H. rewrite contracted_ok by assumption. cbn [bind]. unfold path_blocks.
    erewrite mapM_ok with (g := fun e => {| pb_guard := rank_name (fst e); pb_order := order; pb_paths := snd e |}).
    - now rewrite map_map.
    - intros e He. apply in_map_iff in He as [p [<- Hp]]. cbn [fst snd].
      destruct (H p Hp) as [Hpp _]. destruct (partition_bounds order p) as [_ Hm]; [lia|exact Hpp|].
      now rewrite tag_ok by lia.
  Qed.

  Definition blocks_for (order : nat) (trunc : string -> bool) (bs : list path_block) : list path :=
    flat_map (fun b => if Nat.eqb (pb_order b) order && trunc (pb_guard b) then pb_paths b else []) bs.

  Lemma blocks_for_concat gen a n order trunc :
    In order (seq a n) ->
    blocks_for order trunc (List.concat (map (fun o => map (block_of o) (gen o)) (seq a n)))
    = blocks_for order trunc (map (block_of order) (gen order)).
  Proof.
    unfold blocks_for. revert a. induction n as [|n IH]; intros a; cbn [seq In]; [tauto|].
    intros Hin. cbn [map List.concat]. rewrite flat_map_app.
    assert (Hother : forall o, o <> order ->
       flat_map (fun b => if Nat.eqb (pb_order b) order && trunc (pb_guard b) then pb_paths b else [])
         (map (block_of o) (gen o)) = []).
    { intros o Ho. induction (gen o) as [|p ps IHp]; [reflexivity|]. cbn [map flat_map].
      rewrite IHp. cbn [pb_order block_of]. destruct (Nat.eqb_spec o order); [congruence|reflexivity]. }
    destruct (Nat.eq_dec a order) as [->|Hne].
    - assert (flat_map (fun b => if Nat.eqb (pb_order b) order && trunc (pb_guard b) then pb_paths b else [])
        (List.concat (map (fun o => map (block_of o) (gen o)) (seq (S order) n))) = []) as ->; [|now rewrite app_nil_r].
      clear -Hother. assert (forall o, In o (seq (S order) n) -> o <> order) as Hn by (intros o Ho; apply in_seq in Ho; lia).
      induction (seq (S order) n) as [|o os IHo]; [reflexivity|]. cbn [map List.concat]. rewrite flat_map_app.
      rewrite Hother by (apply Hn; now left). apply IHo. intros; apply Hn; now right.
    - rewrite Hother by exact Hne. destruct Hin as [->|Hin]; [congruence|]. now apply IH.
  Qed.

  Lemma blocks_for_comps trunc order ps :
    has_rank trunc 1 -> 1 <= order -> (forall p, In p ps -> partition_of order p) ->
    blocks_for order trunc (map (block_of order) ps) = map (path_of order) (blocks_comps trunc order ps).
  Proof.
    intros H1 Ho. unfold blocks_for, blocks_comps. induction ps as [|p ps IH]; intros Hps; [reflexivity|].
    cbn [map flat_map]. rewrite IH by (intros; apply Hps; now right). rewrite map_app. f_equal.
    cbn [pb_order pb_guard pb_paths block_of cb_guard contrib_of]. rewrite Nat.eqb_refl. cbn [andb].
    destruct (partition_bounds order p) as [_ Hm]; [lia|apply Hps; now left|].
    destruct (Nat.leb_spec 2 (list_max p)) as [H2|H2]; cbn [guard_ok].
    - destruct (trunc _); reflexivity.
    - assert (list_max p = 1) as -> by lia. unfold has_rank in H1. rewrite H1. reflexivity.
  Qed.

  Lemma seq_nth_range a n i : i < n -> nth_error (seq a n) i = Some (a + i).
  Proof.
    revert a i; induction n as [|n IH]; intros a [|i] H; cbn; try lia.
    - f_equal; lia.
    - rewrite IH by lia. f_equal; lia.
  Qed.

  Lemma blocks_comps_comp trunc order ps c :
    1 <= order -> (forall p, In p ps -> partition_of order p /\ 2 <= List.length p) ->
    In c (blocks_comps trunc order ps) -> composition_of order c.
  Proof.
    intros Ho Hps Hc. unfold blocks_comps in Hc. apply in_flat_map in Hc as [p [Hp Hc]].
    destruct (guard_ok _ _); [|destruct Hc]. apply in_unique_permutations in Hc; [|exact Hso].
    eapply perm_comp; [apply Hps; exact Hp|exact Hc].
  Qed.

  Lemma unlinked_max2 order p : partition_of order p /\ unlinked_shape p -> 2 <= list_max p.
  Proof.
    intros [_ H]. unfold unlinked_shape, big_parts in H.
    destruct (filter (fun x => 1 <? x) p) as [|x xs] eqn:E; [cbn in H; lia|].
    assert (In x (filter (fun x => 1 <? x) p)) as Hx by (rewrite E; now left).
    apply filter_In in Hx as [Hx Hx']. apply Nat.ltb_lt in Hx'. apply in_le_list_max in Hx. lia.
  Qed.

  Lemma blocks_for_comps2 trunc order ps :
    1 <= order -> (forall p, In p ps -> partition_of order p /\ 2 <= list_max p) ->
    blocks_for order trunc (map (block_of order) ps) = map (path_of order) (blocks_comps trunc order ps).
  Proof.
    intros Ho. unfold blocks_for, blocks_comps. induction ps as [|p ps IH]; intros Hps; [reflexivity|].
    cbn [map flat_map]. rewrite IH by (intros; apply Hps; now right). rewrite map_app. f_equal.
    cbn [pb_order pb_guard pb_paths block_of cb_guard contrib_of]. rewrite Nat.eqb_refl. cbn [andb].
    destruct (Hps p) as [_ H2]; [now left|].
    destruct (Nat.leb_spec 2 (list_max p)); [|lia]. cbn [guard_ok]. destruct (trunc _); reflexivity.
  Qed.

  (** The optimised vemx helper consumes, call by call, exactly the paths
      compiled for it, and performs the same products as the default helper. *)
  Theorem vemx_paths_aligned max_order order trunc :
    has_rank trunc 1 -> 2 <= order <= max_order -> max_order <= 6 ->
    exists cs : list (list nat),
      Forall (composition_of order) cs /\
      (do f <- generate_vemx_contributions so order false; run_contrib_fun trunc f)
        = Ok (map (fun c => mkAdd (Some (exp_denominator c)) (Einsum (ins_of order c) (out_of order) (map amp_name c))) cs) /\
      (do f <- generate_vemx_contributions so order true; run_contrib_fun trunc f)
        = Ok (map (fun c => mkAdd (Some (exp_denominator c)) (NextOpt (map amp_name c))) cs) /\
      exists ls, run_vemx_paths so max_order trunc = Ok ls /\
        nth_error ls (order - 1)
        = Some (map (fun c => mkPath (ins_of order c) (out_of order) (map amp_shape c)) cs).
  Proof.
    intros H1 Ho Hm.
    exists (blocks_comps trunc order (generate_linked_disconnected_partitions_of_n so order)).
    split; [|split; [|split]].
    - apply Forall_forall. intros c Hc. apply blocks_comps_comp in Hc; [exact Hc|lia|intros p; apply linked_len; lia].
    - rewrite vemx_ok by lia. cbn [bind run_contrib_fun].
      now rewrite run_contribs by (lia || (intros p; apply linked_len; lia)).
    - rewrite vemx_ok by lia. cbn [bind run_contrib_fun].
      now rewrite run_contribs by (lia || (intros p; apply linked_len; lia)).
    - unfold run_vemx_paths, optimized_vemx_paths. destruct (Nat.ltb_spec 6 max_order); [lia|].
      rewrite (mapM_ok _ (fun o => map (block_of o) (generate_linked_disconnected_partitions_of_n so o))).
      2:{ intros o Hor. apply in_range in Hor. apply path_blocks_ok; [lia|]. intros p; apply linked_len; lia. }
      cbn [bind fst snd]. eexists. split; [reflexivity|]. unfold run_blocks.
      destruct order as [|order]; [lia|]. cbn [map nth_error Nat.sub]. rewrite Nat.sub_0_r.
      destruct order as [|order]; [lia|].
      rewrite map_map. cbn [nth_error].
      rewrite nth_error_map. unfold range. rewrite seq_nth_range by lia. cbn [option_map].
      replace (2 + order) with (S (S order)) by lia. f_equal.
      change (blocks_for (S (S order)) trunc
        (List.concat (map (fun o => map (block_of o) (generate_linked_disconnected_partitions_of_n so o)) (seq 2 (max_order + 1 - 2))))
        = map (path_of (S (S order))) (blocks_comps trunc (S (S order)) (generate_linked_disconnected_partitions_of_n so (S (S order))))).
      rewrite blocks_for_concat by (apply in_seq; lia).
      apply blocks_for_comps; [exact H1|lia|]. intros p Hp. apply linked_len in Hp; [tauto|lia].
  Qed.

  Theorem vecc_paths_aligned max_order order trunc :
    has_rank trunc 2 -> 4 <= order <= max_order -> max_order <= 6 ->
    exists cs : list (list nat),
      Forall (composition_of order) cs /\
      (do f <- generate_vecc_contributions so order false; run_contrib_fun trunc f)
        = Ok (map (fun c => mkAdd (Some (exp_denominator c)) (Einsum (ins_of order c) (out_of order) (map amp_name c))) cs) /\
      (do f <- generate_vecc_contributions so order true; run_contrib_fun trunc f)
        = Ok (map (fun c => mkAdd (Some (exp_denominator c)) (NextOpt (map amp_name c))) cs) /\
      exists ls, run_vecc_paths so max_order trunc = Ok ls /\
        nth_error ls (order - 1)
        = Some (map (fun c => mkPath (ins_of order c) (out_of order) (map amp_shape c)) cs).
  Proof.
    intros H2 Ho Hm.
    exists (blocks_comps trunc order (generate_un_linked_disconnected_partitions_of_n so order)).
    split; [|split; [|split]].
    - apply Forall_forall. intros c Hc. apply blocks_comps_comp in Hc; [exact Hc|lia|intros p; apply unlinked_len; lia].
    - rewrite vecc_ok by lia. cbn [bind run_contrib_fun].
      now rewrite run_contribs by (lia || (intros p; apply unlinked_len; lia)).
    - rewrite vecc_ok by lia. cbn [bind run_contrib_fun].
      now rewrite run_contribs by (lia || (intros p; apply unlinked_len; lia)).
    - unfold run_vecc_paths, optimized_vecc_paths. destruct (Nat.ltb_spec 6 max_order); [lia|].
      rewrite (mapM_ok _ (fun o => map (block_of o) (generate_un_linked_disconnected_partitions_of_n so o))).
      2:{ intros o Hor. apply in_range in Hor. apply path_blocks_ok; [lia|]. intros p; apply unlinked_len; lia. }
      cbn [bind fst snd]. unfold has_rank in H2. cbn [rank_name] in H2. rewrite H2.
      eexists. split; [reflexivity|]. unfold run_blocks.
      do 4 (destruct order as [|order]; [lia|]).
      replace (S (S (S (S order))) - 1) with (S (S (S order))) by lia.
      cbn [app map nth_error]. rewrite map_map.
      rewrite nth_error_map. unfold range. rewrite seq_nth_range by lia. cbn [option_map].
      replace (4 + order) with (S (S (S (S order)))) by lia. f_equal.
      change (blocks_for (S (S (S (S order)))) trunc
        (List.concat (map (fun o => map (block_of o) (generate_un_linked_disconnected_partitions_of_n so o)) (seq 4 (max_order + 1 - 4))))
        = map (path_of (S (S (S (S order))))) (blocks_comps trunc (S (S (S (S order)))) (generate_un_linked_disconnected_partitions_of_n so (S (S (S (S order))))))).
      rewrite blocks_for_concat by (apply in_seq; lia).
      apply blocks_for_comps2; [lia|]. intros p Hp. apply in_unlinked in Hp; [|exact Hso|lia].
      split; [tauto|]. eapply unlinked_max2; exact Hp.
  Qed.

  (** Without doubles there is nothing for the vecc helper to consume, which
      is what the early return of the paths function provides. *)
  Theorem vecc_no_doubles order trunc opt :
    level_truncation trunc -> ~ has_rank trunc 2 -> 4 <= order <= 6 ->
    (do f <- generate_vecc_contributions so order opt; run_contrib_fun trunc f) = Ok [].
  Proof.
    intros Hl H2 Ho. rewrite vecc_ok by lia. cbn [bind run_contrib_fun].
    rewrite run_contribs by (lia || (intros p; apply unlinked_len; lia)).
    rewrite (nil_of_empty (blocks_comps _ _ _)); [reflexivity|].
    intros c Hc. apply unlinked_blocks in Hc; [|exact Hl|lia]. destruct Hc as [Hc [Hu Ha]].
    unfold unlinked_shape, big_parts in Hu.
    destruct (filter (fun x => 1 <? x) c) as [|x xs] eqn:E; [cbn in Hu; lia|].
    assert (In x (filter (fun x => 1 <? x) c)) as Hx by (rewrite E; now left).
    apply filter_In in Hx as [Hx Hx']. apply Nat.ltb_lt in Hx'.
    unfold allowed in Ha. rewrite Forall_forall in Ha.
    destruct (comp_bounds order c Hc) as [_ Hb]; [lia|]. rewrite Forall_forall in Hb. specialize (Hb x Hx).
    apply H2. apply (level_down trunc x); auto; lia.
  Qed.
End W.

(** ** C09: the master function *)
Lemma master_result trunc max_order :
  has_rank trunc 1 -> ~ has_rank trunc 5 ->
  run_master trunc (defined_w_functions max_order) [] (write_master_w_compute_function max_order)
  = if Nat.leb (needed_order trunc) max_order then Ok (seq 1 (needed_order trunc)) else Err KeyErr.
Proof.
  unfold has_rank, needed_order, defined_w_functions. cbn [rank_name].
  intros H1 H5.
  assert (D : forall k, 1 <= k -> existsb (Nat.eqb k) (range 1 (max_order + 1)) = Nat.leb k max_order).
  { intros k Hk. destruct (Nat.leb_spec k max_order).
    - apply (existsb_eqb _ Nat.eqb_eq). apply in_range. lia.
    - apply not_true_iff_false. rewrite (existsb_eqb _ Nat.eqb_eq), in_range. lia. }
  unfold write_master_w_compute_function. cbn [run_master]. rewrite H1.
  rewrite !D by lia.
  destruct (trunc "quintuples"%string); [congruence|].
  do 6 (destruct max_order as [|max_order];
        [destruct (trunc "doubles"%string), (trunc "triples"%string), (trunc "quadruples"%string); reflexivity|]).
  destruct (trunc "doubles"%string), (trunc "triples"%string), (trunc "quadruples"%string); reflexivity.
Qed.

Lemma master_undefined_exactly trunc max_order :
  run_master trunc (defined_w_functions max_order) [] (write_master_w_compute_function max_order) = Err KeyErr
  <-> has_rank trunc 1 /\ max_order < needed_order trunc.
Proof.
  unfold has_rank, needed_order, defined_w_functions. cbn [rank_name].
  assert (D : forall k, 1 <= k -> existsb (Nat.eqb k) (range 1 (max_order + 1)) = Nat.leb k max_order).
  { intros k Hk. destruct (Nat.leb_spec k max_order).
    - apply (existsb_eqb _ Nat.eqb_eq). apply in_range. lia.
    - apply not_true_iff_false. rewrite (existsb_eqb _ Nat.eqb_eq), in_range. lia. }
  unfold write_master_w_compute_function. cbn [run_master]. rewrite !D by lia.
  do 6 (destruct max_order as [|max_order];
        [destruct (trunc "singles"%string), (trunc "doubles"%string), (trunc "triples"%string), (trunc "quadruples"%string), (trunc "quintuples"%string);
         cbn; (split; [intros E; first [discriminate E|split; [reflexivity|lia]]|intros [E L]; first [discriminate E|reflexivity|exfalso; lia]])|]).
  destruct (trunc "singles"%string), (trunc "doubles"%string), (trunc "triples"%string), (trunc "quadruples"%string), (trunc "quintuples"%string);
    cbn; (split; [intros E; first [discriminate E|split; [reflexivity|lia]]|intros [E L]; first [discriminate E|reflexivity|exfalso; lia]]).
Qed.

(** ** Statements in the form used by PropertiesW *)
Section Final.
  Variable so : list (list nat) -> list (list nat).
  Hypothesis Hso : set_order so.

  Lemma w_sum_vecc order opt trunc :
    level_truncation trunc -> 1 <= order <= 6 ->
    exists adds, run_w so order opt VECC trunc = Ok adds /\
      NoDup (map (fun a => operands (ad_call a)) adds) /\
      (forall ops, In ops (map (fun a => operands (ad_call a)) adds) <->
         exists c, composition_of order c /\ allowed trunc c /\ ops = map amp_name c) /\
      (forall a, In a adds -> exists c, composition_of order c /\
         operands (ad_call a) = map amp_name c /\ ad_den a = Some (exp_denominator c)).
  Proof.
    intros Hl Ho. destruct (w_sum_exact so Hso order opt VECC trunc Hl Ho) as [adds [H1 [H2 [H3 H4]]]].
    exists adds. split; [exact H1|]. split; [exact H2|]. split; [|exact H4].
    intros ops. rewrite H3. cbn [in_ansatz]. split; intros [c H]; exists c; tauto.
  Qed.

  Lemma w_sum_mixed order opt trunc :
    level_truncation trunc -> 1 <= order <= 6 ->
    exists adds, run_w so order opt VE_MIXED trunc = Ok adds /\
      NoDup (map (fun a => operands (ad_call a)) adds) /\
      (forall ops, In ops (map (fun a => operands (ad_call a)) adds) <->
         exists c, composition_of order c /\ big_parts c <= 1 /\ allowed trunc c /\ ops = map amp_name c) /\
      (forall a, In a adds -> exists c, composition_of order c /\
         operands (ad_call a) = map amp_name c /\ ad_den a = Some (exp_denominator c)).
  Proof. exact (w_sum_exact so Hso order opt VE_MIXED trunc). Qed.

  Lemma w_sum_veci order opt trunc :
    level_truncation trunc -> 1 <= order <= 6 ->
    exists adds, run_w so order opt VECI trunc = Ok adds /\
      map (fun a => operands (ad_call a)) adds
        = (if trunc (rank_name order) then [[amp_name order]] else []) /\
      (forall a, In a adds -> ad_den a = Some (fact_spec order)).
  Proof.
    intros Hl Ho. rewrite (run_w_ok so Hso) by exact Ho. cbn [w_comps]. unfold veci_comps.
    destruct (Nat.eqb_spec order 1) as [->|H1].
    - eexists. split; [reflexivity|]. assert (E : trunc (rank_name 1) = true) by exact (proj1 Hl).
      rewrite E. split; [reflexivity|]. intros a [<-|[]]. reflexivity.
    - destruct (trunc (rank_name order)) eqn:E; eexists; (split; [reflexivity|]).
      + split; [reflexivity|]. intros a [<-|[]]. cbn [ad_den add_of]. now rewrite exp_denominator_single.
      + split; [reflexivity|]. intros a [].
  Qed.

  Lemma w_no_order0 opt an trunc : run_w so 0 opt an trunc = Err GenericException.
  Proof. reflexivity. Qed.

  (** alignment, with the subscripts tied to the specification *)
  Definition aligned_call := (list nat * list string * string)%type.

  Lemma aligned_restate order (cs : list (list nat)) :
    1 <= order <= 6 -> Forall (composition_of order) cs ->
    exists l : list aligned_call,
      Forall (fun x => composition_of order (fst (fst x)) /\ matrix_chain (fst (fst x)) (snd (fst x)) (snd x)) l /\
      l = map (fun c => (c, ins_of order c, out_of order)) cs.
  Proof.
    intros Ho H. exists (map (fun c => (c, ins_of order c, out_of order)) cs). split; [|reflexivity].
    rewrite Forall_map. eapply Forall_impl; [|exact H]. cbn. intros c Hc. split; [exact Hc|].
    now apply ins_of_chain.
  Qed.

  Lemma vemx_aligned max_order order trunc :
    has_rank trunc 1 -> 2 <= order <= max_order -> max_order <= 6 ->
    exists l : list aligned_call,
      Forall (fun x => composition_of order (fst (fst x)) /\ matrix_chain (fst (fst x)) (snd (fst x)) (snd x)) l /\
      (do f <- generate_vemx_contributions so order false; run_contrib_fun trunc f)
        = Ok (map (fun x => mkAdd (Some (exp_denominator (fst (fst x))))
                                  (Einsum (snd (fst x)) (snd x) (map amp_name (fst (fst x))))) l) /\
      (do f <- generate_vemx_contributions so order true; run_contrib_fun trunc f)
        = Ok (map (fun x => mkAdd (Some (exp_denominator (fst (fst x))))
                                  (NextOpt (map amp_name (fst (fst x))))) l) /\
      exists ls, run_vemx_paths so max_order trunc = Ok ls /\
        nth_error ls (order - 1)
        = Some (map (fun x => mkPath (snd (fst x)) (snd x) (map amp_shape (fst (fst x)))) l).
  Proof.
    intros Hl Ho Hm. destruct (vemx_paths_aligned so Hso max_order order trunc Hl Ho Hm) as [cs [H1 [H2 [H3 [ls [H4 H5]]]]]].
    destruct (aligned_restate order cs) as [l [Hf ->]]; [lia|exact H1|].
    eexists. split; [exact Hf|]. rewrite !map_map. split; [exact H2|]. split; [exact H3|].
    exists ls. split; [exact H4|]. rewrite H5. rewrite ?map_map. reflexivity.
  Qed.

  Lemma vecc_aligned max_order order trunc :
    has_rank trunc 2 -> 4 <= order <= max_order -> max_order <= 6 ->
    exists l : list aligned_call,
      Forall (fun x => composition_of order (fst (fst x)) /\ matrix_chain (fst (fst x)) (snd (fst x)) (snd x)) l /\
      (do f <- generate_vecc_contributions so order false; run_contrib_fun trunc f)
        = Ok (map (fun x => mkAdd (Some (exp_denominator (fst (fst x))))
                                  (Einsum (snd (fst x)) (snd x) (map amp_name (fst (fst x))))) l) /\
      (do f <- generate_vecc_contributions so order true; run_contrib_fun trunc f)
        = Ok (map (fun x => mkAdd (Some (exp_denominator (fst (fst x))))
                                  (NextOpt (map amp_name (fst (fst x))))) l) /\
      exists ls, run_vecc_paths so max_order trunc = Ok ls /\
        nth_error ls (order - 1)
        = Some (map (fun x => mkPath (snd (fst x)) (snd x) (map amp_shape (fst (fst x)))) l).
  Proof.
    intros H2' Ho Hm. destruct (vecc_paths_aligned so Hso max_order order trunc H2' Ho Hm) as [cs [H1 [H2 [H3 [ls [H4 H5]]]]]].
    destruct (aligned_restate order cs) as [l [Hf ->]]; [lia|exact H1|].
    eexists. split; [exact Hf|]. rewrite !map_map. split; [exact H2|]. split; [exact H3|].
    exists ls. split; [exact H4|]. rewrite H5. rewrite ?map_map. reflexivity.
  Qed.

  (** The W function itself binds every amplitude up to its order. *)
  Lemma w_names_bound order opt f : 
    1 <= order -> write_w_function order opt = Ok f ->
    match f with
    | WFfirst names => names = map amp_name (seq 1 order) /\ In "t_i"%string names
    | WFgen names _ _ term _ => names = map amp_name (seq 1 order) /\ In term names
    end.
  Proof.
    intros Ho. unfold write_w_function. destruct (Nat.ltb_spec 6 order); [discriminate|].
    rewrite names_ok by lia. cbn [bind]. destruct (Nat.eqb_spec order 0); [lia|].
    unfold range. replace (order + 1 - 1) with order by lia.
    destruct (Nat.eqb_spec order 1) as [->|].
    - intros E. inversion E; subst. split; [reflexivity|]. now left.
    - rewrite tag_ok by lia. cbn [bind]. rewrite t_term_string_ok by lia. cbn [bind].
      intros E. inversion E; subst. split; [reflexivity|]. apply in_map. apply in_seq. lia.
  Qed.

  Lemma master_complete trunc :
    has_rank trunc 1 -> ~ has_rank trunc 5 ->
    exists k, 3 <= k <= 6 /\
      run_master trunc (defined_w_functions 6) [] (write_master_w_compute_function 6) = Ok (seq 1 k).
  Proof.
    intros H1 H5. rewrite master_result by assumption. exists (needed_order trunc).
    unfold needed_order.
    destruct (trunc "doubles"%string), (trunc "triples"%string), (trunc "quadruples"%string);
      cbn [negb]; split; lia || reflexivity.
  Qed.

  Lemma master_undefined trunc max_order :
    has_rank trunc 1 -> max_order < 3 ->
    run_master trunc (defined_w_functions max_order) [] (write_master_w_compute_function max_order) = Err KeyErr.
  Proof.
    intros H1 Hm. unfold has_rank in H1. cbn in H1. unfold write_master_w_compute_function. cbn [run_master].
    rewrite H1. do 3 (destruct max_order as [|max_order]; [reflexivity|]). lia.
  Qed.
End Final.

(** Every index the optimised master function uses exists. *)
Lemma vemx_paths_length so max_order trunc :
  set_order so -> 1 <= max_order <= 6 ->
  exists ls, run_vemx_paths so max_order trunc = Ok ls /\ List.length ls = max_order.
Proof.
  intros Hso Hm. unfold run_vemx_paths, optimized_vemx_paths. destruct (Nat.ltb_spec 6 max_order); [lia|].
  rewrite (mapM_ok _ (fun o => map (block_of so o) (generate_linked_disconnected_partitions_of_n so o))).
  2:{ intros o Hor. apply in_range in Hor. apply path_blocks_ok; [exact Hso|lia|]. intros p; apply linked_len; [exact Hso|lia]. }
  cbn [bind fst snd]. eexists. split; [reflexivity|]. unfold run_blocks.
  rewrite map_length. cbn [List.length]. rewrite map_length, length_range. lia.
Qed.

Lemma vecc_paths_length so max_order trunc :
  set_order so -> 1 <= max_order <= 6 ->
  exists ls, run_vecc_paths so max_order trunc = Ok ls /\ max_order <= List.length ls.
Proof.
  intros Hso Hm. unfold run_vecc_paths, optimized_vecc_paths. destruct (Nat.ltb_spec 6 max_order); [lia|].
  rewrite (mapM_ok _ (fun o => map (block_of so o) (generate_un_linked_disconnected_partitions_of_n so o))).
  2:{ intros o Hor. apply in_range in Hor. apply path_blocks_ok; [exact Hso|lia|]. intros p; apply unlinked_len; [exact Hso|lia]. }
  cbn [bind fst snd]. destruct (trunc _).
  - eexists. split; [reflexivity|]. unfold run_blocks.
    rewrite map_length, app_length, map_length, length_range. cbn [List.length]. lia.
  - eexists. split; [reflexivity|]. rewrite repeat_length. lia.
Qed.

Definition triples_not_doubles (s : string) : bool :=
  String.eqb s "singles" || String.eqb s "triples".

Lemma vecc_misaligned :
  exists trunc, has_rank trunc 1 /\
    (exists ls, run_vecc_paths (fun l => l) 6 trunc = Ok ls /\ nth_error ls 5 = Some []) /\
    exists a l, (do f <- generate_vecc_contributions (fun l => l) 6 true; run_contrib_fun trunc f) = Ok (a :: l).
Proof.
  exists triples_not_doubles. split; [reflexivity|]. split.
  - eexists. split; vm_compute; reflexivity.
  - do 2 eexists. vm_compute. reflexivity.
Qed.
