(** Proofs about the dt generator. *)
From Verif Require Import PyBase PyBaseFacts ModelHelper SpecPartitions ProofsHelper SpecW ModelW ProofsW SpecDt ModelDt.

Lemma dt_term_string_ok n : 1 <= n <= 8 -> dt_term_string n = Ok (dt_amp_name n).
Proof. intros H. do 9 (destruct n as [|n]; [solve [lia|reflexivity]|]). lia. Qed.

Lemma w_dict_ok n : 1 <= n <= 8 -> w_dict n = Ok (w_name n).
Proof. intros H. do 9 (destruct n as [|n]; [solve [lia|reflexivity]|]). lia. Qed.

Lemma w_text_ok order : order <= 6 -> ("w_" ++ sslice 0 order tag_str)%string = w_name order.
Proof. intros H. do 7 (destruct order as [|order]; [reflexivity|]). lia. Qed.

Lemma disconnected_operands_past i pos c :
  i < pos -> Forall (fun n => 1 <= n <= 8) c -> disconnected_operands i pos c = Ok (map amp_name c).
Proof.
  revert pos; induction c as [|n c IH]; intros pos Hi H; [reflexivity|].
  inversion H; subst. cbn [disconnected_operands map]. destruct (Nat.eqb_spec i pos); [lia|].
  rewrite t_term_string_ok by assumption. cbn [bind]. rewrite IH by (lia || assumption). reflexivity.
Qed.

Lemma disconnected_operands_ok i pos c :
  pos <= i -> i < pos + List.length c -> Forall (fun n => 1 <= n <= 8) c ->
  disconnected_operands i pos c = Ok (leibniz_term c (i - pos)).
Proof.
  revert pos; induction c as [|n c IH]; intros pos Hi Hl H; cbn [List.length] in Hl; [lia|].
  inversion H; subst. cbn [disconnected_operands]. destruct (Nat.eqb_spec i pos) as [->|Hne].
  - rewrite dt_term_string_ok by assumption. cbn [bind].
    rewrite disconnected_operands_past by (lia || assumption). rewrite Nat.sub_diag. reflexivity.
  - rewrite t_term_string_ok by assumption. cbn [bind]. rewrite IH by (lia || assumption).
    replace (i - pos) with (S (i - S pos)) by lia. reflexivity.
Qed.

Lemma dt_amp_not_amp n m : dt_amp_name n <> amp_name m.
Proof. unfold dt_amp_name, amp_name. intros H. discriminate H. Qed.

Lemma leibniz_head0 n c : leibniz_term (n :: c) 0 = dt_amp_name n :: map amp_name c.
Proof. reflexivity. Qed.
Lemma leibniz_headS n c i : leibniz_term (n :: c) (S i) = amp_name n :: leibniz_term c i.
Proof. reflexivity. Qed.

Lemma cons_inj {A} (d x y : A) (l l' : list A) : x :: l = y :: l' -> x = y /\ l = l'.
Proof. intros E. split; [exact (f_equal (hd d) E)|exact (f_equal (@tl _) E)]. Qed.

Lemma leibniz_inj c c' i i' :
  Forall (fun n => 1 <= n <= 8) c -> Forall (fun n => 1 <= n <= 8) c' ->
  i < List.length c -> i' < List.length c' ->
  leibniz_term c i = leibniz_term c' i' -> c = c' /\ i = i'.
Proof.
  revert c' i i'; induction c as [|n c IH]; intros [|m c'] i i' H H' Hi Hi' E; cbn [List.length] in *; try lia.
  inversion H; inversion H'; subst.
  destruct i as [|i], i' as [|i']; rewrite ?leibniz_head0, ?leibniz_headS in E; apply (cons_inj EmptyString) in E as [E1 E2].
  - split; [|reflexivity]. apply map_amp_inj in E2; [|assumption|assumption]. subst c'. f_equal.
    apply amp_name_inj; [assumption|assumption|].
    unfold dt_amp_name in E1. exact (f_equal (fun s => match s with String _ r => r | EmptyString => EmptyString end) E1).
  - exfalso. exact (dt_amp_not_amp n m E1).
  - exfalso. symmetry in E1. exact (dt_amp_not_amp m n E1).
  - apply IH in E2; [|assumption|assumption|lia|lia]. destruct E2 as [-> ->]. split; [|reflexivity].
    f_equal. apply amp_name_inj; auto.
Qed.

Definition kind_of (an : ansatz) : ansatz_kind :=
  match an with VECI => Kind_CI | VE_MIXED => Kind_mixed | VECC => Kind_CC end.

Section Dt.
  Variable so : list (list nat) -> list (list nat).
  Hypothesis Hso : set_order so.

  Definition positions (c : list nat) : list (list nat * nat) := map (pair c) (range 0 (List.length c)).
  Definition dt_pairs (ps : list (list nat)) : list (list nat * nat) :=
    flat_map (fun p => flat_map positions (unique_permutations so p)) ps.

  Definition dt_call (opt : bool) (order : nat) (x : list nat * nat) : expr :=
    if opt then NextOpt (leibniz_term (fst x) (snd x))
    else Einsum (ins_of order (fst x)) (out_of order) (leibniz_term (fst x) (snd x)).

  Lemma comp_small order c : 1 <= order <= 6 -> composition_of order c -> Forall (fun n => 1 <= n <= 8) c.
  Proof.
    intros Ho Hc. destruct (comp_bounds order c Hc) as [_ Hb]; [lia|].
    eapply Forall_impl; [|exact Hb]. cbn. lia.
  Qed.

  Lemma here_ok {B} (g : list string -> B) order c k :
    1 <= order <= 6 -> composition_of order c -> List.length c = k ->
    mapM (fun i => do args <- disconnected_operands i 0 c; Ok (g args)) (range 0 k)
    = Ok (map (fun x => g (leibniz_term (fst x) (snd x))) (positions c)).
  Proof.
    intros Ho Hc <-. unfold positions. rewrite map_map. cbn [fst snd].
    apply mapM_ok. intros i Hi. apply in_range in Hi.
    rewrite disconnected_operands_ok; [|lia|lia|now apply (comp_small order)].
    cbn [bind]. now rewrite Nat.sub_0_r.
  Qed.

  Lemma zip_dt_calls_ok order k cs :
    1 <= order <= 6 -> (forall c, In c cs -> composition_of order c /\ List.length c = k) ->
    zip_dt_calls k (pair_strings ("a" :: inner_states k ++ ["b"])%char) (out_of order) cs
              (map (fun c => map string_of (groups_of (firstn order mode_letters) c)) cs)
    = Ok (map (dt_call false order) (flat_map positions cs)).
  Proof.
    intros Ho. induction cs as [|c cs IH]; intros H; [reflexivity|]. cbn [zip_dt_calls map flat_map].
    destruct (H c) as [Hc Hk]; [now left|].
    replace (inner_states k) with (inner_states (List.length c)) by now rewrite Hk.
    rewrite zip_append_ok by assumption. cbn [bind].
    rewrite (here_ok _ order) by assumption. cbn [bind]. rewrite Hk.
    rewrite IH by (intros c' Hc'; apply H; now right). cbn [bind]. rewrite map_app. do 2 f_equal.
    unfold positions. rewrite !map_map. reflexivity.
  Qed.

  Lemma zip_dt_paths_ok order k cs :
    1 <= order <= 6 -> (forall c, In c cs -> composition_of order c /\ List.length c = k) ->
    zip_dt_paths k (pair_strings ("a" :: inner_states k ++ ["b"])%char) (out_of order) cs
              (map (fun c => map string_of (groups_of (firstn order mode_letters) c)) cs)
    = Ok (map (fun x => path_of order (fst x)) (flat_map positions cs)).
  Proof.
    intros Ho. induction cs as [|c cs IH]; intros H; [reflexivity|]. cbn [zip_dt_paths map flat_map].
    destruct (H c) as [Hc Hk]; [now left|].
    replace (inner_states k) with (inner_states (List.length c)) by now rewrite Hk.
    rewrite zip_append_ok by assumption. cbn [bind]. rewrite Hk.
    rewrite IH by (intros c' Hc'; apply H; now right). cbn [bind]. rewrite map_app. do 2 f_equal.
    unfold positions. rewrite Hk, map_map. apply map_ext. intros i. unfold path_of. cbn [fst]. f_equal.
    apply map_ext, shape_ok.
  Qed.

  Lemma calls_ok order p : 1 <= order <= 6 -> partition_of order p ->
    disconnected_calls so p order = Ok (map (dt_call false order) (flat_map positions (unique_permutations so p))).
  Proof.
    intros Ho Hp. destruct (partition_bounds order p) as [Hl _]; [lia|exact Hp|].
    unfold disconnected_calls. rewrite surface_ok by lia. cbn [bind].
    rewrite mode_index_ok by assumption. cbn [bind]. rewrite out_dims_ok by lia.
    apply zip_dt_calls_ok; [exact Ho|]. intros c. now apply perms_of_partition.
  Qed.

  Lemma opt_calls_ok order p : 1 <= order <= 6 -> partition_of order p ->
    optimized_disconnected_calls so p = Ok (map (dt_call true order) (flat_map positions (unique_permutations so p))).
  Proof.
    intros Ho Hp. unfold optimized_disconnected_calls.
    rewrite (mapM_ok _ (fun c => map (dt_call true order) (positions c))).
    - cbn [bind]. f_equal. rewrite flat_map_concat_map, concat_map, map_map. reflexivity.
    - intros c Hc. destruct (perms_of_partition so Hso order p c Hp Hc) as [Hcc Hk].
      rewrite (here_ok _ order) by assumption. f_equal.
  Qed.

  Definition dt_contrib_of (order : nat) (opt : bool) (p : list nat) : dt_contrib :=
    {| dc_partition := p; dc_pref := generate_w_operator_prefactor p;
       dc_calls := map (dt_call opt order) (flat_map positions (unique_permutations so p)) |}.

  Lemma generate_dt_contrib_ok order opt p : 1 <= order <= 6 -> partition_of order p ->
    generate_dt_contrib so order opt p = Ok (dt_contrib_of order opt p).
  Proof.
    intros Ho Hp. unfold generate_dt_contrib. destruct opt.
    - rewrite (opt_calls_ok order) by assumption. reflexivity.
    - rewrite calls_ok by assumption. reflexivity.
  Qed.

  Lemma dt_names_ok a b : 1 <= a -> b <= 9 -> mapM dt_term_string (range a b) = Ok (map dt_amp_name (range a b)).
  Proof. intros Ha Hb. apply mapM_ok. intros n Hn. apply in_range in Hn. apply dt_term_string_ok. lia. Qed.

  Lemma linked_ok order opt : 2 <= order <= 6 ->
    write_linked_disconnected so order opt
    = Ok (DFbody (map amp_name (range 1 order)) (map dt_amp_name (range 1 order))
                 (map (dt_contrib_of order opt) (generate_linked_disconnected_partitions_of_n so order))).
  Proof.
    intros Ho. unfold write_linked_disconnected.
    destruct (Nat.ltb_spec 6 order); [lia|]. rewrite names_ok by lia. cbn [bind].
    rewrite dt_names_ok by lia. cbn [bind].
    destruct (Nat.ltb_spec order 2); [lia|].
    rewrite (mapM_ok _ (dt_contrib_of order opt)); [reflexivity|].
    intros p Hp. apply in_linked in Hp; [|exact Hso|lia]. apply generate_dt_contrib_ok; [lia|tauto].
  Qed.

  Lemma unlinked_ok order opt : 4 <= order <= 6 ->
    write_un_linked_disconnected so order opt
    = Ok (DFbody (map amp_name (range 1 order)) (map dt_amp_name (range 1 order))
                 (map (dt_contrib_of order opt) (generate_un_linked_disconnected_partitions_of_n so order))).
  Proof.
    intros Ho. unfold write_un_linked_disconnected.
    destruct (Nat.ltb_spec 6 order); [lia|]. rewrite names_ok by lia. cbn [bind].
    rewrite dt_names_ok by lia. cbn [bind].
    destruct (Nat.ltb_spec order 4); [lia|].
    rewrite (mapM_ok _ (dt_contrib_of order opt)); [reflexivity|].
    intros p Hp. apply in_unlinked in Hp; [|exact Hso|lia]. apply generate_dt_contrib_ok; [lia|tauto].
  Qed.

  Definition dt_add (opt : bool) (order : nat) (x : list nat * nat) : addend :=
    mkAdd (Some (exp_denominator (fst x))) (dt_call opt order x).

  Lemma in_positions x c : In x (positions c) <-> fst x = c /\ snd x < List.length c.
  Proof.
    unfold positions. rewrite in_map_iff. split.
    - intros [i [<- Hi]]. apply in_range in Hi. cbn. split; [reflexivity|lia].
    - intros [<- Hi]. exists (snd x). split; [now destruct x|]. apply in_range. lia.
  Qed.

  Lemma run_dt_contribs order opt ps :
    1 <= order <= 6 -> (forall p, In p ps -> partition_of order p /\ 2 <= List.length p) ->
    flat_map run_dt_contrib (map (dt_contrib_of order opt) ps) = map (dt_add opt order) (dt_pairs ps).
  Proof.
    intros Ho. unfold dt_pairs. induction ps as [|p ps IH]; intros H; [reflexivity|].
    cbn [map flat_map]. rewrite IH by (intros; apply H; now right). rewrite map_app. f_equal.
    unfold run_dt_contrib. destruct (H p) as [Hp Hlen]; [now left|].
    cbn [dc_pref dc_calls dt_contrib_of]. rewrite map_map. apply map_ext_in. intros x Hx.
    unfold dt_add. f_equal. apply in_flat_map in Hx as [c [Hc Hx]]. apply in_positions in Hx as [-> _].
    rewrite prefactor_ok.
    - f_equal. apply exp_denominator_perm. symmetry. apply in_unique_permutations in Hc; [exact Hc|exact Hso].
    - destruct p; [cbn in Hlen; lia|discriminate].
    - destruct p as [|y [|z zs]]; cbn in Hlen; try lia. discriminate.
    - apply Hp.
  Qed.

  Lemma in_dt_pairs ps x :
    In x (dt_pairs ps) <-> (exists p, In p ps /\ Permutation (fst x) p) /\ snd x < List.length (fst x).
  Proof.
    unfold dt_pairs. rewrite in_flat_map. split.
    - intros [p [Hp Hx]]. apply in_flat_map in Hx as [c [Hc Hx]]. apply in_positions in Hx as [-> Hi].
      apply in_unique_permutations in Hc; [|exact Hso]. split; [exists p; auto|exact Hi].
    - intros [[p [Hp P]] Hi]. exists p. split; [exact Hp|]. apply in_flat_map. exists (fst x).
      split; [apply in_unique_permutations; assumption|]. apply in_positions. auto.
  Qed.

  Lemma nodup_dt_pairs order ps :
    NoDup ps -> (forall p, In p ps -> partition_of order p) -> NoDup (dt_pairs ps).
  Proof.
    intros Hnd Hps. unfold dt_pairs. apply NoDup_flat_map; [exact Hnd| |].
    - intros p _. apply NoDup_flat_map; [now apply nodup_unique_permutations| |].
      + intros c _. unfold positions. apply NoDup_map_inj; [apply seq_NoDup|]. intros i j _ _ E. congruence.
      + intros c c' x _ _ H1 H2. apply in_positions in H1, H2. destruct H1, H2. congruence.
    - intros p q x Hp Hq H1 H2.
      apply in_flat_map in H1 as [c [Hc H1]]. apply in_flat_map in H2 as [c' [Hc' H2]].
      apply in_positions in H1, H2. destruct H1 as [<- _], H2 as [<- _].
      apply in_unique_permutations in Hc, Hc'; try exact Hso.
      apply (partition_perm_eq order); auto. now rewrite <- Hc, Hc'.
  Qed.

  Lemma in_linked_pairs order x : 1 <= order ->
    (In x (dt_pairs (generate_linked_disconnected_partitions_of_n so order)) <->
     composition_of order (fst x) /\ linked_shape (fst x) /\ snd x < List.length (fst x)).
  Proof.
    intros Ho. rewrite in_dt_pairs. split.
    - intros [[p [Hp P]] Hi]. apply in_linked in Hp; [|exact Hso|lia]. destruct Hp as [Hp [Hp1 Hp2]].
      split; [eapply perm_comp; eauto|]. split; [|exact Hi].
      split; [rewrite (Permutation_length P); exact Hp1|rewrite (big_parts_perm _ _ P); exact Hp2].
    - intros [Hc [[H1 H2] Hi]]. split; [|exact Hi]. destruct (comp_sorted order (fst x) Hc) as [Hp P].
      exists (sorted_part (fst x)). split; [|exact P]. apply in_linked; [exact Hso|lia|]. split; [exact Hp|].
      split; [rewrite <- (Permutation_length P); exact H1|rewrite <- (big_parts_perm _ _ P); exact H2].
  Qed.

  Lemma in_unlinked_pairs order x : 1 <= order ->
    (In x (dt_pairs (generate_un_linked_disconnected_partitions_of_n so order)) <->
     composition_of order (fst x) /\ unlinked_shape (fst x) /\ snd x < List.length (fst x)).
  Proof.
    intros Ho. rewrite in_dt_pairs. unfold unlinked_shape. split.
    - intros [[p [Hp P]] Hi]. apply in_unlinked in Hp; [|exact Hso|lia]. destruct Hp as [Hp Hp1].
      split; [eapply perm_comp; eauto|]. split; [|exact Hi]. rewrite (big_parts_perm _ _ P). exact Hp1.
    - intros [Hc [H1 Hi]]. split; [|exact Hi]. destruct (comp_sorted order (fst x) Hc) as [Hp P].
      exists (sorted_part (fst x)). split; [|exact P]. apply in_unlinked; [exact Hso|lia|]. split; [exact Hp|].
      unfold unlinked_shape. rewrite <- (big_parts_perm _ _ P). exact H1.
  Qed.

  Lemma operands_dt opt order x : operands (ad_call (dt_add opt order x)) = leibniz_term (fst x) (snd x).
  Proof. unfold dt_add, dt_call. destruct opt; reflexivity. Qed.

  (** A list of additions that is exactly the Leibniz expansion of the
      products [P]. *)
  Lemma leibniz_exact order opt (l : list (list nat * nat)) (P : list nat -> Prop) :
    1 <= order <= 6 -> NoDup l ->
    (forall x, In x l <-> composition_of order (fst x) /\ P (fst x) /\ snd x < List.length (fst x)) ->
    NoDup (map (fun a => operands (ad_call a)) (map (dt_add opt order) l)) /\
    (forall ops, In ops (map (fun a => operands (ad_call a)) (map (dt_add opt order) l)) <->
       exists c i, composition_of order c /\ P c /\ i < List.length c /\ ops = leibniz_term c i) /\
    (forall a, In a (map (dt_add opt order) l) ->
       exists c i, composition_of order c /\ i < List.length c /\ operands (ad_call a) = leibniz_term c i /\
                   ad_den a = Some (exp_denominator c) /\
                   (opt = false -> exists ins out, ad_call a = Einsum ins out (leibniz_term c i) /\
                                                   matrix_chain c ins out)).
  Proof.
    intros Ho Hnd Hin. rewrite map_map. split; [|split].
    - apply NoDup_map_inj; [exact Hnd|]. intros x y Hx Hy E. rewrite !operands_dt in E.
      apply Hin in Hx, Hy. destruct Hx as [Hx [_ Hxi]], Hy as [Hy [_ Hyi]].
      apply leibniz_inj in E; [|now apply (comp_small order)|now apply (comp_small order)|exact Hxi|exact Hyi].
      destruct x, y. cbn in E. destruct E as [-> ->]. reflexivity.
    - intros ops. rewrite in_map_iff. split.
      + intros [x [<- Hx]]. apply Hin in Hx. exists (fst x), (snd x). rewrite operands_dt. tauto.
      + intros [c [i [Hc [HP [Hi ->]]]]]. exists (c, i). rewrite operands_dt. split; [reflexivity|].
        apply Hin. cbn. auto.
    - intros a Ha. apply in_map_iff in Ha as [x [<- Hx]]. apply Hin in Hx. destruct Hx as [Hc [HP Hi]].
      exists (fst x), (snd x). rewrite operands_dt. split; [exact Hc|]. split; [exact Hi|].
      split; [reflexivity|]. split; [reflexivity|]. intros ->. unfold dt_add, dt_call. cbn [ad_call].
      do 2 eexists. split; [reflexivity|]. apply ins_of_chain; assumption.
  Qed.

  Lemma linked_run order opt : 2 <= order <= 6 ->
    (do f <- write_linked_disconnected so order opt; run_dt_fun f)
    = Ok (map (dt_add opt order) (dt_pairs (generate_linked_disconnected_partitions_of_n so order))).
  Proof.
    intros Ho. rewrite linked_ok by lia. cbn [bind run_dt_fun].
    rewrite run_dt_contribs; [reflexivity|lia|intros p; apply linked_len; [exact Hso|lia]].
  Qed.

  Lemma unlinked_run order opt : 4 <= order <= 6 ->
    (do f <- write_un_linked_disconnected so order opt; run_dt_fun f)
    = Ok (map (dt_add opt order) (dt_pairs (generate_un_linked_disconnected_partitions_of_n so order))).
  Proof.
    intros Ho. rewrite unlinked_ok by lia. cbn [bind run_dt_fun].
    rewrite run_dt_contribs; [reflexivity|lia|intros p; apply unlinked_len; [exact Hso|lia]].
  Qed.

  Lemma nodup_linked_pairs order : 1 <= order -> NoDup (dt_pairs (generate_linked_disconnected_partitions_of_n so order)).
  Proof.
    intros Ho. apply (nodup_dt_pairs order); [now apply nodup_linked|]. intros p Hp.
    apply (linked_len so Hso) in Hp; tauto.
  Qed.
  Lemma nodup_unlinked_pairs order : 1 <= order -> NoDup (dt_pairs (generate_un_linked_disconnected_partitions_of_n so order)).
  Proof.
    intros Ho. apply (nodup_dt_pairs order); [now apply nodup_unlinked|]. intros p Hp.
    apply (unlinked_len so Hso) in Hp; tauto.
  Qed.

  Theorem linked_leibniz order opt : 2 <= order <= 6 ->
    exists adds, (do f <- write_linked_disconnected so order opt; run_dt_fun f) = Ok adds /\
      NoDup (map (fun a => operands (ad_call a)) adds) /\
      (forall ops, In ops (map (fun a => operands (ad_call a)) adds) <->
         exists c i, composition_of order c /\ linked_shape c /\ i < List.length c /\ ops = leibniz_term c i) /\
      (forall a, In a adds ->
         exists c i, composition_of order c /\ i < List.length c /\ operands (ad_call a) = leibniz_term c i /\
                     ad_den a = Some (exp_denominator c) /\
                     (opt = false -> exists ins out, ad_call a = Einsum ins out (leibniz_term c i) /\
                                                     matrix_chain c ins out)).
  Proof.
    intros Ho. eexists. split; [now apply linked_run|].
    apply leibniz_exact; [lia|apply nodup_linked_pairs; lia|]. intros x. apply in_linked_pairs. lia.
  Qed.

  Theorem unlinked_leibniz order opt : 4 <= order <= 6 ->
    exists adds, (do f <- write_un_linked_disconnected so order opt; run_dt_fun f) = Ok adds /\
      NoDup (map (fun a => operands (ad_call a)) adds) /\
      (forall ops, In ops (map (fun a => operands (ad_call a)) adds) <->
         exists c i, composition_of order c /\ unlinked_shape c /\ i < List.length c /\ ops = leibniz_term c i) /\
      (forall a, In a adds ->
         exists c i, composition_of order c /\ i < List.length c /\ operands (ad_call a) = leibniz_term c i /\
                     ad_den a = Some (exp_denominator c) /\
                     (opt = false -> exists ins out, ad_call a = Einsum ins out (leibniz_term c i) /\
                                                     matrix_chain c ins out)).
  Proof.
    intros Ho. eexists. split; [now apply unlinked_run|].
    apply leibniz_exact; [lia|apply nodup_unlinked_pairs; lia|]. intros x. apply in_unlinked_pairs. lia.
  Qed.

  (** ** The whole amplitude function *)
  Definition ansatz_pairs (an : ansatz) (order : nat) : list (list nat * nat) :=
    match an with
    | VECI => []
    | VE_MIXED => dt_pairs (generate_linked_disconnected_partitions_of_n so order)
    | VECC => dt_pairs (generate_linked_disconnected_partitions_of_n so order)
              ++ dt_pairs (generate_un_linked_disconnected_partitions_of_n so order)
    end.

  Definition eps_call (opt : bool) (order : nat) : expr :=
    let ms := string_of (firstn order mode_letters) in
    if opt then NextOpt [w_name order; "epsilon"%string]
    else Einsum [String "a" (String "c" ms); "cb"%string] (String "a" (String "b" ms)) [w_name order; "epsilon"%string].

  Definition amp_fun_of (order : nat) : dt_amp_fun :=
    let ms := string_of (firstn order mode_letters) in
    {| da_unpack := map w_name (range 1 (order + 1)); da_residual := order; da_eps_fact := order;
       da_eps_ins := [String "a" (String "c" ms); "cb"%string];
       da_eps_out := String "a" (String "b" ms);
       da_eps_args := [w_name order; "epsilon"%string];
       da_calls_linked := negb (Nat.ltb order 2);
       da_calls_unlinked := negb (Nat.ltb order 2) && negb (Nat.ltb order 4) |}.

  Lemma tag_slice order : order <= 6 -> sslice 0 order tag_str = string_of (firstn order mode_letters).
  Proof. intros H. do 7 (destruct order as [|order]; [reflexivity|]). lia. Qed.

  Lemma write_dt_amplitude_ok order opt : 1 <= order <= 6 -> write_dt_amplitude order opt = Ok (amp_fun_of order).
  Proof.
    intros Ho. unfold write_dt_amplitude. destruct (Nat.ltb_spec 6 order); [lia|].
    rewrite (mapM_ok _ w_name) by (intros n Hn; apply in_range in Hn; apply w_dict_ok; lia).
    cbn [bind]. unfold amp_fun_of. rewrite tag_slice by lia. reflexivity.
  Qed.

  Lemma run_dt_amplitude_ok order opt an : 1 <= order <= 6 ->
    run_dt_amplitude so order opt an
    = Ok (mkDtValue order (mkAdd (Some (fact_spec order)) (eps_call opt order)
                           :: map (dt_add opt order) (ansatz_pairs an order))).
  Proof.
    intros Ho. unfold run_dt_amplitude. rewrite write_dt_amplitude_ok by exact Ho. cbn [bind].
    cbn [amp_fun_of da_eps_fact da_eps_args da_eps_ins da_eps_out da_calls_linked da_calls_unlinked da_residual].
    rewrite factorial_spec.
    assert (E1 : (if negb (order <? 2) then do g <- write_linked_disconnected so order opt; run_dt_fun g else Ok [])
                 = Ok (map (dt_add opt order) (dt_pairs (generate_linked_disconnected_partitions_of_n so order)))).
    { destruct (Nat.ltb_spec order 2); cbn [negb]; [|apply linked_run; lia].
      assert (order = 1) as -> by lia.
      rewrite (nil_of_empty (generate_linked_disconnected_partitions_of_n so 1)); [reflexivity|].
      now apply not_linked_1. }
    assert (E2 : (if negb (order <? 2) && negb (order <? 4)
                  then do g <- write_un_linked_disconnected so order opt; run_dt_fun g else Ok [])
                 = Ok (map (dt_add opt order) (dt_pairs (generate_un_linked_disconnected_partitions_of_n so order)))).
    { destruct (Nat.ltb_spec order 4).
      - rewrite andb_false_r.
        rewrite (nil_of_empty (generate_un_linked_disconnected_partitions_of_n so order)); [reflexivity|].
        intros p Hp. apply (not_unlinked_small so Hso order p); [lia|exact Hp].
      - destruct (Nat.ltb_spec order 2); [lia|]. cbn [negb andb]. apply unlinked_run. lia. }
    destruct an; cbn [ansatz_pairs].
    - cbn [bind]. destruct opt; reflexivity.
    - rewrite E1. cbn [bind]. rewrite app_nil_r. destruct opt; reflexivity.
    - rewrite E1. cbn [bind]. rewrite E2. cbn [bind]. rewrite map_app. destruct opt; reflexivity.
  Qed.

  Lemma in_ansatz_pairs an order x : 1 <= order ->
    (In x (ansatz_pairs an order) <->
     composition_of order (fst x) /\ disconnected_in (kind_of an) (fst x) /\ snd x < List.length (fst x)).
  Proof.
    intros Ho. unfold disconnected_in. destruct an; cbn [ansatz_pairs kind_of].
    - cbn. tauto.
    - rewrite in_linked_pairs by lia. unfold linked_shape. tauto.
    - rewrite in_app_iff, in_linked_pairs, in_unlinked_pairs by lia. split.
      + unfold linked_shape, unlinked_shape. intros [[H1 [[H2 _] H3]]|[H1 [H2 H3]]]; [tauto|].
        pose proof (big_parts_le_length (fst x)). split; [exact H1|]. split; [split; [lia|exact I]|exact H3].
      + intros [Hc [[Hl _] Hi]]. unfold linked_shape, unlinked_shape.
        destruct (le_lt_dec 2 (big_parts (fst x))); [right; tauto|left].
        split; [exact Hc|]. split; [split; [exact Hl|lia]|exact Hi].
  Qed.

  Lemma nodup_ansatz_pairs an order : 1 <= order -> NoDup (ansatz_pairs an order).
  Proof.
    intros Ho. destruct an; cbn [ansatz_pairs]; [constructor|now apply nodup_linked_pairs|].
    apply NoDup_app_intro; [now apply nodup_linked_pairs|now apply nodup_unlinked_pairs|].
    intros x. rewrite in_linked_pairs, in_unlinked_pairs by lia. unfold linked_shape, unlinked_shape. lia.
  Qed.

  Theorem dt_amplitude_exact order opt an : 1 <= order <= 6 ->
    exists eps rest,
      run_dt_amplitude so order opt an = Ok (mkDtValue order (eps :: rest)) /\
      ad_den eps = Some (fact_spec order) /\
      operands (ad_call eps) = [w_name order; "epsilon"%string] /\
      (opt = false -> matrix_chain [order; 0]
          (match ad_call eps with Einsum ins _ _ => ins | NextOpt _ => [] end)
          (match ad_call eps with Einsum _ out _ => out | NextOpt _ => ""%string end)) /\
      NoDup (map (fun a => operands (ad_call a)) rest) /\
      (forall ops, In ops (map (fun a => operands (ad_call a)) rest) <->
         exists c i, composition_of order c /\ disconnected_in (kind_of an) c /\ i < List.length c /\ ops = leibniz_term c i) /\
      (forall a, In a rest ->
         exists c i, composition_of order c /\ i < List.length c /\ operands (ad_call a) = leibniz_term c i /\
                     ad_den a = Some (exp_denominator c) /\
                     (opt = false -> exists ins out, ad_call a = Einsum ins out (leibniz_term c i) /\
                                                     matrix_chain c ins out)).
  Proof.
    intros Ho. do 2 eexists. split; [now apply run_dt_amplitude_ok|]. split; [reflexivity|].
    split; [destruct opt; reflexivity|]. split.
    - intros ->. exists ["c"%char], [firstn order mode_letters; []]. cbv zeta. cbn [List.concat].
      rewrite !app_nil_r. split; [exact (sub_nodup order 2 (proj2 Ho) ltac:(lia))|].
      split; [cbn [map]; rewrite firstn_length; cbn [List.length mode_letters]; f_equal; lia|].
      split; reflexivity.
    - apply leibniz_exact; [lia|apply nodup_ansatz_pairs; lia|]. intros x. apply in_ansatz_pairs. lia.
  Qed.

  (** Names *)
  Lemma in_leibniz c i x : In x (leibniz_term c i) -> exists n, In n c /\ (x = amp_name n \/ x = dt_amp_name n).
  Proof.
    unfold leibniz_term. rewrite !in_app_iff, !in_map_iff. intros [[n [<- H]]|[[n [<- H]]|[n [<- H]]]].
    - exists n. split; [|now left]. rewrite <- (firstn_skipn i c). apply in_app_iff. now left.
    - exists n. split; [|now right].
      assert (In n (skipn i c)) as H' by (rewrite <- (firstn_skipn 1 (skipn i c)); apply in_app_iff; now left).
      rewrite <- (firstn_skipn i c). apply in_app_iff. now right.
    - exists n. split; [|now left]. rewrite <- (firstn_skipn (S i) c). apply in_app_iff. now right.
  Qed.

  Lemma disc_part_lt order c n : 1 <= order -> composition_of order c -> 2 <= List.length c -> In n c -> 1 <= n < order.
  Proof.
    intros Ho [Hpos Hsum] Hl Hn. apply in_split in Hn as [l1 [l2 ->]].
    rewrite Forall_forall in Hpos.
    assert (1 <= n) by (apply Hpos, in_elt). split; [assumption|].
    rewrite fold_right_app in Hsum. cbn [fold_right] in Hsum.
    assert (G : forall l a, a <= fold_right Nat.add a l) by (induction l; cbn; intros; [lia|specialize (IHl a0); lia]).
    assert (G1 : forall l a, (forall x, In x l -> 1 <= x) -> l <> [] -> a < fold_right Nat.add a l).
    { intros [|x xs] a H1 H2; [congruence|]. cbn. specialize (H1 x (or_introl eq_refl)). specialize (G xs a). lia. }
    rewrite app_length in Hl. cbn [List.length] in Hl.
    destruct l1 as [|y l1].
    - cbn in Hsum. destruct l2 as [|z l2]; [cbn in Hl; lia|].
      assert (0 < fold_right Nat.add 0 (z :: l2)) by (apply G1; [intros x Hx; apply Hpos; right; exact Hx|discriminate]). lia.
    - assert (n + fold_right Nat.add 0 l2 < fold_right Nat.add (n + fold_right Nat.add 0 l2) (y :: l1)).
      { apply G1; [|discriminate]. intros x Hx. apply Hpos. apply in_app_iff. now left. }
      lia.
  Qed.

  Definition dt_bound (f : dt_fun) : list string :=
    match f with DFraise => [] | DFbody t d _ => t ++ d end.

  Theorem dt_names_bound (un : bool) order opt f adds :
    1 <= order ->
    (if un then write_un_linked_disconnected so order opt else write_linked_disconnected so order opt) = Ok f ->
    run_dt_fun f = Ok adds ->
    (exists cs, f = DFbody (map amp_name (range 1 order)) (map dt_amp_name (range 1 order)) cs) /\
    forall a x, In a adds -> In x (operands (ad_call a)) ->
      exists n, 1 <= n < order /\ (x = amp_name n \/ x = dt_amp_name n).
  Proof.
    intros Ho Hf Hr.
    destruct (le_lt_dec order 6) as [H6|H6].
    2:{ unfold write_un_linked_disconnected, write_linked_disconnected in Hf.
        destruct un; destruct (Nat.ltb_spec 6 order); (discriminate || lia). }
    destruct un.
    - destruct (le_lt_dec 4 order) as [H2|H2].
      2:{ unfold write_un_linked_disconnected in Hf. destruct (Nat.ltb_spec 6 order); [lia|].
          rewrite names_ok in Hf by lia. cbn [bind] in Hf. rewrite dt_names_ok in Hf by lia. cbn [bind] in Hf.
          destruct (Nat.ltb_spec order 4); [|lia]. inversion Hf; subst. discriminate. }
      assert (E := unlinked_run order opt (conj H2 H6)). rewrite Hf in E. cbn [bind] in E. rewrite Hr in E.
      inversion E; subst adds. rewrite unlinked_ok in Hf by lia. inversion Hf; subst f. split; [eauto|].
      intros a x Ha Hx. apply in_map_iff in Ha as [y [<- Hy]]. rewrite operands_dt in Hx.
      apply in_leibniz in Hx as [n [Hn Hx]]. exists n. split; [|exact Hx].
      apply in_unlinked_pairs in Hy; [|lia]. destruct Hy as [Hc [Hs _]]. unfold unlinked_shape in Hs.
      pose proof (big_parts_le_length (fst y)). apply (disc_part_lt order (fst y)); [lia|exact Hc|lia|exact Hn].
    - destruct (le_lt_dec 2 order) as [H2|H2].
      2:{ unfold write_linked_disconnected in Hf. destruct (Nat.ltb_spec 6 order); [lia|].
          rewrite names_ok in Hf by lia. cbn [bind] in Hf. rewrite dt_names_ok in Hf by lia. cbn [bind] in Hf.
          destruct (Nat.ltb_spec order 2); [|lia]. inversion Hf; subst. discriminate. }
      assert (E := linked_run order opt (conj H2 H6)). rewrite Hf in E. cbn [bind] in E. rewrite Hr in E.
      inversion E; subst adds. rewrite linked_ok in Hf by lia. inversion Hf; subst f. split; [eauto|].
      intros a x Ha Hx. apply in_map_iff in Ha as [y [<- Hy]]. rewrite operands_dt in Hx.
      apply in_leibniz in Hx as [n [Hn Hx]]. exists n. split; [|exact Hx].
      apply in_linked_pairs in Hy; [|lia]. destruct Hy as [Hc [[Hs _] _]].
      apply (disc_part_lt order (fst y)); [lia|exact Hc|lia|exact Hn].
  Qed.

  (** ** Optimised paths *)
  Definition dt_block_of (order : nat) (p : list nat) : path_block :=
    {| pb_guard := rank_name (list_max p); pb_order := order;
       pb_paths := map (fun x => path_of order (fst x)) (flat_map positions (unique_permutations so p)) |}.

  Lemma dt_contracted_ok order ps :
    1 <= order <= 6 -> (forall p, In p ps -> partition_of order p /\ 2 <= List.length p) ->
    dt_contracted_expressions so ps order
    = Ok (map (fun p => (list_max p, map (fun x => path_of order (fst x)) (flat_map positions (unique_permutations so p)))) ps).
  Proof.
    intros Ho. induction ps as [|p ps IH]; intros H; [reflexivity|].
    cbn [dt_contracted_expressions map]. destruct (H p) as [Hp Hlen]; [now left|].
    destruct (Nat.eqb_spec (List.length p) 1); [lia|].
    destruct (partition_bounds order p) as [Hl _]; [lia|exact Hp|].
    rewrite surface_ok by lia. cbn [bind]. rewrite mode_index_ok by assumption. cbn [bind].
    rewrite out_dims_ok by lia. rewrite zip_dt_paths_ok; [|exact Ho|intros c; now apply perms_of_partition].
    cbn [bind]. rewrite IH by (intros; apply H; now right). reflexivity.
  Qed.

  Lemma dt_path_blocks_ok order ps :
    1 <= order <= 6 -> (forall p, In p ps -> partition_of order p /\ 2 <= List.length p) ->
    (do l <- dt_contracted_expressions so ps order; path_blocks order l) = Ok (map (dt_block_of order) ps).
  Proof.
    intros Ho H. rewrite dt_contracted_ok by assumption. cbn [bind]. unfold path_blocks.
    erewrite mapM_ok with (g := fun e => {| pb_guard := rank_name (fst e); pb_order := order; pb_paths := snd e |}).
    - now rewrite map_map.
    - intros e He. apply in_map_iff in He as [p [<- Hp]]. cbn [fst snd].
      destruct (H p Hp) as [Hpp _]. destruct (partition_bounds order p) as [_ Hm]; [lia|exact Hpp|].
      now rewrite tag_ok by lia.
  Qed.

  Lemma dt_blocks_for_concat gen a n order trunc :
    In order (seq a n) ->
    blocks_for order trunc (List.concat (map (fun o => map (dt_block_of o) (gen o)) (seq a n)))
    = blocks_for order trunc (map (dt_block_of order) (gen order)).
  Proof.
    unfold blocks_for. revert a. induction n as [|n IH]; intros a; cbn [seq In]; [tauto|].
    intros Hin. cbn [map List.concat]. rewrite flat_map_app.
    assert (Hother : forall o, o <> order ->
       flat_map (fun b => if Nat.eqb (pb_order b) order && trunc (pb_guard b) then pb_paths b else [])
         (map (dt_block_of o) (gen o)) = []).
    { intros o Ho. induction (gen o) as [|p ps IHp]; [reflexivity|]. cbn [map flat_map].
      rewrite IHp. cbn [pb_order dt_block_of]. destruct (Nat.eqb_spec o order); [congruence|reflexivity]. }
    destruct (Nat.eq_dec a order) as [->|Hne].
    - assert (flat_map (fun b => if Nat.eqb (pb_order b) order && trunc (pb_guard b) then pb_paths b else [])
        (List.concat (map (fun o => map (dt_block_of o) (gen o)) (seq (S order) n))) = []) as ->; [|now rewrite app_nil_r].
      clear -Hother. assert (forall o, In o (seq (S order) n) -> o <> order) as Hn by (intros o Ho; apply in_seq in Ho; lia).
      induction (seq (S order) n) as [|o os IHo]; [reflexivity|]. cbn [map List.concat]. rewrite flat_map_app.
      rewrite Hother by (apply Hn; now left). apply IHo. intros; apply Hn; now right.
    - rewrite Hother by exact Hne. destruct Hin as [->|Hin]; [congruence|]. now apply IH.
  Qed.

  Lemma dt_blocks_all trunc order ps :
    (forall p, In p ps -> has_rank trunc (list_max p)) ->
    blocks_for order trunc (map (dt_block_of order) ps) = map (fun x => path_of order (fst x)) (dt_pairs ps).
  Proof.
    unfold blocks_for, dt_pairs. induction ps as [|p ps IH]; intros H; [reflexivity|].
    cbn [map flat_map]. rewrite IH by (intros; apply H; now right). rewrite map_app. f_equal.
    cbn [pb_order pb_guard pb_paths dt_block_of]. rewrite Nat.eqb_refl. cbn [andb].
    rewrite (H p (or_introl eq_refl)). reflexivity.
  Qed.

  Lemma map_nth_seq {A} (f : nat -> A) a n i : i < n -> nth_error (map f (seq a n)) i = Some (f (a + i)).
  Proof. intros H. rewrite nth_error_map, seq_nth_range by exact H. reflexivity. Qed.

  Lemma linked_ret max_order : 1 <= max_order -> 1 :: range 2 (max_order + 1) = seq 1 max_order.
  Proof. intros H. unfold range. replace (max_order + 1 - 2) with (max_order - 1) by lia.
         destruct max_order; [lia|]. cbn. now rewrite Nat.sub_0_r. Qed.

  Lemma linked_paths_at max_order order trunc :
    1 <= order <= max_order -> max_order <= 6 -> level_truncation trunc -> has_rank trunc order ->
    exists ls, run_linked_paths so max_order trunc = Ok ls /\
      nth_error ls (order - 1) = Some (map (fun x => path_of order (fst x))
                                          (dt_pairs (generate_linked_disconnected_partitions_of_n so order))).
  Proof.
    intros Ho Hm Hl Hr. unfold run_linked_paths, optimized_linked_paths.
    destruct (Nat.ltb_spec 6 max_order); [lia|].
    rewrite (mapM_ok _ (fun o => map (dt_block_of o) (generate_linked_disconnected_partitions_of_n so o))).
    2:{ intros o Hor. apply in_range in Hor. apply dt_path_blocks_ok; [lia|].
        intros p; apply linked_len; [exact Hso|lia]. }
    cbn [bind fst snd]. eexists. split; [reflexivity|]. unfold run_blocks. rewrite map_map.
    rewrite linked_ret by lia. rewrite map_nth_seq by lia. f_equal.
    replace (1 + (order - 1)) with order by lia.
    change (blocks_for order trunc
      (List.concat (map (fun o => map (dt_block_of o) (generate_linked_disconnected_partitions_of_n so o)) (range 2 (max_order + 1))))
      = map (fun x => path_of order (fst x)) (dt_pairs (generate_linked_disconnected_partitions_of_n so order))).
    destruct (Nat.eq_dec order 1) as [->|H1].
    - rewrite (nil_of_empty (generate_linked_disconnected_partitions_of_n so 1)) by now apply not_linked_1.
      change (dt_pairs []) with (@nil (list nat * nat)). cbn [map]. unfold blocks_for.
      assert (forall o, In o (range 2 (max_order + 1)) -> o <> 1) as Hn by (intros o Hor; apply in_range in Hor; lia).
      induction (range 2 (max_order + 1)) as [|o os IHo]; [reflexivity|]. cbn [map List.concat]. rewrite flat_map_app.
      rewrite IHo by (intros; apply Hn; now right). rewrite app_nil_r.
      specialize (Hn o (or_introl eq_refl)). clear -Hn.
      induction (generate_linked_disconnected_partitions_of_n so o) as [|p ps IHp]; [reflexivity|].
      cbn [map flat_map pb_order dt_block_of]. rewrite IHp. destruct (Nat.eqb_spec o 1); [congruence|reflexivity].
    - unfold range. rewrite dt_blocks_for_concat by (apply in_seq; lia). apply dt_blocks_all.
      intros p Hp. apply (linked_len so Hso) in Hp; [|lia]. destruct Hp as [Hp _].
      destruct (partition_bounds order p) as [_ Hb]; [lia|exact Hp|].
      apply (level_down trunc order); [exact Hl|lia|lia|lia|exact Hr].
  Qed.

  Lemma unlinked_paths_at max_order order trunc :
    1 <= order <= max_order -> max_order <= 6 -> level_truncation trunc -> has_rank trunc order ->
    exists ls, run_unlinked_paths so max_order trunc = Ok ls /\
      nth_error ls (order - 1) = Some (map (fun x => path_of order (fst x))
                                          (dt_pairs (generate_un_linked_disconnected_partitions_of_n so order))).
  Proof.
    intros Ho Hm Hl Hr. unfold run_unlinked_paths, optimized_unlinked_paths.
    destruct (Nat.ltb_spec 6 max_order); [lia|].
    rewrite (mapM_ok _ (fun o => map (dt_block_of o) (generate_un_linked_disconnected_partitions_of_n so o))).
    2:{ intros o Hor. apply in_range in Hor. apply dt_path_blocks_ok; [lia|].
        intros p; apply unlinked_len; [exact Hso|lia]. }
    cbn [bind fst snd].
    destruct (trunc "doubles"%string) eqn:Ed.
    - eexists. split; [reflexivity|]. unfold run_blocks. rewrite map_map.
      assert (Hret : nth_error ([1; 2; 3] ++ range 4 (max_order + 1)) (order - 1) = Some order).
      { destruct (le_lt_dec order 3) as [H3|H3].
        - do 4 (destruct order as [|order]; [solve [lia|reflexivity]|]). lia.
        - rewrite nth_error_app2 by (cbn; lia). cbn [List.length]. unfold range.
          rewrite seq_nth_range by lia. f_equal. lia. }
      rewrite nth_error_map, Hret. cbn [option_map]. f_equal.
      change (blocks_for order trunc
        (List.concat (map (fun o => map (dt_block_of o) (generate_un_linked_disconnected_partitions_of_n so o)) (range 4 (max_order + 1))))
        = map (fun x => path_of order (fst x)) (dt_pairs (generate_un_linked_disconnected_partitions_of_n so order))).
      destruct (le_lt_dec order 3) as [H3|H3].
      + rewrite (nil_of_empty (generate_un_linked_disconnected_partitions_of_n so order))
          by (intros p Hp; apply (not_unlinked_small so Hso order p); [lia|exact Hp]).
        change (dt_pairs []) with (@nil (list nat * nat)). cbn [map]. unfold blocks_for.
        clear Hret. assert (forall o, In o (range 4 (max_order + 1)) -> o <> order) as Hn by (intros o Hor; apply in_range in Hor; lia).
        induction (range 4 (max_order + 1)) as [|o os IHo]; [reflexivity|]. cbn [map List.concat]. rewrite flat_map_app.
        rewrite IHo by (intros; apply Hn; now right). rewrite app_nil_r.
        specialize (Hn o (or_introl eq_refl)). clear -Hn.
        induction (generate_un_linked_disconnected_partitions_of_n so o) as [|p ps IHp]; [reflexivity|].
        cbn [map flat_map pb_order dt_block_of]. rewrite IHp. destruct (Nat.eqb_spec o order); [congruence|reflexivity].
      + unfold range. rewrite dt_blocks_for_concat by (apply in_seq; lia). apply dt_blocks_all.
        intros p Hp. apply (unlinked_len so Hso) in Hp; [|lia]. destruct Hp as [Hp _].
        destruct (partition_bounds order p) as [_ Hb]; [lia|exact Hp|].
        apply (level_down trunc order); [exact Hl|lia|lia|lia|exact Hr].
    - assert (order = 1) as ->.
      { destruct (le_lt_dec 2 order) as [H2|H2]; [|lia]. exfalso.
        assert (has_rank trunc 2) as H' by (apply (level_down trunc order); [exact Hl|lia|lia|lia|exact Hr]).
        unfold has_rank in H'. cbn [rank_name] in H'. congruence. }
      eexists. split; [reflexivity|].
      rewrite (nil_of_empty (generate_un_linked_disconnected_partitions_of_n so 1))
          by (intros p Hp; apply (not_unlinked_small so Hso 1 p); [lia|exact Hp]). reflexivity.
  Qed.

  Definition eps_path (order : nat) : path :=
    let ms := string_of (firstn order mode_letters) in
    mkPath [String "a" (String "c" ms); "cb"%string] (String "a" (String "b" ms)) [amp_shape order; amp_shape 0].

  Lemma prefix_filter (f : nat -> bool) (g : nat -> path) n k a :
    k < n -> (forall i, a <= i <= a + k -> f i = true) ->
    nth_error (flat_map (fun i => if f i then [g i] else []) (seq a n)) k = Some (g (a + k)).
  Proof.
    revert k a; induction n as [|n IH]; intros k a Hk Hf; [lia|].
    cbn [seq flat_map]. rewrite (Hf a) by lia. cbn [app]. destruct k as [|k]; cbn [nth_error].
    - f_equal. f_equal. lia.
    - rewrite IH by (lia || (intros; apply Hf; lia)). f_equal. f_equal. lia.
  Qed.

  Lemma epsilon_paths_at max_order order trunc :
    1 <= order <= max_order -> max_order <= 6 -> level_truncation trunc -> has_rank trunc order ->
    exists ls, run_epsilon_paths max_order trunc = Ok ls /\ nth_error ls (order - 1) = Some (eps_path order).
  Proof.
    intros Ho Hm Hl Hr. unfold run_epsilon_paths, epsilon_paths. destruct (Nat.ltb_spec 6 max_order); [lia|].
    rewrite (mapM_ok _ (fun o => (rank_name o, eps_path o))).
    2:{ intros o Hor. apply in_range in Hor. rewrite tag_ok by lia. cbn [bind]. do 2 f_equal.
        unfold eps_path. rewrite !shape_ok, tag_slice by lia. reflexivity. }
    cbn [bind]. eexists. split; [reflexivity|]. rewrite flat_map_concat_map, map_map, <- flat_map_concat_map.
    cbn [fst snd]. unfold range. rewrite (prefix_filter (fun o => trunc (rank_name o)) eps_path); [replace (1 + (order - 1)) with order by lia; reflexivity|lia|].
    intros i Hi. change (has_rank trunc i). apply (level_down trunc order); [exact Hl|lia|lia|lia|exact Hr].
  Qed.

  Lemma consume_exact order (l : list (list nat * nat)) :
    consume (map (fun x => path_of order (fst x)) l) (map (dt_add true order) l)
    = Ok (map (fun x => (path_of order (fst x), dt_add true order x)) l).
  Proof. induction l as [|x xs IH]; [reflexivity|]. cbn [map consume]. now rewrite IH. Qed.

  Theorem dt_aligned max_order order an trunc :
    level_truncation trunc -> has_rank trunc order -> 1 <= order <= max_order -> max_order <= 6 ->
    exists lp up e eps linked unlinked,
      run_linked_paths so max_order trunc = Ok lp /\ run_unlinked_paths so max_order trunc = Ok up /\
      run_solve_optimized so max_order order an trunc = Ok (e, eps, linked, unlinked) /\
      (* same contractions, in the same order, as the default function *)
      run_dt_amplitude so order false an
        = Ok (mkDtValue order (map (fun pa => mkAdd (ad_den (snd pa))
                 (Einsum (pt_ins (fst pa)) (pt_out (fst pa)) (operands (ad_call (snd pa)))))
                 ((e, eps) :: linked ++ unlinked))) /\
      (* the shapes the paths were compiled for are those of the operands *)
      pt_shapes e = [amp_shape order; amp_shape 0] /\
      Forall (fun pa => exists c i, composition_of order c /\ i < List.length c /\
                operands (ad_call (snd pa)) = leibniz_term c i /\ pt_shapes (fst pa) = map amp_shape c)
             (linked ++ unlinked) /\
      (* every path compiled for this order is consumed when its helper runs *)
      (an <> VECI -> nth_error lp (order - 1) = Some (map fst linked)) /\
      (an = VECC -> nth_error up (order - 1) = Some (map fst unlinked)).
  Proof.
    intros Hl Hr Ho Hm.
    destruct (linked_paths_at max_order order trunc Ho Hm Hl Hr) as [lp [L1 L2]].
    destruct (unlinked_paths_at max_order order trunc Ho Hm Hl Hr) as [up [U1 U2]].
    destruct (epsilon_paths_at max_order order trunc Ho Hm Hl Hr) as [ep [E1 E2]].
    set (Lp := dt_pairs (generate_linked_disconnected_partitions_of_n so order)) in *.
    set (Up := dt_pairs (generate_un_linked_disconnected_partitions_of_n so order)) in *.
    set (co := fun x => (path_of order (fst x), dt_add true order x)).
    exists lp, up, (eps_path order), (mkAdd (Some (fact_spec order)) (eps_call true order)),
      (match an with VECI => [] | _ => map co Lp end), (match an with VECC => map co Up | _ => [] end).
    split; [exact L1|]. split; [exact U1|]. split; [|split; [|split; [|split; [|split]]]].
    - unfold run_solve_optimized. rewrite tag_ok by lia. cbn [bind]. rewrite E1, L1, U1. cbn [bind].
      unfold has_rank in Hr. rewrite Hr. cbn [negb]. unfold py_nth. rewrite E2, L2, U2. cbn [bind].
      rewrite write_dt_amplitude_ok by lia. cbn [bind].
      cbn [amp_fun_of da_eps_fact da_eps_args da_calls_linked da_calls_unlinked].
      rewrite factorial_spec.
      assert (F1 : (if negb (order <? 2)
                    then do g <- write_linked_disconnected so order true; do adds <- run_dt_fun g;
                         consume (map (fun x => path_of order (fst x)) Lp) adds else Ok [])
                   = Ok (map co Lp)).
      { destruct (Nat.ltb_spec order 2); cbn [negb].
        - unfold Lp. assert (order = 1) as -> by lia.
          rewrite (nil_of_empty (generate_linked_disconnected_partitions_of_n so 1)); [reflexivity|]. now apply not_linked_1.
        - assert (R := linked_run order true). destruct (write_linked_disconnected so order true); cbn [bind] in *.
          + rewrite R by lia. cbn [bind]. apply consume_exact.
          + discriminate R; lia. }
      assert (F2 : (if negb (order <? 2) && negb (order <? 4)
                    then do g <- write_un_linked_disconnected so order true; do adds <- run_dt_fun g;
                         consume (map (fun x => path_of order (fst x)) Up) adds else Ok [])
                   = Ok (map co Up)).
      { destruct (Nat.ltb_spec order 4).
        - rewrite andb_false_r. unfold Up.
          rewrite (nil_of_empty (generate_un_linked_disconnected_partitions_of_n so order)); [reflexivity|].
          intros p Hp. apply (not_unlinked_small so Hso order p); [lia|exact Hp].
        - destruct (Nat.ltb_spec order 2); [lia|]. cbn [negb andb].
          assert (R := unlinked_run order true). destruct (write_un_linked_disconnected so order true); cbn [bind] in *.
          + rewrite R by lia. cbn [bind]. apply consume_exact.
          + discriminate R; lia. }
      destruct an; cbn [bind].
      + reflexivity.
      + rewrite F1. reflexivity.
      + rewrite F1. cbn [bind]. rewrite F2. reflexivity.
    - rewrite run_dt_amplitude_ok by lia. f_equal. f_equal. cbn [map]. f_equal.
      destruct an; cbn [ansatz_pairs]; fold Lp Up; rewrite ?map_app, ?map_map, ?app_nil_r; reflexivity.
    - reflexivity.
    - assert (G : Forall (fun pa => exists c i, composition_of order c /\ i < List.length c /\
                operands (ad_call (snd pa)) = leibniz_term c i /\ pt_shapes (fst pa) = map amp_shape c) (map co (Lp ++ Up))).
      { rewrite Forall_map, Forall_forall. intros x Hx. exists (fst x), (snd x).
        apply in_app_iff in Hx. unfold Lp, Up in Hx. rewrite in_linked_pairs, in_unlinked_pairs in Hx by lia.
        unfold co. cbn [fst snd]. rewrite operands_dt. split; [tauto|]. split; [tauto|]. split; reflexivity. }
      rewrite map_app in G. apply Forall_app in G as [G1 G2].
      destruct an; apply Forall_app; split; auto.
    - intros Hn. rewrite L2. destruct an; [congruence| |]; rewrite map_map; reflexivity.
    - intros ->. rewrite U2, map_map. reflexivity.
  Qed.
End Dt.

(** Flags that are not a truncation level: triples without doubles. *)
Definition triples_without_doubles (s : string) : bool :=
  String.eqb s "singles" || String.eqb s "triples".

Lemma dt_misaligned :
  exists trunc, has_rank trunc 3 /\
    run_solve_optimized (fun l => l) 6 3 VECC trunc = Err IndexErr /\
    exists v, run_dt_amplitude (fun l => l) 3 false VECC = Ok v.
Proof. exists triples_without_doubles. split; [reflexivity|]. split; [vm_compute; reflexivity|]. eexists. vm_compute. reflexivity. Qed.

Lemma dt_rejects so order opt : 6 < order ->
  write_linked_disconnected so order opt = Err NotImplementedErr /\
  write_un_linked_disconnected so order opt = Err NotImplementedErr /\
  write_dt_amplitude order opt = Err NotImplementedErr.
Proof.
  intros H. unfold write_linked_disconnected, write_un_linked_disconnected, write_dt_amplitude.
  destruct (Nat.ltb_spec 6 order); [auto|lia].
Qed.
