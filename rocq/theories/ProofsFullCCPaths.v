(** The optimised functions and the paths computed for them. *)
From Verif Require Import PyBase PyBaseFacts ModelHelper ModelW ModelFullCC ModelPrefactor ModelFullCCPy
  SpecFullCC SpecFullCCPy ProofsHelper ProofsW ProofsStr ProofsFullCC ProofsFullCCLabels ProofsFullCCPy ProofsFullCCBuckets ProofsResidual.

Section MapCalls.
  Context {C D : Type}.
  Variable g : C -> D.

  Definition mapE (e : @ModelFullCCPy.entry C) : @ModelFullCCPy.entry D := (fst e, map g (snd e)).
  Definition mapP (pc : prefactor * list C) : prefactor * list D := (fst pc, map g (snd pc)).
  Definition mapI (js : nat * list (prefactor * list C)) : nat * list (prefactor * list D) := (fst js, map mapP (snd js)).
  Definition mapB (b : block C) : block D :=
    match b with
    | BBare h => BBare h
    | BSum p c => BSum p (map g c)
    | BIfT j s => BIfT j (map mapP s)
    | BIfH i s ifs => BIfH i (map mapP s) (map mapI ifs)
    | BPass => BPass
    end.

  Lemma same_key_map i j p e : same_key i j p (mapE e) = same_key i j p e.
  Proof. destruct e as [[[i' j'] p'] c]. reflexivity. Qed.

  Lemma file_calls_map i j p c d : file_calls i j p (map g c) (map mapE d) = map mapE (file_calls i j p c d).
  Proof.
    induction d as [|e d IH]; [reflexivity|]. cbn [map file_calls]. rewrite same_key_map.
    destruct (same_key i j p e); [|cbn [map]; now rewrite IH]. destruct e as [[[i' j'] p'] c']. reflexivity.
  Qed.

  Lemma bucket_map d i j : bucket (map mapE d) i j = map mapP (bucket d i j).
  Proof.
    unfold bucket. induction d as [|e d IH]; [reflexivity|]. cbn [map filter]. destruct e as [[[i' j'] p'] c'].
    cbn [mapE fst snd]. destruct (_ && _)%bool; cbn [map]; [f_equal; exact IH|exact IH].
  Qed.

  Definition mapR {X Y} (f : X -> Y) (r : res X) : res Y := match r with Ok x => Ok (f x) | Err e => Err e end.

  Lemma sums_ok_map l : sums_ok (map mapP l) = mapR (map mapP) (sums_ok l).
  Proof.
    unfold sums_ok. induction l as [|[p c] l IH]; [reflexivity|]. cbn [map mapM mapP fst snd].
    destruct c as [|x c]; [reflexivity|]. cbn [map bind]. rewrite IH.
    destruct (mapM _ l); reflexivity.
  Qed.

  Lemma mapM_mapR {X Y Z} (f : X -> res Y) (f' : X -> res Z) (m : Y -> Z) l :
    (forall x, f' x = mapR m (f x)) -> mapM f' l = mapR (map m) (mapM f l).
  Proof.
    intros E. induction l as [|x l IH]; [reflexivity|]. cbn [mapM]. rewrite E, IH.
    destruct (f x); [|reflexivity]. cbn [mapR bind]. destruct (mapM f l); reflexivity.
  Qed.

  Lemma concat_map_map {X Y} (m : X -> Y) l : List.concat (map (map m) l) = map m (List.concat l).
  Proof. induction l as [|x l IH]; [reflexivity|]. cbn. now rewrite map_app, IH. Qed.

  Lemma t_ifs_map cc d i : t_ifs cc (map mapE d) i = mapR (map mapI) (t_ifs cc d i).
  Proof.
    unfold t_ifs.
    match goal with |- bind (mapM ?F' ?l) _ = mapR _ (bind (mapM ?F ?l) _) => rewrite (mapM_mapR F F' (map mapI)); [destruct (mapM F l); [|reflexivity]|] end.
    - cbn [mapR bind]. now rewrite concat_map_map.
    - intros j. cbn beta. rewrite bucket_map. destruct (bucket d i j) as [|x b] eqn:E; [reflexivity|].
      change (map mapP (x :: b)) with (mapP x :: map mapP b). cbv iota beta.
      change (mapP x :: map mapP b) with (map mapP (x :: b)).
      destruct (py_nth taylor_series_order_tag j); [|reflexivity]. cbn [bind].
      rewrite sums_ok_map. destruct (sums_ok (x :: b)); reflexivity.
  Qed.

  Lemma bucket_blocks_map H cc d : bucket_blocks H cc (map mapE d) = mapR (map mapB) (bucket_blocks H cc d).
  Proof.
    unfold bucket_blocks. rewrite bucket_map, sums_ok_map. destruct (sums_ok (bucket d 0 0)) as [s00|]; [|reflexivity].
    cbn [mapR bind]. rewrite t_ifs_map. destruct (t_ifs cc d 0) as [ifs|]; [|reflexivity]. cbn [mapR bind].
    match goal with |- bind (mapM ?F' ?l) _ = mapR _ (bind (mapM ?F ?l) _) => rewrite (mapM_mapR F F' (map mapB)); [destruct (mapM F l); [|reflexivity]|] end.
    - cbn [mapR bind]. f_equal.
      rewrite !map_app, !map_map, concat_map_map. reflexivity.
    - intros i. cbn beta. destruct (py_nth hamiltonian_order_tag i); [|reflexivity]. cbn [bind].
      rewrite bucket_map, sums_ok_map. destruct (sums_ok (bucket d i 0)) as [si|]; [|reflexivity]. cbn [mapR bind].
      rewrite t_ifs_map. destruct (t_ifs cc d i) as [ifi|]; [|reflexivity]. cbn [mapR bind]. f_equal.
      destruct si, ifi; reflexivity.
  Qed.

  Definition both (x : string * C) : string * D := (fst x, g (snd x)).

  Lemma run_sum_map pc : run_sum (mapP pc) = map both (run_sum pc).
  Proof. unfold run_sum. cbn [mapP fst snd]. rewrite !map_map. reflexivity. Qed.
  Lemma run_sums_map l : flat_map run_sum (map mapP l) = map both (flat_map run_sum l).
  Proof. induction l as [|x l IH]; [reflexivity|]. cbn [map flat_map]. now rewrite map_app, run_sum_map, IH. Qed.
  Lemma run_if_map ft js : run_if ft (mapI js) = map both (run_if ft js).
  Proof. unfold run_if. cbn [mapI fst snd]. destruct (ft (fst js)); [apply run_sums_map|reflexivity]. Qed.
  Lemma run_map fh ft b : run fh ft (map mapB b) = map both (run fh ft b).
  Proof.
    unfold run. induction b as [|x b IH]; [reflexivity|]. cbn [map flat_map]. rewrite map_app, IH. f_equal.
    destruct x as [h|p c|j s|i s ifs|]; cbn [mapB run_block]; try reflexivity.
    - apply (run_sum_map (p, c)).
    - apply (run_if_map ft (j, s)).
    - destruct (fh i); [|reflexivity]. rewrite map_app, run_sums_map. f_equal.
      induction ifs as [|y r IHr]; [reflexivity|]. cbn [map flat_map]. now rewrite map_app, run_if_map, IHr.
  Qed.

  Variable so : list nat -> list nat.
  Variable f : term -> res (list C).
  Variable f' : term -> res (list D).
  Hypothesis Hf : forall t cs, f t = Ok cs -> f' t = Ok (map g cs).

  Lemma fill_map H cc l d d' : fill_buckets so f H cc l d = Ok d' ->
    fill_buckets so f' H cc l (map mapE d) = Ok (map mapE d').
  Proof.
    revert d; induction l as [|t l IH]; intros d E; cbn [fill_buckets] in *; [now injection E as <-|].
    destruct (is_bare_h (snd t)); [now apply IH|].
    destruct t as [[o h] ts]. cbn [file_term] in *.
    destruct (Nat.ltb H _); [discriminate|]. destruct (Nat.ltb cc _); [discriminate|].
    destruct (f (o, h, ts)) as [cs|] eqn:Ef; [|discriminate]. cbn [bind] in E.
    rewrite (Hf _ _ Ef). cbn [bind]. rewrite file_calls_map. now apply IH.
  Qed.
End MapCalls.

(** The shapes of the operands of a call. *)
Lemma shapes_agree son soc t cs : next_calls son soc t = Ok cs ->
  path_calls son soc t = Ok (map (fun c => (fst (n_hop c) + snd (n_hop c)) :: map (fun mn => fst mn + snd mn) (n_ts c)) cs).
Proof.
  destruct t as [[o h] ts]. unfold next_calls, path_calls.
  assert (R : forall l, map rank_of_t l = map (fun mn => fst mn + snd mn) (map t_operand l)).
  { intros l. rewrite map_map. apply map_ext. intros t. unfold rank_of_t, t_operand. cbn. lia. }
  destruct (multiple_perms_logic son ts) as [pk|]; [|discriminate]. cbn [bind].
  destruct (electronic_components (List.length ts)); [|discriminate]. cbn [bind].
  destruct (vibrational_components h ts) as [v r].
  destruct pk as [|ps|ps].
  - destruct (String.eqb r ""); intros [= <-]; [cbn [map n_hop n_ts fst snd]; now rewrite R|].
    rewrite map_map. cbn [n_hop n_ts fst snd]. now rewrite R.
  - intros [= <-]. rewrite map_map. cbn [n_hop n_ts fst snd]. now rewrite R.
  - revert cs. induction ps as [|p ps IH]; intros cs E; cbn [mapM] in *; [injection E as <-; reflexivity|].
    destruct (mapM (py_nth ts) p) as [tsp|]; [|discriminate]. cbn [bind] in *.
    destruct (mapM _ ps) as [r1|]; [|discriminate]. cbn [bind] in *. injection E as <-.
    rewrite (IH r1 eq_refl). cbn [bind map n_hop n_ts fst snd]. now rewrite R.
Qed.

Theorem paths_match so son soc H cc l body :
  (forall t, In t l -> ch_rank (snd (fst t)) = ch_m (snd (fst t)) + ch_n (snd (fst t))) ->
  write_cc_einsum_python_from_list so H cc (next_calls son soc) l = Ok body ->
  exists body', write_cc_optimized_paths_from_list so son soc H cc l = Ok body' /\
    forall fh ft,
      map snd (run fh ft body') =
      map (fun pc => (fst (n_hop (snd pc)) + snd (n_hop (snd pc))) :: map (fun mn => fst mn + snd mn) (n_ts (snd pc)))
          (run fh ft body).
Proof.
  intros HR. unfold write_cc_einsum_python_from_list, write_cc_optimized_paths_from_list.
  destruct l as [|t l]; [intros [= <-]; exists [BPass]; auto|].
  set (tl := t :: l) in *. clearbody tl.
  destruct (fill_buckets so (next_calls son soc) H cc tl []) as [d|] eqn:F; [|discriminate]. cbn [bind].
  destruct (bucket_blocks H cc d) as [b|] eqn:B; [|discriminate]. cbn [bind]. intros [= <-].
  rewrite (mapM_ok _ (fun _ => tt)).
  2: { intros x Hx. cbn beta zeta. rewrite (HR x Hx), Nat.eqb_refl. reflexivity. }
  cbn [bind].
  set (g := fun c => (fst (n_hop c) + snd (n_hop c)) :: map (fun mn : nat * nat => fst mn + snd mn) (n_ts c)).
  pose proof (fill_map (D := path_call) g so (next_calls son soc) (path_calls son soc) (fun t cs E => shapes_agree son soc t cs E) H cc tl [] d F) as FM.
  change (map (mapE g) []) with (@nil (@ModelFullCCPy.entry path_call)) in FM.
  rewrite FM. cbn [bind]. rewrite (bucket_blocks_map (D := path_call)), B. cbn [mapR bind].
  eexists. split; [reflexivity|]. intros fh ft.
  assert (Z : forall l', flat_map (run_block (C := next_call) fh ft) (map (fun t : term => BBare (ch_m (snd (fst t)), ch_n (snd (fst t)))) l') = []).
  { induction l'; cbn; auto. }
  unfold run at 2. rewrite flat_map_app, Z. cbn [app]. fold (run fh ft b).
  transitivity (map snd (run fh ft (map (mapB (D := path_call) g) b))).
  { destruct (map (mapB (D := path_call) g) b); reflexivity. }
  rewrite run_map, map_map. reflexivity.
Qed.
