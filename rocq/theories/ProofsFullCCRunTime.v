(** Running the python code of the full coupled cluster equations with smaller
    truncations. *)
From Coq Require Import List Arith NArith Lia Bool Ascii String Permutation.
From Verif Require Import PyBase PyBaseFacts PyStr ModelFullCC ModelPrefactor ModelFullCCPy SpecFullCC SpecPrefactor SpecFullCCPy SpecPython SpecEtText SpecFullCCText
  SpecFullCCPlaces SpecFullCCComplete SpecFullCCRunTime ProofsStr ProofsFullCC ProofsFullCCPy ProofsFullCCText ProofsFullCCPlaces
  ProofsFullCCComplete ProofsFullCCDistinct ProofsFullCCBags ProofsFullCCEvery.
Import ListNotations.

Definition kept (H0 cc0 : nat) (c : chosen) : bool := active (up_to H0) (up_to cc0) (place_of c).
Lemma kept_iff H0 cc0 c : kept H0 cc0 c = true <-> each_side H0 cc0 (c_m c) (c_n c) (c_us c).
Proof.
  unfold kept, active, place_of, place, each_side, up_to. cbn [fst snd].
  assert (A : list_max (map (fun t => up t + down t) (c_us c)) <= cc0 <-> Forall (fun t => up t + down t <= cc0) (c_us c)).
  { rewrite list_max_le, Forall_map. reflexivity. }
  rewrite <- A. rewrite ?andb_true_iff, ?orb_true_iff, ?Nat.eqb_eq, ?Nat.leb_le. lia.
Qed.
Lemma same_inside H0 cc0 c hm hn us : same_contraction c hm hn us -> each_side H0 cc0 (c_m c) (c_n c) (c_us c) <-> each_side H0 cc0 hm hn us.
Proof.
  intros (<- & <- & P). unfold each_side.
  assert (X : Forall (fun t => up t + down t <= cc0) us <-> Forall (fun t => up t + down t <= cc0) (c_us c)).
  { split; apply Permutation_Forall; [exact P|now symmetry]. }
  tauto.
Qed.
Lemma flat_map_kept {B} H0 cc0 (f : chosen -> list B) cs :
  flat_map (fun c => if active (up_to H0) (up_to cc0) (place_of c) then f c else []) cs = flat_map f (filter (kept H0 cc0) cs).
Proof.
  induction cs as [|c cs IH]; [reflexivity|]. cbn [flat_map filter]. rewrite IH. unfold kept at 2. destruct (active _ _ _); reflexivity.
Qed.

Lemma group_run_time prog H cc S H0 cc0 m n g kind : adds_every prog H cc S m n g kind ->
  adds_those prog H cc S H0 cc0 m n (each_side H0 cc0) g kind.
Proof.
  intros (bares & what & cs & Df & Nb & Ib & Fc & Cov & W). exists bares, what, (filter (kept H0 cc0) cs).
  split; [exact Df|]. split; [exact Nb|]. split; [exact Ib|]. split; [|split].
  - apply Forall_forall. intros c I. apply filter_In in I as [I K]. rewrite Forall_forall in Fc. split; [now apply Fc|now apply kept_iff].
  - intros hm hn us f fbar R Ku N In'. destruct (Cov hm hn us f fbar R Ku N) as (before & c & after & -> & Sm & U).
    exists (filter (kept H0 cc0) before), c, (filter (kept H0 cc0) after). split; [|split; [exact Sm|]].
    + rewrite filter_app. cbn [filter]. assert (kept H0 cc0 c = true) as -> by (apply kept_iff; now apply (same_inside H0 cc0 c hm hn us Sm)). reflexivity.
    + intros c' I. apply U. rewrite <- filter_app in I. now apply filter_In in I.
  - rewrite (W (up_to H0) (up_to cc0)). now rewrite flat_map_kept.
Qed.

Lemma cc_run_time sot so son soc H cc S P text prog :
  set_order sot -> set_order so -> set_order son -> set_order soc -> 1 <= cc <= 6 -> S <= 6 -> H <= 5 -> ~ loses H cc S P ->
  generate_full_cc_python sot so son soc H cc S P = Ok text -> python text prog ->
  forall H0 cc0 m n, m + n <= cc -> m + n <= P -> Forall2 (adds_those prog H cc S H0 cc0 m n (each_side H0 cc0)) groups (kinds m n).
Proof.
  intros Hsot Hso Hson Hsoc C1 C2 C3 L E R H0 cc0 m n A B.
  pose proof (cc_file_every sot so son soc H cc S P text prog Hsot Hso Hson Hsoc C1 C2 C3 L E R m n A B) as F.
  induction F as [|g k gs ks G F IH]; constructor; [now apply group_run_time|exact IH].
Qed.

(** ** The Hamiltonian of the file *)
Lemma requested_lower m n H cc cc0 S hm hn us f fbar : cc0 <= cc -> requested m n H cc0 S true true hm hn us f fbar ->
  requested m n H cc S true true hm hn us f fbar.
Proof.
  intros L (A & B & C & D). split; [exact A|]. split; [exact B|]. split; [|exact D]. eapply Forall_impl; [|exact C].
  intros t [X Y]. split; [lia|exact Y].
Qed.
Lemma requested_inside m n H cc0 S hm hn us f fbar : requested m n H cc0 S true true hm hn us f fbar -> each_side H cc0 hm hn us.
Proof.
  intros (A & B & C & _). split; [lia|]. split; [lia|]. eapply Forall_impl; [|exact C]. intros t [X Y]. lia.
Qed.
Lemma requested_cut m n H cc cc0 S hm hn us f fbar : requested m n H cc S true true hm hn us f fbar -> each_side H cc0 hm hn us ->
  requested m n H cc0 S true true hm hn us f fbar.
Proof.
  intros (A & B & C & D) (_ & _ & F). split; [exact A|]. split; [exact B|]. split; [|exact D]. rewrite Forall_forall in *.
  intros t I. destruct (C t I) as [X Y]. split; [|exact Y]. specialize (F t I). lia.
Qed.
Lemma group_cluster prog H cc cc0 S m n g kind : cc0 <= cc -> adds_those prog H cc S H cc0 m n (each_side H cc0) g kind ->
  adds_those prog H cc0 S H cc0 m n everything g kind.
Proof.
  intros L (bares & what & cs & Df & Nb & Ib & Fc & Cov & W). exists bares, what, cs.
  split; [exact Df|]. split; [exact Nb|]. split; [|split; [|split; [|exact W]]].
  - intros hm hn. rewrite Ib. split; intros (f & fb & R & K); exists f, fb; (split; [|exact K]).
    + apply (requested_cut m n H cc); [exact R|]. destruct R as (A & _). split; [lia|]. split; [lia|constructor].
    + now apply (requested_lower m n H cc cc0).
  - eapply Forall_impl; [|exact Fc]. intros c [(N & R & K & Rp & X) In']. split; [|exact I].
    split; [exact N|]. split; [now apply (requested_cut m n H cc)|]. split; [exact K|]. split; [exact Rp|exact X].
  - intros hm hn us f fbar R K N _. apply (Cov hm hn us f fbar); [now apply (requested_lower m n H cc cc0)|exact K|exact N|now apply (requested_inside m n H cc0 S hm hn us f fbar)].
Qed.
Lemma cc_smaller_cluster sot so son soc H cc S P text prog :
  set_order sot -> set_order so -> set_order son -> set_order soc -> 1 <= cc <= 6 -> S <= 6 -> H <= 5 -> ~ loses H cc S P ->
  generate_full_cc_python sot so son soc H cc S P = Ok text -> python text prog ->
  forall cc0 m n, cc0 <= cc -> m + n <= cc -> m + n <= P -> Forall2 (adds_those prog H cc0 S H cc0 m n everything) groups (kinds m n).
Proof.
  intros Hsot Hso Hson Hsoc C1 C2 C3 L E R cc0 m n Lc A B.
  pose proof (cc_run_time sot so son soc H cc S P text prog Hsot Hso Hson Hsoc C1 C2 C3 L E R H cc0 m n A B) as F.
  induction F as [|g k gs ks G F IH]; constructor; [now apply (group_cluster prog H cc)|exact IH].
Qed.

(** ** A smaller Hamiltonian *)
Lemma cc_smaller_hamiltonian sot so son soc H cc S P text prog :
  set_order sot -> set_order so -> set_order son -> set_order soc -> 1 <= cc <= 6 -> S <= 6 -> H <= 5 -> ~ loses H cc S P ->
  generate_full_cc_python sot so son soc H cc S P = Ok text -> python text prog ->
  forall H0, 1 <= H0 < H -> H0 <= cc -> 1 <= S -> 1 <= P ->
  exists bares what p e,
    defines_cc_terms prog 0 1 false ("fully_connected", "connected")%string (branch_does (sum_adds einsum_text) bares what) /\
    In (p, e) (what (up_to H0) (up_to cc)) /\ realises 0 1 1 H0 0 1 [mkt H0 0 0 0] e.
Proof.
  intros Hsot Hso Hson Hsoc C1 C2 C3 L E R H0 LH Lc LS LP.
  pose proof (cc_run_time sot so son soc H cc S P text prog Hsot Hso Hson Hsoc C1 C2 C3 L E R H0 cc 0 1 ltac:(lia) ltac:(lia)) as F.
  unfold groups, kinds in F. inversion F as [|g k gs ks (bares & what & cs & Df & _ & _ & Fc & Cov & W) _]; subst.
  destruct (Cov 1 H0 [mkt H0 0 0 0] 0 1) as (before & c & after & -> & (S1 & S2 & S3) & _).
  - unfold requested, contraction, amplitude, total, up, down. cbn. repeat split; try lia. constructor; [cbn; lia|constructor].
  - constructor; [|constructor]. intros [A _]. cbn in A. lia.
  - discriminate.
  - split; [lia|]. split; [lia|]. constructor; [cbn; lia|constructor].
  - rewrite Forall_forall in Fc. destruct (Fc c) as [(N & Rq & K & Rp & Fr & X & _) _]; [apply in_or_app; right; now left|].
    apply Permutation_length_1_inv in S3. rewrite S3 in *. destruct (X eq_refl) as [e Ee]. rewrite Ee in Fr. cbn in Fr.
    exists bares, what, (c_prefactor c), e. split; [exact Df|]. split.
    + apply (Permutation_in _ (Permutation_sym W)). apply in_flat_map. exists c. split; [apply in_or_app; right; now left|].
      rewrite Ee. now left.
    + apply Forall_inv in Fr as Q. rewrite S1, S2 in Q. pose proof (requested_ground _ _ _ _ _ _ _ _ _ _ Rq) as (_ & Z1 & _ & Z2 & _).
      rewrite Z1 in Q. rewrite <- Z2, S1 in Q. exact Q.
Qed.
