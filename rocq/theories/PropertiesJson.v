(** Property theorem C137: the layout of a truncation file does not matter. *)
From Coq Require Import ZArith.
From Verif Require Import PyBase PyStr ModelTrunc SpecTrunc SpecJson ProofsJson.

(** C137: every layout of the items of a valid dictionary - blanks, tabs and line ends in
    any number at any place where JSON lets them stand, items in any order - loads and gives
    this dictionary. *)
Theorem C137_any_layout :
  forall t l text, is_dict (dictionary_of l) -> exactly_valid t (dictionary_of l) -> object_layout l text ->
    load_trunc_from_JSON text None = Ok (Some (dictionary_of l)).
Proof. exact layout_loads. Qed.
Print Assumptions C137_any_layout.

(** A file as an editor writes it, one item in each line, indented with a tab. *)
Definition tab : string := String (ascii_of_nat 9) EmptyString.
Definition line_end : string := String (ascii_of_nat 13) (String (ascii_of_nat 10) EmptyString).
Definition C137_lines : string :=
  let q := double_quote in
  ("{" ++ line_end ++
   tab ++ q ++ "maximum_hamiltonian_rank" ++ q ++ ": 2," ++ line_end ++
   tab ++ q ++ "omega_max_order" ++ q ++ tab ++ ":3," ++ line_end ++
   tab ++ q ++ "maximum_coupled_cluster_rank" ++ q ++ ": 4" ++ line_end ++ "}" ++ line_end)%string.

Definition C137_items : list (tkey * Z) := [(KH, 2%Z); (KP, 3%Z); (KCC, 4%Z)].

Example C137_example :
  is_dict (dictionary_of C137_items) /\ exactly_valid Zhz (dictionary_of C137_items) /\
  object_layout C137_items C137_lines /\
  load_trunc_from_JSON C137_lines None = Ok (Some (dictionary_of C137_items)).
Proof.
  split; [|split; [|split; [|vm_compute; reflexivity]]].
  - unfold is_dict. cbn. repeat constructor; cbn; intuition discriminate.
  - repeat split.
    + intros k v H. cbn in H. destruct H as [H|[H|[H|[]]]]; injection H as <- <-; now eexists.
    + intros k top H. cbn in H. destruct H as [H|[H|[H|[]]]]; injection H as <- <-; eexists;
        (split; [unfold has_value; cbn; eauto|]); lia.
    + intros k v H. cbn in H. destruct H as [H|[H|[H|[]]]]; injection H as <- <-; do 2 eexists;
        (split; [reflexivity|cbn; eauto]).
  - assert (blank EmptyString) as H0 by constructor.
    assert (blank " ") as H1 by (repeat constructor).
    assert (blank tab) as H2 by (repeat constructor).
    assert (blank line_end) as H3 by (repeat (constructor; unfold blank_char; auto)).
    assert (blank (line_end ++ tab)) as H4 by (repeat (constructor; unfold blank_char; auto)).
    exists EmptyString. eexists. exists line_end.
    split; [exact H0|]. split; [exact H3|]. split.
    + apply layout_more; [|apply layout_more; [|apply layout_one]].
      * exists (line_end ++ tab)%string, EmptyString, " "%string, EmptyString. repeat (split; [assumption|]). reflexivity.
      * exists (line_end ++ tab)%string, tab, EmptyString, EmptyString. repeat (split; [assumption|]). reflexivity.
      * exists (line_end ++ tab)%string, EmptyString, " "%string, line_end. repeat (split; [assumption|]). reflexivity.
    + vm_compute. reflexivity.
Qed.

(** C137: if a name stands in the file more than once, its last value counts. *)
Theorem C137_repeated_names :
  forall t l text, object_layout l text ->
    (forall k v, In (k, v) l -> exists top, In (k, top) (documented t)) ->
    (forall k top, In (k, top) (documented t) -> exists v, last_value l k v /\ (1 <= v <= top)%Z) ->
    exists d, load_trunc_from_JSON text None = Ok (Some d) /\ is_dict d /\
      forall k v, has_value d k v <-> last_value l k v.
Proof. exact repeated_loads. Qed.
Print Assumptions C137_repeated_names.

(** The rank of the Hamiltonian stands there twice, the first time out of its bounds. *)
Example C137_repeated_example :
  let q := double_quote in
  let l := [(KH, 9%Z); (KCC, 4%Z); (KH, 2%Z); (KP, 3%Z)] in
  (forall k v, In (k, v) l -> exists top, In (k, top) (documented Zhz)) /\
  (forall k top, In (k, top) (documented Zhz) -> exists v, last_value l k v /\ (1 <= v <= top)%Z) /\
  load_trunc_from_JSON ("{" ++ q ++ "maximum_hamiltonian_rank" ++ q ++ ":9," ++
    q ++ "maximum_coupled_cluster_rank" ++ q ++ ":4," ++ q ++ "maximum_hamiltonian_rank" ++ q ++ ":2," ++
    q ++ "omega_max_order" ++ q ++ ":3}") None
  = Ok (Some [(DEnum KH, 2%Z); (DEnum KCC, 4%Z); (DEnum KP, 3%Z)]).
Proof.
  split; [|split; [|vm_compute; reflexivity]].
  - intros k v H. cbn in H. destruct H as [H|[H|[H|[H|[]]]]]; injection H as <- <-; eexists; cbn; eauto.
  - intros k top H. cbn in H. destruct H as [H|[H|[H|[]]]]; injection H as <- <-.
    + exists 2%Z. split; [|lia]. exists [(KH, 9%Z); (KCC, 4%Z)], [(KP, 3%Z)]. split; [reflexivity|cbn; intuition discriminate].
    + exists 4%Z. split; [|lia]. exists [(KH, 9%Z)], [(KH, 2%Z); (KP, 3%Z)]. split; [reflexivity|cbn; intuition discriminate].
    + exists 3%Z. split; [|lia]. exists [(KH, 9%Z); (KCC, 4%Z); (KH, 2%Z)], []. split; [reflexivity|cbn; intuition discriminate].
Qed.

(** Texts that are not layouts: a number with a leading zero, a comma after the last item. *)
Example C137_refused :
  let q := double_quote in
  load_trunc_from_JSON ("{" ++ q ++ "maximum_hamiltonian_rank" ++ q ++ ": 02}") None = Err ValueErr /\
  load_trunc_from_JSON ("{" ++ q ++ "maximum_hamiltonian_rank" ++ q ++ ": 2,}") None = Err ValueErr.
Proof. split; vm_compute; reflexivity. Qed.
