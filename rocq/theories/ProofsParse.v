(** An executable reader of python text, sound for the relation of SpecPython.v.
    It is used to read fixed pieces of text by computation. *)
From Coq Require Import List Arith Bool Ascii String Lia.
From Verif Require Import PyBase PyStr SpecPython ProofsStr ProofsPython.
Import ListNotations.
Local Open Scope nat_scope.
Local Open Scope list_scope.

(** The condition of an [if] or [elif] line whose keyword has [n] letters. *)
Definition middle (n : nat) (t : string) : string := String.substring n (String.length t - n - 1) t.
Definition if_condition (t : string) : option string :=
  let c := middle 3 t in if String.eqb (if_line c) t then Some c else None.
Definition elif_condition (t : string) : option string :=
  let c := middle 5 t in if String.eqb (elif_line c) t then Some c else None.
Lemma if_condition_sound t c : if_condition t = Some c -> t = if_line c.
Proof. unfold if_condition. destruct (String.eqb_spec (if_line (middle 3 t)) t) as [E|]; [|discriminate]. intros [= <-]. now symmetry. Qed.
Lemma elif_condition_sound t c : elif_condition t = Some c -> t = elif_line c.
Proof. unfold elif_condition. destruct (String.eqb_spec (elif_line (middle 5 t)) t) as [E|]; [|discriminate]. intros [= <-]. now symmetry. Qed.

(** Statements at indentation [i] up to the first line that is indented less. *)
Fixpoint parse (fuel : nat) (i : nat) (ls : list lline) : option (list stmt * list lline) :=
  match fuel with
  | 0 => None
  | S fuel =>
      match ls with
      | [] => Some ([], [])
      | (j, t) :: r =>
          if Nat.ltb j i then Some ([], ls)
          else if negb (Nat.eqb j i) then None
          else if negb (is_head t) then
            match parse fuel i r with Some (b, rest) => Some (Simple t :: b, rest) | None => None end
          else
            match r with
            | [] => None
            | (k, _) :: _ =>
                if negb (Nat.ltb i k) then None
                else match parse fuel k r with
                | Some (s1 :: b1, r1) =>
                    match if_condition t with
                    | Some c =>
                        let plain := match parse fuel i r1 with Some (b, rest) => Some (If c (s1 :: b1) [] :: b, rest) | None => None end in
                        match r1 with
                        | (j', t') :: r2 =>
                            if negb (Nat.eqb j' i) then plain
                            else if String.eqb t' "else:" then
                              match r2 with
                              | [] => None
                              | (k', _) :: _ =>
                                  if negb (Nat.ltb i k') then None
                                  else match parse fuel k' r2 with
                                  | Some (s2 :: b2, r3) =>
                                      match parse fuel i r3 with Some (b, rest) => Some (If c (s1 :: b1) (s2 :: b2) :: b, rest) | None => None end
                                  | _ => None
                                  end
                              end
                            else match elif_condition t' with
                                 | Some c' =>
                                     match parse fuel i ((i, if_line c') :: r2) with
                                     | Some (If c'' yes no :: b, rest) =>
                                         if String.eqb c'' c' then Some (If c (s1 :: b1) [If c' yes no] :: b, rest) else None
                                     | _ => None
                                     end
                                 | None => plain
                                 end
                        | [] => plain
                        end
                    | None =>
                        if other_head t then
                          match parse fuel i r1 with Some (b, rest) => Some (Block t (s1 :: b1) :: b, rest) | None => None end
                        else None
                    end
                | _ => None
                end
            end
      end
  end.

Lemma parse_sound fuel : forall i ls b rest, parse fuel i ls = Some (b, rest) ->
  exists ls', ls = ls' ++ rest /\ reads i ls' b.
Proof.
  unfold lline in *. induction fuel as [|fuel IH]; intros i ls b rest E; [discriminate|]. cbn [parse] in E.
  destruct ls as [|[j t] r]; [injection E as <- <-; exists []; split; [reflexivity|constructor]|].
  destruct (Nat.ltb j i); [injection E as <- <-; exists []; split; [reflexivity|constructor]|].
  destruct (Nat.eqb_spec j i) as [->|]; cbn [negb] in E; [|discriminate].
  destruct (is_head t) eqn:Eh; cbn [negb] in E.
  2:{ destruct (parse fuel i r) as [[b' rest']|] eqn:Er; [|discriminate]. injection E as <- <-. destruct (IH _ _ _ _ Er) as (l & -> & R).
      exists ((i, t) :: l). split; [reflexivity|]. now apply reads_simple. }
  destruct r as [|[k u] r]; [discriminate|]. destruct (Nat.ltb_spec i k); cbn [negb] in E; [|discriminate].
  match type of E with context [parse fuel k ?x] => destruct (parse fuel k x) as [[[|s1 b1] r1]|] eqn:E1 end; [discriminate| |discriminate].
  destruct (IH _ _ _ _ E1) as (inner & Ei & R1).
  destruct (if_condition t) as [c|] eqn:Ec.
  - apply if_condition_sound in Ec. subst t.
    assert (P : match parse fuel i r1 with Some (b, rest) => Some (If c (s1 :: b1) [] :: b, rest) | None => None end = Some (b, rest) ->
      exists ls', (i, if_line c) :: (k, u) :: r = ls' ++ rest /\ reads i ls' b).
    { destruct (parse fuel i r1) as [[b' rest']|] eqn:E2; [|discriminate]. intros [= <- <-]. destruct (IH _ _ _ _ E2) as (l & -> & R2).
      exists ((i, if_line c) :: inner ++ l). split; [rewrite Ei; cbn [app]; now rewrite app_assoc|]. now apply (reads_if i c k). }
    destruct r1 as [|[j' t'] r2]; [exact (P E)|].
    destruct (Nat.eqb_spec j' i) as [->|]; cbn [negb] in E; [|exact (P E)].
    destruct (String.eqb_spec t' "else:") as [->|].
    + destruct r2 as [|[k' u'] r2]; [discriminate|]. destruct (Nat.ltb_spec i k'); cbn [negb] in E; [|discriminate].
      match type of E with context [parse fuel k' ?x] => destruct (parse fuel k' x) as [[[|s2 b2] r3]|] eqn:E2 end; [discriminate| |discriminate]. destruct (IH _ _ _ _ E2) as (inner' & Ei' & R2).
      destruct (parse fuel i r3) as [[b' rest']|] eqn:E3; [|discriminate]. injection E as <- <-. destruct (IH _ _ _ _ E3) as (l & -> & R3).
      exists ((i, if_line c) :: inner ++ (i, "else:"%string) :: inner' ++ l). split.
      * rewrite Ei, Ei'. cbn [app]. rewrite <- !app_assoc. cbn [app]. now rewrite <- app_assoc.
      * now apply (reads_if_else i c k inner k').
    + destruct (elif_condition t') as [c'|] eqn:Ec'; [|exact (P E)]. apply elif_condition_sound in Ec'. subst t'.
      match type of E with context [parse fuel i (?a :: ?x)] => destruct (parse fuel i (a :: x)) as [[[|[|c'' yes no|] b'] rest']|] eqn:E2 end; try discriminate.
      destruct (String.eqb_spec c'' c') as [->|]; [|discriminate]. injection E as <- <-. destruct (IH _ _ _ _ E2) as (l & El & R2).
      destruct l as [|x l]; [destruct (reads_first _ _ _ R2) as (_ & _ & Z); destruct Z as [Z _]; discriminate (Z eq_refl)|].
      cbn [app] in El. injection El as <- El.
      exists ((i, if_line c) :: inner ++ (i, elif_line c') :: l). split.
      * rewrite Ei, El. cbn [app]. rewrite <- !app_assoc. reflexivity.
      * now apply (reads_elif i c k).
  - destruct (other_head t) eqn:Eo; [|discriminate]. destruct (parse fuel i r1) as [[b' rest']|] eqn:E2; [|discriminate]. injection E as <- <-.
    destruct (IH _ _ _ _ E2) as (l & -> & R2). exists ((i, t) :: inner ++ l). split; [rewrite Ei; cbn [app]; now rewrite app_assoc|].
    now apply (reads_block i t k).
Qed.

(** Reading a list of physical lines. *)
Definition parse_lines (i : nat) (ls : list string) : option (list stmt) :=
  match lex Top ls with
  | Some (Top, out) => match parse (2 * List.length out + 1) i out with Some (b, []) => Some b | _ => None end
  | _ => None
  end.
Lemma parse_lines_sound i ls b : parse_lines i ls = Some b -> piece i ls b.
Proof.
  unfold parse_lines. destruct (lex Top ls) as [[[| |] out]|] eqn:E; try discriminate.
  destruct (parse (2 * List.length out + 1) i out) as [[b' [|]]|] eqn:P; try discriminate. intros [= <-].
  destruct (parse_sound _ _ _ _ _ P) as (l & El & R). rewrite app_nil_r in El. subst l. exists out. now split.
Qed.
Lemma parse_python text b : parse_lines 0 (lines_of text) = Some b -> python text b.
Proof. intros H. now apply piece_python, parse_lines_sound. Qed.

(** ** Text of complete lines *)

(** The text [t] is a sequence of complete lines that read as [b] at
    indentation [i]. *)
Definition block (i : nat) (t : string) (b : list stmt) : Prop :=
  exists ls, Forall (fun l => has_char newline l = false) ls /\ t = concat_str (map (fun l => l ++ nl)%string ls) /\ piece i ls b.

Lemma concat_str_app a b : concat_str (a ++ b) = (concat_str a ++ concat_str b)%string.
Proof. unfold concat_str. induction a as [|x a IH]; [reflexivity|]. cbn [app fold_right]. now rewrite IH, append_assoc. Qed.
Lemma block_nil i : block i "" [].
Proof. exists []. split; [constructor|]. split; [reflexivity|apply piece_nil]. Qed.
Lemma block_app i t u b c : block i t b -> block i u c -> block i (t ++ u) (b ++ c).
Proof.
  intros (l & F & -> & P) (m & G & -> & Q). exists (l ++ m). split; [now apply Forall_app|]. split; [|now apply piece_app].
  now rewrite map_app, concat_str_app.
Qed.
Lemma block_concat {A} i (f : A -> string) (g : A -> list stmt) l : (forall x, In x l -> block i (f x) (g x)) ->
  block i (concat_str (map f l)) (flat_map g l).
Proof.
  induction l as [|x l IH]; intros H; [apply block_nil|]. cbn [map flat_map].
  change (concat_str (f x :: map f l)) with (f x ++ concat_str (map f l))%string. apply block_app; [apply H; now left|]. apply IH. intros; apply H. now right.
Qed.
Lemma block_closed t b : block 0 t b -> closed t b.
Proof. intros (ls & F & -> & P). now apply closed_lines. Qed.
Lemma block_lines i ls b : Forall (fun l => has_char newline l = false) ls -> piece i ls b -> block i (concat_str (map (fun l => l ++ nl)%string ls)) b.
Proof. intros F P. exists ls. auto. Qed.

(** Fixed text, by computation: the last line must be empty. *)
Lemma lines_of_no_newline s : Forall (fun l => has_char newline l = false) (lines_of s).
Proof.
  induction s as [|c s IH]; [now repeat constructor|]. cbn [lines_of]. destruct (Ascii.eqb c newline) eqn:E; [now constructor|].
  destruct (lines_of s) as [|l ls]; constructor; try constructor.
  - unfold has_char in *. cbn [chars existsb] in *. rewrite Ascii.eqb_sym, E. assumption || reflexivity.
  - apply Forall_cons_iff in IH as [H _]. unfold has_char in *. cbn [chars existsb] in *. rewrite Ascii.eqb_sym, E. assumption || reflexivity.
  - now apply Forall_cons_iff in IH as [_ H].
Qed.
Lemma lines_of_back s : forall ls, lines_of s = ls ++ [""%string] -> s = concat_str (map (fun l => l ++ nl)%string ls).
Proof.
  induction s as [|c s IH]; intros ls E.
  - destruct ls as [|x ls]; [reflexivity|]. injection E as _ E. destruct ls; discriminate.
  - cbn [lines_of] in E. destruct (Ascii.eqb_spec c newline) as [->|Nc].
    + destruct ls as [|x ls]; [injection E as E; now elim (lines_of_nonempty s)|]. injection E as <- E.
      cbn [map]. change (concat_str (("" ++ nl)%string :: ?l)) with (nl ++ concat_str l)%string. rewrite nl_append. f_equal. now apply IH.
    + destruct (lines_of s) as [|l m] eqn:El; [now elim (lines_of_nonempty s)|].
      destruct ls as [|x ls]; [discriminate|]. injection E as <- E. rewrite (IH (l :: ls) (f_equal (cons l) E)). cbn [map].
      change (concat_str (?a :: ?l)) with (a ++ concat_str l)%string. reflexivity.
Qed.
Definition parse_text (i : nat) (t : string) : option (list stmt) :=
  match rev (lines_of t) with
  | "" :: r => parse_lines i (rev r)
  | _ => None
  end%string.
Lemma block_text i t b : parse_text i t = Some b -> block i t b.
Proof.
  unfold parse_text. destruct (rev (lines_of t)) as [|[|] r] eqn:E; try discriminate. intros P.
  assert (L : lines_of t = rev r ++ [""%string]) by (rewrite <- (rev_involutive (lines_of t)), E; reflexivity).
  exists (rev r). split; [|split].
  - pose proof (lines_of_no_newline t) as F. rewrite L in F. now apply Forall_app in F as [F _].
  - now apply lines_of_back.
  - now apply parse_lines_sound.
Qed.

(** A head line and the block below it. *)
Lemma block_head i j l t u b : has_char newline l = false -> lex_line Top l = Some (Top, [(i, t)]) -> other_head t = true -> i < j -> b <> [] ->
  block j u b -> block i (l ++ nl ++ u) [Block t b].
Proof.
  intros O L H J N (ls & F & -> & P). exists (l :: ls). split; [now constructor|]. split.
  - cbn [map]. change (concat_str (?a :: ?l)) with (a ++ concat_str l)%string. now rewrite append_assoc.
  - now apply (piece_block i l t j).
Qed.
Lemma block_condition i j l c u b : has_char newline l = false -> lex_line Top l = Some (Top, [(i, if_line c)]) -> i < j -> b <> [] ->
  block j u b -> block i (l ++ nl ++ u) [If c b []].
Proof.
  intros O L J N (ls & F & -> & P). exists (l :: ls). split; [now constructor|]. split.
  - cbn [map]. change (concat_str (?a :: ?l)) with (a ++ concat_str l)%string. now rewrite append_assoc.
  - now apply (piece_if i l c j).
Qed.
