(** The words of the command line. *)
From Coq Require Import List Arith ZArith Ascii String Permutation.
From Verif Require Import PyBase ModelTrunc ModelCommandLine SpecCommandLine ProofsCommandLine.
Import ListNotations.
Local Open Scope string_scope.

(** C105: words that write settings, in whatever spelling, are read as these
    settings. *)
Theorem C105_command_line :
  forall ss wss, Forall2 writes ss wss -> parse_args (List.concat wss) = Done (asked ss).
Proof. exact command_line. Qed.
Print Assumptions C105_command_line.

Example C105_example :
  let ss := [STrunc [2; -10; 3]%Z; SAnsatz "z_t ansatz"; SExcited; SPath "-x"; SRemoveF ""; SLhs; SCode] in
  let wss := [["-t"; "2"; "-10"; "003"]; ["--an=z_t ansatz"]; ["-e"]; ["-p-x"]; ["-r"; ""]; ["-lhs"]; ["--c"]] in
  Forall2 writes ss wss /\
  parse_args (List.concat wss) = Done (mkns (mkArgs (Some [2; -10; 3]%Z) (Some "-x") (Some "z_t ansatz") true (Some "") true true) "default_logging_file.txt" false).
Proof.
  cbv zeta. split; [|vm_compute; reflexivity].
  assert (D : forall l, forallb digit_char l = true -> Forall is_digit l).
  { intros l H. apply Forall_forall. intros c I. rewrite forallb_forall in H. now apply digit_is, H. }
  repeat apply Forall2_cons; [| | | | | | |constructor].
  - apply (write_numbers (STrunc [2; -10; 3]%Z) [2; -10; 3]%Z ["2"; "-10"; "003"]); [reflexivity|discriminate|].
    repeat constructor.
    + exists ["2"%char]. split; [discriminate|]. split; [now apply D|]. left. now split.
    + exists ["1"; "0"]%char. split; [discriminate|]. split; [now apply D|]. right. now split.
    + exists ["0"; "0"; "3"]%char. split; [discriminate|]. split; [now apply D|]. left. now split.
  - apply (write_equals (SAnsatz "z_t ansatz") "--an" "z_t ansatz"); [reflexivity| |discriminate|right; now exists "an"].
    right. right. right. exists "--ansatz", "a"%char, "n", "satz". repeat split.
  - apply (write_flag SExcited "-e"); [reflexivity|]. right. left. now split.
  - apply (write_joined (SPath "-x") "-" "x"); [reflexivity|now right|discriminate|discriminate].
  - apply (write_text (SRemoveF "") "-r" ""); [reflexivity| |discriminate]. right. right. left. now split.
  - apply (write_flag SLhs "-lhs"); [reflexivity|now left].
  - apply (write_flag SCode "--c"); [reflexivity|]. right. right. right. exists "--code", "c"%char, "", "ode". repeat split.
Qed.

(** C105: the order of different settings makes no difference. *)
Theorem C105_order :
  forall ss wss ss' wss', Forall2 writes ss wss -> Forall2 writes ss' wss' ->
    Permutation ss ss' -> NoDup (map short_name ss) -> parse_args (List.concat wss) = parse_args (List.concat wss').
Proof. exact command_line_order. Qed.
Print Assumptions C105_order.

(** C105: the requests that can be asked for are those without the text "--". *)
Theorem C105_requests :
  forall ns, (exists words, parse_args words = Done ns) <-> ~ In "--" (texts ns).
Proof. exact requests_exact. Qed.
Print Assumptions C105_requests.

(** C105: after an option with a text, a word that begins with a dash is refused. *)
Theorem C105_dashed_values :
  forall ss wss s n v w rest, Forall2 writes ss wss -> needs_of s = Text v -> name_of s n -> dashed w ->
    parse_args (List.concat wss ++ n :: w :: rest) = Stop Usage.
Proof. exact dashed_rejected. Qed.
Print Assumptions C105_dashed_values.

Example C105_dashed_example : dashed "-x.json" /\ parse_args ["-p"; "-x.json"] = Stop Usage /\ parse_args ["-p=-x.json"] = Done (asked [SPath "-x.json"]).
Proof.
  split; [|split; vm_compute; reflexivity]. exists "x"%char, ".json". split; [reflexivity|]. split; [|split].
  - intros a b E. assert (I : In " "%char (list_ascii_of_string "-x.json")).
    { rewrite E. clear E. induction a as [|x a IH]; [now left|]. now right. }
    cbn in I. repeat (destruct I as [I|I]; [discriminate I|]). exact I.
  - intros [_ B]. vm_compute in B. repeat (apply le_S_n in B). inversion B.
  - discriminate.
Qed.
