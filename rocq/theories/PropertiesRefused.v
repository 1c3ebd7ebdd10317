(** Words that the program does not understand. *)
From Coq Require Import List Arith ZArith Ascii String.
From Verif Require Import PyBase ModelTrunc ModelRun ModelCommandLine ModelMain SpecCommandLine SpecRefused ProofsCommandLine ProofsRefused.
Import ListNotations.
Local Open Scope string_scope.

(** C109: a word that begins with a dash, before any "--", and is not read as an
    option ends the program in the parser, whatever is around it, and no file is
    touched. *)
Theorem C109_unknown_words :
  forall lt ln lp pt pn pl pc messages fs before w after,
    ~ In "--" before -> dashed w -> w <> "--" -> ~ option_word w ->
    exists s, main lt ln lp pt pn pl pc messages fs (before ++ w :: after) = (fs, Parser s).
Proof. exact unknown_words_refused. Qed.
Print Assumptions C109_unknown_words.

(** C109: so does a word that no option takes: in front, or after a setting that
    is not -t. *)
Theorem C109_loose_values :
  forall lt ln lp pt pn pl pc messages fs ss wss w rest,
    Forall2 writes ss wss -> (forall before zs, ss <> (before ++ [STrunc zs])%list) -> plain w ->
    exists s, main lt ln lp pt pn pl pc messages fs (List.concat wss ++ w :: rest) = (fs, Parser s).
Proof. exact loose_values_refused. Qed.
Print Assumptions C109_loose_values.

(** C109: and after -t, a word that is not a whole number. *)
Theorem C109_not_a_number :
  forall lt ln lp pt pn pl pc messages fs ss wss ws c r rest,
    Forall2 writes ss wss -> Forall plain ws -> In (String c r) ws -> letter_or_dot c ->
    exists s, main lt ln lp pt pn pl pc messages fs (List.concat wss ++ "-t" :: ws ++ rest) = (fs, Parser s).
Proof. exact not_a_number_refused. Qed.
Print Assumptions C109_not_a_number.

(** C109: the words that could be two options are -lh and those that begin with
    --= . *)
Theorem C109_ambiguous_words :
  forall lt ln lp pt pn pl pc messages fs before w after,
    ~ In "--" before -> w = "-lh" \/ (exists v, w = "--=" ++ v) ->
    main lt ln lp pt pn pl pc messages fs (before ++ w :: after) = (fs, Parser Usage).
Proof. exact ambiguous_words_refused. Qed.
Print Assumptions C109_ambiguous_words.

(** C109: asking for the help text among settings shows it and does nothing else. *)
Theorem C109_help :
  forall lt ln lp pt pn pl pc messages fs ss wss ss' wss' n,
    Forall2 writes ss wss -> Forall2 writes ss' wss' -> In n ["-h"; "--h"; "--he"; "--hel"; "--help"] ->
    main lt ln lp pt pn pl pc messages fs (List.concat wss ++ n :: List.concat wss') = (fs, Parser Help).
Proof. exact help_refused. Qed.
Print Assumptions C109_help.

Definition any_main := main (fun l => l) (fun l => l) (fun l => l) (fun l => l) (fun l => l) (fun l => l) (fun l => l) "messages".
Example C109_example :
  (forall fs, any_main fs ["-t"; "1"; "1"; "1"; "--anzatz"; "z_t"] = (fs, Parser Usage)) /\
  (forall fs, any_main fs ["-c"; "out"; "-t"; "1"; "1"; "1"] = (fs, Parser Usage)) /\
  (forall fs, any_main fs ["-t"; "1"; "1"; "two"; "-c"] = (fs, Parser Usage)) /\
  (forall fs, any_main fs ["-lh"; "-h"] = (fs, Parser Usage)) /\ (forall fs, any_main fs ["--unknown"; "-h"] = (fs, Parser Help)) /\
  dashed "--anzatz" /\ ~ option_word "--anzatz" /\ option_word "-es=c" /\ parse_args ["-es=c"] = parse_args ["-es"; "-c"].
Proof.
  do 5 (split; [intros fs; vm_compute; reflexivity|]). split; [|split; [|split; [|vm_compute; reflexivity]]].
  - exists "-"%char, "anzatz". split; [reflexivity|]. split; [|split].
    + intros a b E. assert (I : In " "%char (list_ascii_of_string "--anzatz")).
      { rewrite E. clear E. induction a as [|x a IH]; [now left|]. now right. }
      cbn in I. repeat (destruct I as [I|I]; [discriminate I|]). exact I.
    + intros [A B]. vm_compute in A. repeat (apply le_S_n in A). inversion A.
    + discriminate.
  - apply not_option_word. vm_compute. reflexivity.
  - left. exists "-es". split; [left; vm_compute; tauto|]. right. now exists "c".
Qed.
