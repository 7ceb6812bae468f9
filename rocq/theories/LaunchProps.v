(** Properties of the command line of the quiz program. *)
From Verif Require Import BaseFacts ArgsProofs ColumnFileLemmas LaunchModel LaunchSpec LaunchProofs LaunchLoop.
Open Scope N_scope.

(** C46: a mode argument is accepted exactly in its documented forms, with the mode, order and
    question that they stand for *)
Theorem C46_mode_argument : forall x s m o q, x = 114 \/ x = 116 ->
  (processProgramModeArg NoMode NoOrder (45 :: x :: s) = Val (m, o, q) <-> documented (45 :: x :: s) (OMode m o q)).
Proof.
  intros x s m o q Hx. split; [|apply mode_arg_doc]. intro E.
  destruct (mode_arg_cases x s Hx) as [(m' & o' & q' & E' & D)|(e & E' & _)]; rewrite E in E'; [|discriminate].
  inversion E'; subst. exact D.
Qed.
Print Assumptions C46_mode_argument.

(** C46: every other one is refused with DomainError, except if std::stoul gets a number it cannot
    convert (see C46_refusal_refuted) *)
Theorem C46_refusal_partial : forall x s, x = 114 \/ x = 116 ->
  (forall m o q, ~ documented (45 :: x :: s) (OMode m o q)) -> (forall e, ~ unconvertible (45 :: x :: s) e) ->
  processProgramModeArg NoMode NoOrder (45 :: x :: s) = Throw DomainError.
Proof.
  intros x s Hx N U. destruct (mode_arg_cases x s Hx) as [(m & o & q & _ & D)|(e & E & [->|X])].
  - exfalso. exact (N _ _ _ D).
  - exact E.
  - exfalso. exact (U _ X).
Qed.
Print Assumptions C46_refusal_partial.
Theorem C46_unconvertible : forall arg e, unconvertible arg e -> processProgramModeArg NoMode NoOrder arg = Throw e.
Proof. exact mode_arg_unc. Qed.
Print Assumptions C46_unconvertible.
(** C46 is false as stated: "-t-" throws std::invalid_argument and a long number std::out_of_range *)
Theorem C46_refusal_refuted : exists a b,
  processProgramModeArg NoMode NoOrder a = Throw StdInvalidArgument
  /\ processProgramModeArg NoMode NoOrder b = Throw StdOutOfRange
  /\ (forall o, ~ documented a o) /\ a = b_ "-t-" /\ b = b_ "-r18446744073709551616".
Proof.
  exists (b_ "-t-"), (b_ "-r18446744073709551616"). split; [reflexivity|]. split; [vm_compute; reflexivity|]. split; [|split; reflexivity].
  intros o D. destruct o as [m o q|t l|].
  - apply mode_arg_doc in D. discriminate.
  - change (b_ "-t-") with [45; 116; 45] in D. inversion D; subst. inversion H2.
  - inversion D.
Qed.
Print Assumptions C46_refusal_refuted.
(** C46: only one mode can be given *)
Theorem C46_second_mode : forall m o arg, m <> NoMode -> processProgramModeArg m o arg = Throw DomainError.
Proof. intros m o arg H. destruct m; [reflexivity|reflexivity|congruence]. Qed.
Print Assumptions C46_second_mode.

Example C46_example :
  processProgramModeArg NoMode NoOrder (b_ "-r40") = Val (Review, FromBeginning, 40)
  /\ documented (b_ "-t-7") (OMode QuizMode FromEnd 7)
  /\ processProgramModeArg NoMode NoOrder (b_ "-t0") = Val (QuizMode, RandomOrder, 0)
  /\ processProgramModeArg NoMode NoOrder (b_ "-t00") = Val (QuizMode, FromBeginning, 0)
  /\ processProgramModeArg NoMode NoOrder (b_ "-t65536") = Throw DomainError.
Proof.
  split; [reflexivity|]. split; [|split; [reflexivity|split; reflexivity]].
  apply (doc_minus 116 QuizMode [55]); [right; auto|split; [discriminate|repeat constructor; discriminate]|discriminate].
Qed.

(** C85: the whole command line is read exactly as the help text describes it *)
Theorem C85_command_line : forall fuel prog l c, len (prog :: l) < 65535 -> (S (length (prog :: l)) < fuel)%nat ->
  (readArgs fuel (argsOf (prog :: l)) = Val c <-> command (kept l) c).
Proof. exact read_iff. Qed.
Print Assumptions C85_command_line.
(** C85: everything else is refused, with DomainError unless the argument after legal options is one
    that std::stoul cannot convert *)
Theorem C85_refused : forall fuel prog l, len (prog :: l) < 65535 -> (S (length (prog :: l)) < fuel)%nat ->
  (forall c, ~ command (kept l) c) ->
  exists e, readArgs fuel (argsOf (prog :: l)) = Throw e
    /\ (e = DomainError \/ exists before a after os, kept l = before ++ a :: after /\ options before os /\ unconvertible a e).
Proof.
  intros fuel prog l H1 H2 N. destruct (read_total fuel prog l H1 H2) as [(c & E)|X]; [|exact X].
  exfalso. apply (N c). apply (read_iff fuel prog l c H1 H2). exact E.
Qed.
Print Assumptions C85_refused.
(** C85: options have one meaning, and so has a command line *)
Theorem C85_meaning_unique : forall l c1 c2, command l c1 -> command l c2 -> c1 = c2.
Proof. intros l c1 c2 H1 H2. apply run_command in H1, H2. congruence. Qed.
Print Assumptions C85_meaning_unique.
(** C85: the options are read by the constructor in the same way in any order *)
Theorem C85_any_order : forall l1 l2 os1 os2 p, options l1 os1 -> options l2 os2 -> (forall o, In o os1 <-> In o os2) ->
  command l1 (Options p) -> command l2 (Options p).
Proof.
  intros l1 l2 os1 os2 p O1 O2 P C.
  assert (C1 : command l1 (Options (fold_left applyO os1 noSettings))) by (eapply cmd_options; [exact O1|eapply settings_fold; exact O1]).
  pose proof (C85_meaning_unique _ _ _ C C1) as E. assert (E' : p = fold_left applyO os1 noSettings) by congruence. subst p. eapply cmd_options; [exact O2|].
  pose proof (settings_fold _ _ O1) as (A1 & A2 & A3 & A4 & A5). split; [|split; [|split; [|split]]].
  - intros m o q I. apply A1. apply P. exact I.
  - intro N. apply A2. intros m o q I. apply (N m o q). apply P. exact I.
  - intros t l I. apply A3. apply P. exact I.
  - intro N. apply A4. intros t l I. apply (N t l). apply P. exact I.
  - rewrite A5. apply P.
Qed.
Print Assumptions C85_any_order.

Example C85_example :
  readArgs 20 (argsOf [b_ "kanjiQuiz"; b_ "-r40"; b_ "-data"; b_ "dir"; b_ "-s"; b_ "-l1"])
    = Val (Options (MkSettings (Some 108) (Some 49) 40 true Review FromBeginning))
  /\ readArgs 20 (argsOf [b_ "kanjiQuiz"; b_ "-g"; b_ "--"; b_ "-h"]) = Val (KanjiDetails (b_ "-h"))
  /\ readArgs 20 (argsOf [b_ "kanjiQuiz"; b_ "-g7"]) = Throw DomainError
  /\ readArgs 20 (argsOf [b_ "kanjiQuiz"; b_ "-g"; b_ "-f1"]) = Throw DomainError
  /\ (exists os, options [b_ "-r40"; b_ "-s"; b_ "-l1"] os).
Proof.
  split; [reflexivity|]. split; [reflexivity|]. split; [reflexivity|]. split; [reflexivity|].
  exists [OMode Review FromBeginning 40; OMeanings; OType 108 (Some 49)]. split; [|split; cbn; lia].
  constructor; [|constructor; [exact doc_meanings|constructor; [|constructor]]].
  - apply (doc_number 114 Review [52; 48]); [left; auto|split; [discriminate|repeat constructor; discriminate]|discriminate|discriminate].
  - apply (doc_list 108 (b_ "12345") 49); [constructor|left; reflexivity].
Qed.
