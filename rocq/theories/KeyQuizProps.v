(** Properties of quizzes answered with keys. *)
From Verif Require Import BaseFacts ChoiceModel ChoiceSpec QuizModel GroupModel StartModel MainModel TermModel TermSpec TermProps KeyQuizModel KeyQuizSpec KeyQuizProofs KeyQuizRun.
Open Scope N_scope.
Arguments N.mul : simpl never. Arguments N.add : simpl never. Arguments N.sub : simpl never. Arguments N.pow : simpl never.

(** what a run ends with, if it ends *)
Definition ends_in {R A} (m : res (State R) A) (s : State R) : Prop := (exists a, m = Ok a s) \/ exists e, m = Err e s.
Lemma keeps_ends : forall ic ec R A t (m : res (State R) A) s, keeps ic ec R t m -> ends_in m s -> inEof (input R s) = false ->
  exists t', key_run ic ec (events R s) t t' /\ lines_left (input R s) (map typed (tReads t')).
Proof. intros ic ec R A t m s K [[a ->]|[e ->]] H; (destruct K as [K|K]; [congruence|exact K]). Qed.

Lemma bind_val : forall A B (m : L A) (k : A -> L B) y, snd (lbind m k) = Val y -> exists x, snd m = Val x /\ snd (k x) = Val y.
Proof. intros A B [w [x| | |]] k y E; try discriminate E. exists x. split; [reflexivity|]. cbn [lbind] in E. destruct (k x). exact E. Qed.

(** * C143: keys and lines *)

(** keys are answers like lines: for all keys there is an input with these lines *)
Theorem C143_lines : forall rs, exists i, lines_left i (map typed rs).
Proof.
  intros [|r rs]; [exists (MkIn [] true); reflexivity|]. exists (MkIn (join 10 (map typed (r :: rs))) false). split; [discriminate|]. split; [|reflexivity].
  unfold free_of. apply Forall_forall. intros l Hl. apply in_map_iff in Hl. destruct Hl as (x & <- & _). destruct x as [c| |]; [|intros [K|[]]; discriminate K|intros [K|[]]; discriminate K].
  destruct (N.eq_dec c 10) as [->|K]; [intros []|]. rewrite typed_other by exact K. intros [X|[]]. congruence.
Qed.
Print Assumptions C143_lines.
(** a list quiz, a group quiz and the questions before them: if a run with lines ends, also with an exception, before its input does, then
    its questions get the same answers from the keys, and the same number of keys is left *)
Theorem C143_quiz : forall ic ec R draw shuffle shuffleGroups other extra details d meaningGroups patternGroups fuel p i r t s',
  lines_left i (map typed (tReads t)) ->
  ends_in (startOptions R draw shuffle shuffleGroups other extra details d meaningGroups patternGroups fuel p i r) s' -> inEof (input R s') = false ->
  exists t', key_run ic ec (events R s') t t' /\ lines_left (input R s') (map typed (tReads t')).
Proof. intros. eapply keeps_ends; [apply kp_options; eassumption|eassumption|assumption]. Qed.
Print Assumptions C143_quiz.
Theorem C143_list : forall ic ec R draw shuffle extra details fuel l question m lst fields count style i r t s',
  quitOption l = launcherQuit -> lines_left i (map typed (tReads t)) ->
  ends_in (listQuiz R draw shuffle extra details fuel l question m lst fields count style i r) s' -> inEof (input R s') = false ->
  exists t', key_run ic ec (events R s') t t' /\ lines_left (input R s') (map typed (tReads t')).
Proof. intros. eapply keeps_ends; [apply kp_list; [eassumption|left; eassumption]|eassumption|assumption]. Qed.
Print Assumptions C143_list.
Theorem C143_groups : forall ic ec R shuffleGroups shuffle other fuel l question shown lst m i r t s',
  quitOption l = launcherQuit -> lines_left i (map typed (tReads t)) ->
  ends_in (groupQuiz R shuffleGroups shuffle other fuel l question shown lst m i r) s' -> inEof (input R s') = false ->
  exists t', key_run ic ec (events R s') t t' /\ lines_left (input R s') (map typed (tReads t')).
Proof. intros. eapply keeps_ends; [apply kp_groups; [eassumption|left; eassumption]|eassumption|assumption]. Qed.
Print Assumptions C143_groups.
(** the program kanjiQuiz *)
Theorem C143_program : forall ic ec fs writable cwd reg sort sortNames ltr fuel R draw shuffle shuffleGroups l st i r t q s',
  snd (quizMain fs writable cwd reg sort sortNames ltr fuel R draw shuffle shuffleGroups l st i r) = Val (DoneQuiz R q) ->
  lines_left i (map typed (tReads t)) -> ends_in q s' -> inEof (input R s') = false ->
  exists t', key_run ic ec (events R s') t t' /\ lines_left (input R s') (map typed (tReads t')).
Proof.
  intros ic ec fs writable cwd reg sort sortNames ltr fuel R draw shuffle shuffleGroups l st i r t q s' E Hi Hq He.
  assert (X : exists d gd jd p, q = quizWith sortNames fuel R draw shuffle shuffleGroups d gd jd p i r).
  { unfold quizMain, quizRun in E. destruct (bind_val _ _ _ _ _ E) as (a & _ & E1). destruct (bind_val _ _ _ _ _ E1) as ([[[dir mode] e] d] & _ & E2).
    destruct (bind_val _ _ _ _ _ E2) as ([gd f] & _ & E3). destruct (bind_val _ _ _ _ _ E3) as (jd & _ & E4). unfold llift in E4. cbn [snd] in E4. unfold launch in E4.
    destruct (readArgs fuel a) as [c| | |]; try discriminate E4. cbn [obind] in E4. destruct c as [arg| |p]; try discriminate E4.
    - destruct (processKanjiArg sortNames d (envUcd e) gd jd arg); discriminate E4.
    - destruct (startsQuiz (isDebug mode) false p); [|discriminate E4]. injection E4 as <-. exists d, gd, jd, p. reflexivity. }
  destruct X as (d & gd & jd & p & ->). unfold quizWith in Hq. eapply C143_quiz; eassumption.
Qed.
Print Assumptions C143_program.
(** a wrong key, then test mode, from the beginning, meanings, and quitting; a key is left *)
Example C143_case : forall d, let i := MkIn (b_ "x" ++ [10] ++ b_ "t" ++ [10] ++ b_ "b" ++ [10] ++ b_ "m" ++ [10] ++ b_ "/" ++ [10] ++ b_ "q") false in
  let t := MkTerm (Some (TermModel.MkSettings 10 1 0 [])) (map ReadKey (b_ "xtbm/q")) [] [] in
  exists s', ends_in (startOptions N (fun _ r => (0, r)) (fun l r => (l, r)) (fun l r => (l, r)) (fun _ _ => None) (fun _ => []) (fun _ => []) d [] [] 10
                       LaunchModel.noSettings i 0) s'
  /\ inEof (input N s') = false /\ lines_left i (map typed (tReads t))
  /\ flat_map (fun e => match e with Asked _ c _ => [c] | _ => [] end) (events N s') = b_ "tbm/" /\ lines_left (input N s') [b_ "q"].
Proof.
  intros d. cbv zeta. eexists. split; [left; eexists; vm_compute; reflexivity|]. split; [reflexivity|]. split.
  { split; [discriminate|]. split; [|reflexivity]. repeat (apply Forall_cons; [intros [K|[]]; discriminate K|]). apply Forall_nil. }
  split; [reflexivity|]. split; [discriminate|]. split; [|reflexivity]. repeat (apply Forall_cons; [intros [K|[]]; discriminate K|]). apply Forall_nil.
Qed.
