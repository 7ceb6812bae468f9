(** C135: the message about a quiz that cannot be started, for any list, groups and command line. *)
From Verif Require Import BaseFacts ArgsProofs LaunchLoop QuizSample GroupSample DirPaths DirProps DirSample LoadLogTrace MainProofs MainLoad MainQuiet MainQuiz MainNames MainProps QuizDataProps LaunchProps
  ErrArgsProps ErrStatsProps ErrJukugoProps ErrLoadSame ErrEnvProps ErrMainQuiet ErrMainProofs ErrMainProps ErrQuizProofs ErrQuizRun.
From Verif Require Import ErrMainModel ErrMainSpec LoadLogModel MainModel DirSpec MainSpec.
From Verif Require Import ErrBase.
From Verif Require Import QuizModel StartModel StartSpec ErrQuizModel ErrQuizSpec.
Open Scope N_scope.
Arguments N.mul : simpl never. Arguments N.add : simpl never. Arguments N.sub : simpl never.

(** the quizzes with their messages are those of C70, C72 and C90, the program is that of C133 *)
Theorem C135_same :
  (forall R draw shuffle extra details fuel l question m lst fields count style i (r : R),
     erased1 (listQuizT R draw shuffle extra details fuel l question m lst fields count style i r)
     = listQuiz R draw shuffle extra details fuel l question m lst fields count style i r)
  /\ (forall R shuffle shuffleGroups other fuel l question m lst t i (r : R),
     erased1 (groupQuizT R shuffle shuffleGroups other fuel l question m lst t i r) = groupQuiz R shuffleGroups shuffle other fuel l question m lst t i r)
  /\ (forall R draw shuffle shuffleGroups other extra details d mg pg fuel p i (r : R),
     erased (startOptionsT R draw shuffle shuffleGroups other extra details d mg pg fuel p i r)
     = startOptions R draw shuffle shuffleGroups other extra details d mg pg fuel p i r)
  /\ forall std fs writable cwd reg sort sortNames ltr fuel R draw shuffle shuffleGroups l i (r : R),
     quizMainT std fs writable cwd reg sort sortNames ltr fuel R draw shuffle shuffleGroups l i r
     = ErrBase.rbind (quizMainQ std fs writable cwd reg sort sortNames ltr fuel R draw shuffle shuffleGroups l i r) (fun x => Got (doneAs R x)).
Proof.
  split; [exact list_told|]. split; [exact group_told|]. split; [exact start_told|].
  intros. unfold quizMainT, quizRunT, quizMainQ.
  destruct (mainArgsT l) as [a|x w| |]; cbn [ErrBase.rbind]; try reflexivity.
  destruct (loadArgsT fs writable cwd reg sort ltr a) as [[[[dir mode] e] d]|x w| |]; cbn [ErrBase.rbind]; try reflexivity.
  destruct (groupsT fs writable reg mode e dir d) as [gd|x w| |]; cbn [ErrBase.rbind]; try reflexivity.
  destruct (newJukugoDataT std fs dir) as [jd|x w| |]; cbn [ErrBase.rbind]; try reflexivity.
  unfold launchT, launchQ. destruct (readArgsT std fuel a) as [c|x w| |]; cbn [ErrBase.rbind]; try reflexivity. destruct c as [arg| |p]; try reflexivity.
  - destruct (processKanjiArgT std sortNames d (envUcd e) gd jd arg); reflexivity.
  - cbn [ErrBase.rbind]. f_equal. destruct (startsQuiz (isDebug mode) false p); [|reflexivity]. cbn [doneAs]. unfold quizWithT, quizWith. rewrite start_told. reflexivity.
Qed.
Print Assumptions C135_same.

(** a quiz on a list is refused with a message just if a Kanji has no reading, which is the first such one, or the first question does not exist; nothing else is thrown *)
Theorem C135_list : forall R (draw : N -> R -> N * R) shuffle extra details fuel l question m lst fields count style i r ls,
  quiz_fits draw shuffle l count question lst -> lines_left i ls ->
  let x := listQuizT R draw shuffle extra details fuel l question m lst fields count style i r in
  (forall w, (exists e s, x = Ok (Some (e, w)) s) <-> list_refused question lst w) /\ forall e s, x <> Err e s.
Proof. exact ErrQuizProofs.list_says. Qed.
Print Assumptions C135_list.
(** one on groups just if there are none, or the first question does not exist among the groups that are asked *)
Theorem C135_groups : forall R shuffle shuffleGroups other fuel l question shown m lst entry i (r : R) ls,
  groups_fit shuffleGroups shuffle other l question m lst entry -> lines_left i ls ->
  let x := groupQuizT R shuffle shuffleGroups other fuel l question shown lst m i r in
  (forall w, (exists e s, x = Ok (Some (e, w)) s) <-> groups_refused (questionOrder l) question m lst ls w) /\ forall e s, x <> Err e s.
Proof.
  intros R shuffle shuffleGroups other fuel l question shown m lst entry i r ls F I.
  exact (groups_say_what R shuffle shuffleGroups other (proj1 F) l question shown m lst entry i r ls (proj1 (proj2 (proj2 F))) I F fuel).
Qed.
Print Assumptions C135_groups.
Theorem C135_one_message : forall o question q ls w w', quiz_refused o question q ls w -> quiz_refused o question q ls w' -> w = w'.
Proof.
  intros o question [h c st ks|gs m] ls w w' H H'; cbn [quiz_refused] in H, H'.
  - destruct H as [b k a E1 E2 E3|v E1 E2], H' as [b' k' a' E1' E2' E3'|v' E1' E2'].
    + assert (X : noReading (map (fun k => MkQ k (dReading (kDetails k)) (dMeaning (kDetails k))) ks) = Some (kName (qKanji k) ++ b_ " has no reading")) by (apply reading_some; exists b, k, a; auto).
      assert (X' : noReading (map (fun k => MkQ k (dReading (kDetails k)) (dMeaning (kDetails k))) ks) = Some (kName (qKanji k') ++ b_ " has no reading")) by (apply reading_some; exists b', k', a'; auto). congruence.
    + exfalso. rewrite E1 in E1'. apply Forall_app in E1'. destruct E1' as [_ E1']. inversion E1'. contradiction.
    + exfalso. rewrite E1' in E1. apply Forall_app in E1. destruct E1 as [_ E1]. inversion E1. contradiction.
    + exact (beyond_fun _ _ _ _ _ E2 E2' eq_refl).
  - destruct H as [E|g1 v1 A1 W1], H' as [E'|g2 v2 A2 W2]; [reflexivity|exfalso; inversion A2; congruence|exfalso; inversion A1; congruence|].
    rewrite (asked_fun _ _ _ _ _ _ A2 A1) in W2. exact (beyond_fun _ _ _ _ _ W1 W2 eq_refl).
Qed.
Print Assumptions C135_one_message.

(** what kanjiQuiz writes to the standard error stream and returns, if it starts a quiz *)
Theorem C135_program : forall std fs writable reg, (forall p c, is_file fs p c -> bytes_ok c /\ JukugoLines.fits c) -> (forall n, known (reg n)) ->
  forall sort ltr, sorts orderByStrokes sort -> names_ok fs -> forall cs root ps prog l, DirSpec.plain cs -> DirSpec.plain (ps ++ [prog]) ->
  forall fuel, let a := path root (ps ++ [prog]) in len (a :: l) < 65535 -> (S (List.length (a :: l)) < fuel)%nat ->
  forall sortNames R draw shuffle shuffleGroups k g p i (r : R) ls keys e ls',
  kanji_loaded fs writable sort ltr initStatic cs root ps l k -> groups_loaded fs writable k g -> command (kept l) (Options p) -> kMode k = DebugNone -> lines_left i ls ->
  start_dialog (kData k) (meaningGroups (gGroups g)) (patternGroups (gGroups g)) p ls keys e ls' ->
  let run := quizMain fs writable (path true cs) reg sort sortNames ltr fuel R draw shuffle shuffleGroups (a :: l) initStatic i r in
  let err := quizErrors std fs writable (path true cs) reg sort sortNames ltr fuel R draw shuffle shuffleGroups (a :: l) i r in
  let before := errorText 0 (fst run) in
  match e with
  | Waits => err = None /\ quizEnded R run = DoesNotEnd
  | Quits _ => err = Some before /\ quizEnded R run = Exit 0
  | Starts test o q =>
      match q with
      | ListOf _ count _ ks => quiz_fits draw shuffle (MkLauncher test o true launcherQuit) count (sQuestion p) (map (fun k => MkQ k (dReading (kDetails k)) (dMeaning (kDetails k))) ks)
      | GroupsOf gs m => exists entry, groups_fit shuffleGroups shuffle (groupNumber (gGroups g)) (MkLauncher test o true launcherQuit) (sQuestion p) m gs entry
      end ->
      (exists w, quiz_refused o (sQuestion p) q ls' w /\ err = Some (before ++ w ++ [10]) /\ quizEnded R run = Exit 1)
      \/ ((forall w, ~ quiz_refused o (sQuestion p) q ls' w)
          /\ ((err = Some before /\ quizEnded R run = Exit 0) \/ (err = None /\ (quizEnded R run = IsUndefined \/ quizEnded R run = DoesNotEnd))))
  end.
Proof.
  intros std fs writable reg Hfits Hreg sort ltr Hsort Hnames cs root ps prog l Hcs Hps fuel a Hlen Hfuel sortNames R draw shuffle shuffleGroups k g p i r ls keys e ls' K G C M I D run err before.
  assert (Hbytes : files_bytes fs) by (intros x c H; exact (proj1 (Hfits x c H))).
  assert (Q : quizMainQ std fs writable (path true cs) reg sort sortNames ltr fuel R draw shuffle shuffleGroups (a :: l) i r
    = Got (inr (quizWithT sortNames fuel R draw shuffle shuffleGroups (kData k) (gGroups g) (gJukugo g) p i r))).
  { unfold quizMainQ. unfold a. rewrite (main_got std root ps prog l Hlen). cbn [ErrBase.rbind].
    rewrite (proj2 (load_got std fs writable reg Hbytes Hreg sort ltr Hnames cs root ps prog l Hcs Hps _) (ex_intro _ k (conj K eq_refl))). cbn [ErrBase.rbind].
    destruct (proj2 (both_loaded std fs writable reg Hbytes Hreg k (gGroups g) (gJukugo g)) (ex_intro _ g (conj G (conj eq_refl eq_refl)))) as [G1 G2]. rewrite G1. cbn [ErrBase.rbind]. rewrite G2. cbn [ErrBase.rbind].
    unfold launchQ. rewrite (proj2 (C122_read std fuel (path root (ps ++ [prog])) l (Options p) Hlen Hfuel) C). cbn [ErrBase.rbind]. rewrite M. reflexivity. }
  assert (E : snd run = Val (DoneQuiz R (erased (quizWithT sortNames fuel R draw shuffle shuffleGroups (kData k) (gGroups g) (gJukugo g) p i r)))).
  { unfold run. rewrite <- (quiz_same std fs writable reg Hbytes Hreg). rewrite (proj2 (proj2 (proj2 C135_same))), Q. reflexivity. }
  unfold err, quizErrors. cbv zeta. rewrite Q. fold run. fold before. unfold quizEnded. rewrite E. clear Q E.
  assert (F : from_options p) by (inversion C as [l0 os p0 O St E1 E2|l0 os p0 O St E1 E2| | |]; subst; exact (StartRun.settings_from_options _ os p O St)).
  assert (T : ten (kData k)) by (destruct K as [K1 K2 K3 K4 K5]; exact (loaded_ten _ _ _ _ _ _ K4)).
  destruct (ErrQuizRun.start_meets R draw shuffle shuffleGroups (groupNumber (gGroups g)) (fun q => extraTypeText (qKanji q) (kDetails (qKanji q)))
        (fun q => shownOr (reviewText sortNames (gGroups g) (gJukugo g) (qKanji q))) (kData k) (meaningGroups (gGroups g)) (patternGroups (gGroups g)) fuel T p true (initial R 0 false i r) ls F I)
    as (keys2 & e2 & ls2 & s & evs & D2 & _ & _ & Rg & L2 & Re).
  destruct (StartProps.C90_decided _ _ _ _ _ _ _ _ _ _ _ D2 D) as (_ & -> & ->).
  change (startQuizT R draw shuffle shuffleGroups (groupNumber (gGroups g)) _ _ (kData k) _ _ fuel _ _ _ _ _ _ true (initial R 0 false i r))
    with (quizWithT sortNames fuel R draw shuffle shuffleGroups (kData k) (gGroups g) (gJukugo g) p i r) in Re.
  set (y := quizWithT sortNames fuel R draw shuffle shuffleGroups (kData k) (gGroups g) (gJukugo g) p i r) in *. clearbody y.
  destruct e as [pr| |test o q]; cbn [resultT] in Re.
  - destruct Re as (x & s2 & ->). auto.
  - rewrite Re. auto.
  - intro Hq.
    assert (X : exists x, followedT R x y /\ (forall w, (exists e s, x = Ok (Some (e, w)) s) <-> quiz_refused o (sQuestion p) q ls' w) /\ forall e s, x <> Err e s).
    { destruct q as [h c st ks|gs m].
      - eexists. split; [exact Re|]. exact (C135_list _ _ _ _ _ _ _ _ _ _ _ _ _ _ _ _ Hq L2).
      - destruct Hq as [entry Hq]. eexists. split; [exact Re|]. exact (C135_groups _ _ _ _ _ _ _ _ _ _ _ _ _ _ Hq L2). }
    destruct X as (x & Fo & W & N1). destruct x as [[[e w]|] s2|e s2| |]; cbn [followedT] in Fo.
    + left. exists w. split; [apply W; eauto|]. destruct Fo as [s3 ->]. auto.
    + right. split; [intros w X; apply W in X; destruct X as (e' & s' & X); discriminate X|]. destruct Fo as [s3 ->]. auto.
    + destruct (N1 _ _ eq_refl).
    + right. split; [intros w X; apply W in X; destruct X as (e' & s' & X); discriminate X|]. rewrite Fo. auto.
    + right. split; [intros w X; apply W in X; destruct X as (e' & s' & X); discriminate X|]. rewrite Fo. auto.
Qed.
Print Assumptions C135_program.

Definition someErrors (i : bytes) (l : list bytes) : option bytes :=
  quizErrors noStd someFs (fun _ => true) (path true here) (fun _ => []) ReportProps.byStrokes DetailsProps.bySuffix true 50 N oneBack (fun l r => (l, r)) (fun l r => (l, r))
    (path false ([] ++ [b_ "quiz"]) :: l) (MkIn i false) 0.
Definition mute : QKanji := MkQ (sample (b_ "丁") 2 9) [] (b_ "street").
Example C135_case : list_refused 9999 sampleList (b_ "entry num '9999' is larger than total questions: 3")
  /\ list_refused 1 [q1; mute; q2; mute] (b_ "丁 has no reading") /\ (forall w, ~ list_refused 3 sampleList w)
  /\ groups_refused FromBeginning 3 MAll GroupSample.sampleGroups [] (b_ "entry num '3' is larger than total questions: 2")
  /\ groups_refused FromBeginning 1 MAll [] [] (b_ "empty group list")
  /\ ErrMainProps.last_line (someErrors [] [b_ "-t99"; b_ "-g1"]) = b_ "entry num '99' is larger than total questions: 1"
  /\ ErrMainProps.last_line (someErrors [] [b_ "-r99"; b_ "-m4"]) = b_ "entry num '99' is larger than total questions: 3"
  /\ ErrMainProps.last_line (someErrors [] [b_ "-r99"; b_ "-p4"]) = b_ "entry num '99' is larger than total questions: 2"
  /\ someErrors [] [b_ "-r1"; b_ "-g1"] = None.
Proof.
  assert (W : forall n t, to_string n = t -> written t n) by (intros n t <-; apply to_string_written).
  split; [apply refused_question; [repeat (constructor; [discriminate|]); constructor|split; [reflexivity|]; exists (b_ "9999"), (b_ "3"); split; [apply W; reflexivity|]; split; [apply W|]; reflexivity]|].
  split; [exact (refused_reading 1 _ [q1] mute [q2; mute] eq_refl ltac:(constructor; [discriminate|constructor]) eq_refl)|].
  split; [intros w H; apply (fun x => x) in H; inversion H as [bf k af E1 E2 E3|v E1 [E2 _]]; [|vm_compute in E2; discriminate E2];
    assert (X : In k sampleList) by (rewrite E1; apply in_or_app; right; left; reflexivity); destruct X as [<-|[<-|[<-|[]]]]; discriminate E3|].
  split; [eapply refused_group; [eapply asked_all; reflexivity|split; [reflexivity|]; exists (b_ "3"), (b_ "2"); split; [apply W; reflexivity|]; split; [apply W|]; reflexivity]|].
  split; [constructor; reflexivity|]. split; [vm_compute; reflexivity|]. split; [vm_compute; reflexivity|]. split; vm_compute; reflexivity.
Qed.
(** the hypotheses of C135_program hold for these command lines *)
Example C135_program_case : (forall p c, is_file someFs p c -> bytes_ok c /\ JukugoLines.fits c) /\ sorts orderByStrokes ReportProps.byStrokes /\ names_ok someFs
  /\ DirSpec.plain here /\ DirSpec.plain ([] ++ [b_ "quiz"])
  /\ lines_left (MkIn [] false) [[]]
  /\ Forall (fun l => exists k g p keys e ls', kanji_loaded someFs (fun _ => true) ReportProps.byStrokes true initStatic here false [] l k /\ groups_loaded someFs (fun _ => true) k g
       /\ command (kept l) (Options p) /\ kMode k = DebugNone /\ start_dialog (kData k) (meaningGroups (gGroups g)) (patternGroups (gGroups g)) p [[]] keys e ls')
     [[b_ "-t99"; b_ "-g1"]; [b_ "-r99"; b_ "-m4"]; [b_ "-r99"; b_ "-p4"]; [b_ "-r1"; b_ "-g1"]].
Proof.
  split; [exact some_fits|]. split; [exact (proj1 ReportProps.C99_case)|]. split; [exact some_names|]. split; [exact (proj1 some_plain)|]. split; [exact (proj2 some_plain)|].
  assert (I : lines_left (MkIn [] false) [[]]) by (split; [discriminate|split; [constructor; [intros []|constructor]|reflexivity]]). split; [exact I|].
  assert (X : forall l, (exists y, snd (someQuiz l) = Val y) -> len (path false ([] ++ [b_ "quiz"]) :: l) < 65535 -> (S (List.length (path false ([] ++ [b_ "quiz"]) :: l)) < 50)%nat ->
    match readArgsT noStd 50 (argsOf (path false ([] ++ [b_ "quiz"]) :: l)) with Got (Options p) => true | _ => false end = true ->
    match loadArgsT someFs (fun _ => true) (path true here) (fun _ => []) ReportProps.byStrokes true (argsOf (path false ([] ++ [b_ "quiz"]) :: l)) with Got (_, mode, _, _) => match mode with DebugNone => true | _ => false end | _ => false end = true ->
    exists k g p keys e ls', kanji_loaded someFs (fun _ => true) ReportProps.byStrokes true initStatic here false [] l k /\ groups_loaded someFs (fun _ => true) k g
       /\ command (kept l) (Options p) /\ kMode k = DebugNone /\ start_dialog (kData k) (meaningGroups (gGroups g)) (patternGroups (gGroups g)) p [[]] keys e ls').
  { intros l H1 H2 H3 H4 H5. destruct (some_loaded l H1) as (k & g & K & G).
    rewrite (proj2 (load_got noStd someFs (fun _ => true) (fun _ => []) some_bytes (fun _ => none_known) ReportProps.byStrokes true some_names here false [] (b_ "quiz") l
      (proj1 some_plain) (proj2 some_plain) _) (ex_intro _ k (conj K eq_refl))) in H5.
    destruct (readArgsT noStd 50 (argsOf (path false ([] ++ [b_ "quiz"]) :: l))) as [c| | |] eqn:E; try discriminate H4. destruct c as [|  |p]; try discriminate H4.
    apply (proj1 (C122_read noStd 50 (path false ([] ++ [b_ "quiz"])) l (Options p) H2 H3)) in E.
    assert (T : ten (kData k)) by (destruct K as [K1 K2 K3 K4 K5]; exact (loaded_ten _ _ _ _ _ _ K4)).
    destruct (StartProps.C90_start N oneBack (fun l r => (l, r)) (fun l r => (l, r)) noOther nothing nothing (kData k) (meaningGroups (gGroups g)) (patternGroups (gGroups g)) 50 l p (MkIn [] false) [[]] 0 E T I)
      as (keys & e & ls' & s & D & _).
    exists k, g, p, keys, e, ls'. split; [exact K|]. split; [exact G|]. split; [exact E|]. split; [|exact D]. destruct (kMode k); [discriminate H5|discriminate H5|reflexivity]. }
  repeat (apply Forall_cons; [apply X; [eexists; vm_compute; reflexivity|vm_compute; reflexivity|cbn; lia|vm_compute; reflexivity|vm_compute; reflexivity]|]). apply Forall_nil.
Qed.
