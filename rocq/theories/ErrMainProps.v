(** C133: the message that kanjiQuiz or kanjiStats ends with, for any command line and file system. *)
From Verif Require Import BaseFacts ArgsProofs DirPaths DirProps DirSample LoadLogTrace MainProofs MainLoad MainQuiz MainNames MainProps QuizDataProps LaunchProps ErrArgsProps ErrStatsProps ErrJukugoProps ErrLoadSame ErrEnvProps
  ErrMainQuiet ErrMainProofs.
From Verif Require ReportProps StatsReportProofs CountProofs DetailsProps.
From Verif Require Import ErrMainModel ErrMainSpec StatsReportLoaded LoadLogModel MainModel DirSpec MainSpec.
From Verif Require Import ErrBase.
Open Scope N_scope.
Arguments N.mul : simpl never. Arguments N.add : simpl never. Arguments N.sub : simpl never.

(** the programs with their messages are those of C116 and C117 *)
Theorem C133_same : forall std fs writable reg, files_bytes fs -> (forall n, known (reg n)) -> forall cwd sort ltr fuel,
  (forall sortNames R draw shuffle shuffleGroups l i (r : R), ErrBase.plain (quizMainT std fs writable cwd reg sort sortNames ltr fuel R draw shuffle shuffleGroups l i r)
     = snd (quizMain fs writable cwd reg sort sortNames ltr fuel R draw shuffle shuffleGroups l initStatic i r))
  /\ forall order l, ErrBase.plain (statsMainT std fs writable cwd reg sort ltr fuel order l) = snd (statsMain fs writable cwd reg sort ltr fuel order l initStatic).
Proof. intros. split; intros; [apply quiz_same|apply stats_same]; assumption. Qed.
Print Assumptions C133_same.

Section Run.
Variable std : exn -> bytes.
Variable fs : bytes -> option CountModel.node.
Variable writable : bytes -> bool.
Variable reg : bytes -> registry.
Hypothesis Hfits : forall p c, is_file fs p c -> bytes_ok c /\ JukugoLines.fits c.
Hypothesis Hreg : forall n, known (reg n).
Variable sort : list Kanji -> list Kanji.
Variable ltr : bool.
Hypothesis Hsort : sorts orderByStrokes sort.
Hypothesis Hnames : names_ok fs.
Variable cs : list bytes.
Variable root : bool.
Variable ps : list bytes.
Variable prog : bytes.
Variable l : list bytes.
Hypothesis Hcs : DirSpec.plain cs.
Hypothesis Hps : DirSpec.plain (ps ++ [prog]).
Variable fuel : nat.
Hypothesis Hlen : len (path root (ps ++ [prog]) :: l) < 65535.
Hypothesis Hfuel : (S (List.length (path root (ps ++ [prog]) :: l)) < fuel)%nat.
Lemma Hbytes : files_bytes fs.
Proof. intros p c H. exact (proj1 (Hfits p c H)). Qed.

(** * kanjiQuiz *)
Section Quiz.
Variable sortNames : list Kanji -> list Kanji.
Variable R : Type.
Variable draw : N -> R -> N * R.
Variable shuffle : list QKanji -> R -> list QKanji * R.
Variable shuffleGroups : list Group -> R -> list Group * R.
Hypothesis Hargs : Forall (fun a => bytes_ok a /\ no_nul a) l.
Notation quiz := (quizMainT std fs writable (path true cs) reg sort sortNames ltr fuel R draw shuffle shuffleGroups (path root (ps ++ [prog]) :: l)).
Notation run := (quizMain fs writable (path true cs) reg sort sortNames ltr fuel R draw shuffle shuffleGroups (path root (ps ++ [prog]) :: l) initStatic).
Notation err := (quizErr std fs writable (path true cs) reg sort sortNames ltr fuel R draw shuffle shuffleGroups (path root (ps ++ [prog]) :: l)).
Notation stops := (quiz_stops std fs writable reg sort ltr cs root ps prog l).
Lemma quiz_ends : forall i r w, (exists x, quiz i r = Says x w) <-> stops w.
Proof. intros i r w. exact (quiz_message std fs writable reg Hbytes Hreg sort ltr Hsort Hnames cs root ps prog l Hcs Hps Hfits sortNames fuel R draw shuffle shuffleGroups Hlen Hfuel Hargs i r w). Qed.
Lemma quiz_text : forall i r w, stops w -> err i r = Some (errorText 0 (fst (run i r)) ++ w ++ [10]) /\ quizEnded R (run i r) = Exit 1.
Proof.
  intros i r w H. apply (quiz_ends i r) in H. destruct H as [x H]. unfold quizErr. rewrite H. split; [reflexivity|].
  pose proof (quiz_same std fs writable reg Hbytes Hreg (path true cs) sort sortNames ltr fuel R draw shuffle shuffleGroups (path root (ps ++ [prog]) :: l) i r) as E. rewrite H in E. cbn [ErrBase.plain] in E.
  unfold quizEnded. rewrite <- E. reflexivity.
Qed.
Lemma quiz_silent : forall i r, (forall w, ~ stops w) -> (forall t, err i r = Some t -> t = errorText 0 (fst (run i r)) /\ quizEnded R (run i r) = Exit 0)
  /\ forall e, snd (run i r) <> Throw e.
Proof.
  intros i r N0. pose proof (quiz_same std fs writable reg Hbytes Hreg (path true cs) sort sortNames ltr fuel R draw shuffle shuffleGroups (path root (ps ++ [prog]) :: l) i r) as E.
  unfold quizErr, quizEnded. cbv zeta. destruct (quiz i r) as [y|x w| |] eqn:Q; cbn [ErrBase.plain] in E.
  - rewrite <- E. split; [|discriminate]. intros t T. destruct y as [t'|q|]; [|destruct q|]; try discriminate T; (split; [congruence|reflexivity]).
  - destruct (N0 w). apply (quiz_ends i r). eauto.
  - rewrite <- E. split; discriminate.
  - rewrite <- E. split; discriminate.
Qed.
End Quiz.

(** * kanjiStats *)
Section Stats.
Variable order : N -> list StatsModel.SCount -> list StatsModel.SCount.
Variable I : bytes -> list Utf8CharSpec.item.
Hypothesis Horder : forall m ks, exists t, StatsModel.built (StatsModel.less m) ks t /\ order m ks = StatsModel.inorder t.
Hypothesis Hreader : CountSpec.reader I.
Hypothesis Hnodes : forall p n, fs p = Some n -> CountSpec.node_ok n.
Hypothesis Hlists : Forall bytes_ok (StatsReportSpec.file_names (kept l)).
Hypothesis Hmax : forall k, kanji_loaded fs writable sort ltr initStatic cs root ps l k -> dMax (kData k) < 65535.
Notation stats := (statsMainT std fs writable (path true cs) reg sort ltr fuel order (path root (ps ++ [prog]) :: l)).
Notation run := (statsMain fs writable (path true cs) reg sort ltr fuel order (path root (ps ++ [prog]) :: l) initStatic).
Notation err := (statsErr std fs writable (path true cs) reg sort ltr fuel order (path root (ps ++ [prog]) :: l)).
Notation stops := (stats_stops fs writable reg sort ltr cs root ps prog l).
Lemma stats_ends : forall w, (exists x, stats = Says x w) <-> stops w.
Proof. exact (stats_message std fs writable reg Hbytes Hreg sort ltr Hsort Hnames cs root ps prog l Hcs Hps fuel Hlen Hfuel order I Horder Hreader Hnodes Hlists Hmax). Qed.
Lemma stats_text : (exists w, stops w /\ err = Some (errorText 0 (fst run) ++ w ++ [10]) /\ ended (snd run) = Exit 1)
  \/ ((forall w, ~ stops w) /\ err = Some (errorText 0 (fst run)) /\ ended (snd run) = Exit 0).
Proof.
  pose proof (stats_same std fs writable reg Hbytes Hreg (path true cs) sort ltr fuel order (path root (ps ++ [prog]) :: l)) as E. unfold statsErr.
  destruct (stats_cases std fs writable reg Hbytes Hreg sort ltr Hsort Hnames cs root ps prog l Hcs Hps fuel Hlen Hfuel order I Horder Hreader Hnodes Hlists Hmax) as [(x & w & S0 & H)|[S0 H]];
    rewrite S0 in E |- *; cbn [ErrBase.plain] in E; rewrite <- E; [left; exists w|right]; auto.
Qed.
End Stats.
End Run.

(** the messages of kanjiQuiz: it ends with a message just if a file is wrong, the arguments are wrong or there is no such Kanji *)
Theorem C133_quiz : forall std fs writable reg, (forall p c, is_file fs p c -> bytes_ok c /\ JukugoLines.fits c) -> (forall n, known (reg n)) ->
  forall sort ltr, sorts orderByStrokes sort -> names_ok fs -> forall cs root ps prog l, DirSpec.plain cs -> DirSpec.plain (ps ++ [prog]) ->
  forall fuel, let p := path root (ps ++ [prog]) in len (p :: l) < 65535 -> (S (List.length (p :: l)) < fuel)%nat ->
  forall sortNames R draw shuffle shuffleGroups, Forall (fun a => bytes_ok a /\ no_nul a) l -> forall i (r : R) w,
  (exists x, quizMainT std fs writable (path true cs) reg sort sortNames ltr fuel R draw shuffle shuffleGroups (p :: l) i r = Says x w)
  <-> quiz_stops std fs writable reg sort ltr cs root ps prog l w.
Proof. intros. apply quiz_ends; assumption. Qed.
Print Assumptions C133_quiz.
(** what the program writes to the standard error stream and what it returns *)
Theorem C133_quiz_text : forall std fs writable reg, (forall p c, is_file fs p c -> bytes_ok c /\ JukugoLines.fits c) -> (forall n, known (reg n)) ->
  forall sort ltr, sorts orderByStrokes sort -> names_ok fs -> forall cs root ps prog l, DirSpec.plain cs -> DirSpec.plain (ps ++ [prog]) ->
  forall fuel, let p := path root (ps ++ [prog]) in len (p :: l) < 65535 -> (S (List.length (p :: l)) < fuel)%nat ->
  forall sortNames R draw shuffle shuffleGroups, Forall (fun a => bytes_ok a /\ no_nul a) l -> forall i (r : R),
  let run := quizMain fs writable (path true cs) reg sort sortNames ltr fuel R draw shuffle shuffleGroups (p :: l) initStatic i r in
  let err := quizErr std fs writable (path true cs) reg sort sortNames ltr fuel R draw shuffle shuffleGroups (p :: l) i r in
  let stops := quiz_stops std fs writable reg sort ltr cs root ps prog l in
  (forall w, stops w -> err = Some (errorText 0 (fst run) ++ w ++ [10]) /\ quizEnded R run = Exit 1)
  /\ (forall w w', stops w -> stops w' -> w = w')
  /\ ((forall w, ~ stops w) -> (forall t, err = Some t -> t = errorText 0 (fst run) /\ quizEnded R run = Exit 0) /\ forall e, snd run <> Throw e).
Proof.
  intros. cbv zeta. split; [intros; apply quiz_text; assumption|]. split.
  { intros w w' X Y. destruct (proj2 (quiz_ends std fs writable reg ltac:(assumption) ltac:(assumption) sort ltr ltac:(assumption) ltac:(assumption) cs root ps prog l ltac:(assumption) ltac:(assumption) fuel ltac:(assumption) ltac:(assumption) sortNames R draw shuffle shuffleGroups ltac:(assumption) i r w) X) as [x E].
    destruct (proj2 (quiz_ends std fs writable reg ltac:(assumption) ltac:(assumption) sort ltr ltac:(assumption) ltac:(assumption) cs root ps prog l ltac:(assumption) ltac:(assumption) fuel ltac:(assumption) ltac:(assumption) sortNames R draw shuffle shuffleGroups ltac:(assumption) i r w') Y) as [x' E']. congruence. }
  apply quiz_silent; assumption.
Qed.
Print Assumptions C133_quiz_text.
(** the messages of kanjiStats *)
Theorem C133_stats : forall std fs writable reg, (forall p c, is_file fs p c -> bytes_ok c /\ JukugoLines.fits c) -> (forall n, known (reg n)) ->
  forall sort ltr, sorts orderByStrokes sort -> names_ok fs -> forall cs root ps prog l, DirSpec.plain cs -> DirSpec.plain (ps ++ [prog]) ->
  forall fuel, let p := path root (ps ++ [prog]) in len (p :: l) < 65535 -> (S (List.length (p :: l)) < fuel)%nat ->
  forall order I, (forall m ks, exists t, StatsModel.built (StatsModel.less m) ks t /\ order m ks = StatsModel.inorder t) -> CountSpec.reader I ->
  (forall p n, fs p = Some n -> CountSpec.node_ok n) -> Forall bytes_ok (StatsReportSpec.file_names (kept l)) ->
  (forall k, kanji_loaded fs writable sort ltr initStatic cs root ps l k -> dMax (kData k) < 65535) ->
  let run := statsMain fs writable (path true cs) reg sort ltr fuel order (p :: l) initStatic in
  let err := statsErr std fs writable (path true cs) reg sort ltr fuel order (p :: l) in
  let stops := stats_stops fs writable reg sort ltr cs root ps prog l in
  (forall w, (exists x, statsMainT std fs writable (path true cs) reg sort ltr fuel order (p :: l) = Says x w) <-> stops w)
  /\ (forall w w', stops w -> stops w' -> w = w')
  /\ ((exists w, stops w /\ err = Some (errorText 0 (fst run) ++ w ++ [10]) /\ ended (snd run) = Exit 1)
      \/ ((forall w, ~ stops w) /\ err = Some (errorText 0 (fst run)) /\ ended (snd run) = Exit 0)).
Proof.
  intros. cbv zeta. split; [intros; apply stats_ends with (I := I); assumption|]. split.
  - intros w w' X Y.
    assert (Q : forall w, stats_stops fs writable reg sort ltr cs root ps prog l w -> exists x, statsMainT std fs writable (path true cs) reg sort ltr fuel order (path root (ps ++ [prog]) :: l) = Says x w)
      by (intro; apply stats_ends with (I := I); assumption).
    destruct (Q _ X) as [x E], (Q _ Y) as [x' E']. congruence.
  - apply stats_text with (I := I); assumption.
Qed.
Print Assumptions C133_stats.
(** more arguments than the programs can count *)
Theorem C133_count : forall std fs writable cwd reg sort ltr fuel l, 65535 < len l ->
  exists d, written d (len l) /\ let w := b_ "argc " ++ d ++ b_ " is greater than 65535" in
  (forall sortNames R draw shuffle shuffleGroups i (r : R),
     quizErr std fs writable cwd reg sort sortNames ltr fuel R draw shuffle shuffleGroups l i r = Some (w ++ [10]))
  /\ forall order, statsErr std fs writable cwd reg sort ltr fuel order l = Some (w ++ [10]).
Proof.
  intros std fs writable cwd reg sort ltr fuel l H.
  assert (M : exists d, written d (len l) /\ mainArgsT l = Says RangeError (b_ "argc " ++ d ++ b_ " is greater than 65535")).
  { pose proof (main_same std 0 l) as E. rewrite (MainLoad.too_many l H) in E. destruct (mainArgsT l) as [a|e w| |] eqn:Q; try discriminate E. clear E.
    unfold mainArgsT in Q. apply C122_count in Q. unfold len in *. destruct Q as [(d & Q & _)|[(d & _ & W & -> & ->)|[[Q _]|(d & [_ Q] & _)]]]; try lia.
    exists d. split; [|reflexivity]. replace (N.of_nat (List.length l)) with (Z.to_N (Z.of_nat (List.length l))) by lia. exact W. }
  destruct M as (d & W & M). exists d. split; [exact W|]. cbv zeta. pose proof (MainLoad.too_many l H) as T. split.
  - intros. unfold quizErr, quizMainT. rewrite M. cbn [rbind]. unfold quizMain. rewrite T. cbn. reflexivity.
  - intros. unfold statsErr, statsMainT. rewrite M. cbn [rbind]. unfold statsMain. rewrite T. cbn. reflexivity.
Qed.
Print Assumptions C133_count.

(** ** Cases *)
Lemma some_fits : forall p c, is_file someFs p c -> bytes_ok c /\ JukugoLines.fits c.
Proof.
  intros p c H. split; [exact (some_bytes p c H)|]. destruct H as (n & Hn & S0). apply paths_look in Hn. apply resolve_seen in S0.
  assert (X : forallb (fun q => match CountModel.resolve (snd q) with Some (CountModel.File c) => len c <? 100000 | _ => true end)
    ((b_ "/home/kanji/story", CountModel.File (b_ "一は三より小さい。
")) :: QuizDataSample.quiz_paths QuizDataSample.meaning_rows QuizDataSample.pattern_rows) = true) by (vm_compute; reflexivity).
  rewrite forallb_forall in X. specialize (X _ Hn). cbn [snd] in X. rewrite S0 in X. apply N.ltb_lt in X. unfold JukugoLines.fits. lia.
Qed.
Definition noStd (e : exn) : bytes := [].
Definition someQuizErr (l : list bytes) := quizErr noStd someFs (fun _ => true) (path true here) (fun _ => []) ReportProps.byStrokes DetailsProps.bySuffix true 50 N oneBack (fun l r => (l, r)) (fun l r => (l, r))
  (path false ([] ++ [b_ "quiz"]) :: l) (MkIn (b_ "1
/
") false) 0.
Definition someStatsErr (l : list bytes) := statsErr noStd someFs (fun _ => true) (path true here) (fun _ => []) ReportProps.byStrokes true 50 StatsReportProofs.some_order (path false ([] ++ [b_ "stats"]) :: l).
(** the lines before the last one are the errors of loading *)
Definition last_line (x : option bytes) : bytes := match x with Some t => rev (fst (fold_left (fun '(cur, prev) b => if b =? 10 then (prev, []) else (cur, b :: prev)) t ([], []))) | None => [] end.
Lemma some_stops : forall l w, len (path false ([] ++ [b_ "quiz"]) :: l) < 65535 -> (S (List.length (path false ([] ++ [b_ "quiz"]) :: l)) < 50)%nat ->
  forallb (forallb (fun b => (0 <? b) && (b <? 256))) l = true ->
  match quizMainT noStd someFs (fun _ => true) (path true here) (fun _ => []) ReportProps.byStrokes DetailsProps.bySuffix true 50 N oneBack (fun l r => (l, r)) (fun l r => (l, r))
    (path false ([] ++ [b_ "quiz"]) :: l) (MkIn [] false) 0 with Says _ w' => beq w' w | _ => false end = true ->
  quiz_stops noStd someFs (fun _ => true) (fun _ => []) ReportProps.byStrokes true here false [] (b_ "quiz") l w.
Proof.
  intros l w H1 H2 H3 H4.
  apply (proj1 (C133_quiz noStd someFs (fun _ => true) (fun _ => []) some_fits (fun _ => none_known) ReportProps.byStrokes true (proj1 ReportProps.C99_case) some_names here false [] (b_ "quiz") l
    (proj1 some_plain) (proj2 some_plain) 50%nat H1 H2 DetailsProps.bySuffix N oneBack (fun l r => (l, r)) (fun l r => (l, r)) (args_checked l H3) (MkIn [] false) 0 w)).
  destruct (quizMainT _ _ _ _ _ _ _ _ _ _ _ _ _ _ _) as [y|x w'| |]; try discriminate H4. apply beq_eq in H4. subst. eauto.
Qed.
(** two options about debug output, a wrong option, no such Kanji, no data directory, no files *)
Example C133_case : names_ok someFs /\ sorts orderByStrokes ReportProps.byStrokes /\ (forall p n, someFs p = Some n -> CountSpec.node_ok n)
  /\ quiz_stops noStd someFs (fun _ => true) (fun _ => []) ReportProps.byStrokes true here false [] (b_ "quiz") [b_ "-debug"; b_ "-info"] (b_ "can only specify one '-debug' or '-info' option")
  /\ quiz_stops noStd someFs (fun _ => true) (fun _ => []) ReportProps.byStrokes true here false [] (b_ "quiz") [b_ "-x"] (b_ "illegal option '-x', use -h for help")
  /\ quiz_stops noStd someFs (fun _ => true) (fun _ => []) ReportProps.byStrokes true here false [] (b_ "quiz") [b_ "nine"] (b_ "Nelson ID 'ine' is non-numeric")
  /\ quiz_stops noStd someFs (fun _ => true) (fun _ => []) ReportProps.byStrokes true here false [] (b_ "quiz") [b_ "-data"] (b_ "'-data' must be followed by a directory name")
  /\ someQuizErr [b_ "-debug"; b_ "-info"] = Some (b_ "can only specify one '-debug' or '-info' option
")
  /\ last_line (someQuizErr [b_ "-x"]) = b_ "illegal option '-x', use -h for help" /\ last_line (someQuizErr [b_ "-h"]) <> [] /\ someQuizErr [] <> None
  /\ last_line (someStatsErr []) = b_ "please specify at least one option or '-h' for help" /\ last_line (someStatsErr [b_ "nofile"]) = b_ "file not found: nofile".
Proof.
  split; [exact some_names|]. split; [exact (proj1 ReportProps.C99_case)|]. split; [exact some_nodes|].
  do 4 (split; [apply some_stops; [vm_compute; reflexivity|cbn; lia|vm_compute; reflexivity|vm_compute; reflexivity]|]).
  split; [vm_compute; reflexivity|]. split; [vm_compute; reflexivity|]. split; [vm_compute; discriminate|]. split; [vm_compute; discriminate|]. split; vm_compute; reflexivity.
Qed.
