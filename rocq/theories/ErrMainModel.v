(** Model of the messages that kanjiQuiz and kanjiStats end with: apps/quizMain.cpp, apps/statsMain.cpp, Quiz::run
    (libs/quiz/src/Quiz.cpp:12-16), TextKanjiData::TextKanjiData (libs/kanji/src/TextKanjiData.cpp:21-35) and the constructor of QuizLauncher
    (libs/quiz/src/QuizLauncher.cpp:75-100).  The programs are those of MainModel, with what() of what they throw (see C133_same).  Not
    modelled: the text of what is thrown while questions are asked. *)
From Verif Require Export MainModel ErrLoadModel ErrGroupModel ErrJukugoModel ErrDetailsModel ErrStatsModel.
From Verif Require Import StatsReportLoaded LoadLogModel.
From Verif Require Export ErrBase.
Open Scope N_scope.

Section Programs.
(** what() of exceptions of the standard library *)
Variable std : exn -> bytes.
Variable fs : bytes -> option CountModel.node.
Variable writable : bytes -> bool.
Variable cwd : bytes.
Variable reg : bytes -> registry.
Variable sort sortNames : list Kanji -> list Kanji.
Variable ltr : bool.
Variable fuel : nat.

(** Args.h: the constructor called by the programs *)
Definition mainArgsT (l : list bytes) : res Args := newArgsIntT (Z.of_nat (List.length l)) (Some l).
(** TextKanjiData.cpp:21-23 in a program that has not loaded anything before *)
Definition loadArgsT (a : Args) : res (bytes * ReportModel.DebugMode * Env * Data) :=
  dir <~ getDataDirT fs cwd a ;;
  mode <~ getDebugModeT a ;;
  '(e, d) <~ newTextDataT fs writable reg sort (reportMode mode) ltr dir initStatic 0 ;;
  Got (dir, reportMode mode, e, d).
(** GroupData.cpp:21-31: the constructor with its reports, which do not throw *)
Definition groupsT (mode : ReportModel.DebugMode) (e : Env) (dir : bytes) (d : Data) : res GroupData :=
  gd <~ newGroupDataT (findMember d) fs writable reg dir ;;
  if isDebug mode then _ <~ quiet (reportGroups (isFull mode) (leftSet mode e d) d gd) ;; Got gd else Got gd.

Section Quiz.
Variable R : Type.
Variable draw : N -> R -> N * R.
Variable shuffle : list QKanji -> R -> list QKanji * R.
Variable shuffleGroups : list Group -> R -> list Group * R.
(** QuizLauncher.cpp:75-100 *)
Definition launchT (a : Args) (mode : ReportModel.DebugMode) (e : Env) (d : Data) (gd : GroupData) (jd : JukugoData) (i : istream) (r : R) : res (MainModel.Done R) :=
  c <~ readArgsT std fuel a ;;
  match c with
  | KanjiDetails arg => t <~ processKanjiArgT std sortNames d (envUcd e) gd jd arg ;; Got (DoneText R t)
  | HelpMessage => Got (DoneText R MainModel.HelpText)
  | Options p =>
      Got (if startsQuiz (isDebug mode) false p then DoneQuiz R (quizWith sortNames fuel R draw shuffle shuffleGroups d gd jd p i r) else DoneNothing R)
  end.
(** Quiz.cpp:12-16 *)
Definition quizRunT (a : Args) (i : istream) (r : R) : res (MainModel.Done R) :=
  '(dir, mode, e, d) <~ loadArgsT a ;;
  gd <~ groupsT mode e dir d ;;
  jd <~ newJukugoDataT std fs dir ;;
  launchT a mode e d gd jd i r.
(** apps/quizMain.cpp:3-11 *)
Definition quizMainT (l : list bytes) (i : istream) (r : R) : res (MainModel.Done R) := a <~ mainArgsT l ;; quizRunT a i r.
(** what is written to std::cerr, if the program ends and no exception is thrown while questions are asked: the errors of loading (KanjiData.cpp:210-216),
    then quizMain.cpp:7 *)
Definition quizErr (l : list bytes) (i : istream) (r : R) : option bytes :=
  let before := errorText 0 (fst (quizMain fs writable cwd reg sort sortNames ltr fuel R draw shuffle shuffleGroups l initStatic i r)) in
  match quizMainT l i r with
  | Says _ w => Some (before ++ w ++ [10])
  | Got (DoneQuiz _ (Ok _ _)) | Got (DoneText _ _) | Got (DoneNothing _) => Some before
  | _ => None
  end.
End Quiz.

(** apps/statsMain.cpp:4-14 *)
Variable order : N -> list StatsModel.SCount -> list StatsModel.SCount.
Definition statsMainT (l : list bytes) : res unit :=
  a <~ mainArgsT l ;;
  '(dir, mode, e, d) <~ loadArgsT a ;;
  snd (statsT std (loadedUcd e) (loadedEntry d) (order (dMax d)) fs fuel a (isDebug mode)).
Definition statsErr (l : list bytes) : option bytes :=
  let before := errorText 0 (fst (statsMain fs writable cwd reg sort ltr fuel order l initStatic)) in
  match statsMainT l with
  | Says _ w => Some (before ++ w ++ [10])
  | Got _ => Some before
  | _ => None
  end.
End Programs.
