(** Model of the programs: apps/quizMain.cpp with Quiz::run (libs/quiz/src/Quiz.cpp:12-16) and the constructor of
    QuizLauncher (libs/quiz/src/QuizLauncher.cpp:75-100), apps/statsMain.cpp, apps/convertMain.cpp and apps/formatMain.cpp.
    Not modelled: the text of the exceptions that main writes to std::cerr, and what a call has written before it throws
    inside of the details of a Kanji or of a report. *)
From Verif Require Export StartModel DetailsModel QuizDataModel.
From Verif Require StatsReportModel ProgramModel FormatModel.
From Verif Require Import StatsReportLoaded.
Open Scope N_scope.

(** the value that main returns; a call that does not return, or is undefined, has none *)
Inductive Ended := Exit (code : N) | IsUndefined | DoesNotEnd.
(** the try block of the programs: [return 1] for any std::exception, 0 otherwise *)
Definition ended {A} (x : out A) : Ended :=
  match x with Val _ => Exit 0 | Throw _ => Exit 1 | Ub => IsUndefined | Fuel => DoesNotEnd end.
(** the Args that the programs make of argc and argv; see newArgsInt *)
Definition mainArgs (l : list bytes) : out Args := newArgsInt (Z.of_nat (List.length l)) (Some l).

(** ** kanjiQuiz *)

(** QuizLauncher.cpp:15-48 *)
Definition HelpText : bytes := b_ "kanjiQuiz [-hs] [-f[1-5] | -g[1-6s] | -k[1-9a-c] | -l[1-5] -m[1-4] | -p[1-4]]
          [-r[num] | -t[num]] [kanji]
    -h   show this help message for command-line options
    -s   show English meanings by default (can be toggled on/off later)

  The following options allow choosing the quiz/review type optionally followed
  by question list type (grade, level, etc.) instead of being prompted:
    -f   'frequency' (optional frequency group '0-9')
    -g   'grade' (optional grade '1-6', 's' = Secondary School)
    -k   'kyu' (optional Kentei Kyu '1-9', 'a' = 10, 'b' = 準１級, 'c' = 準２級)
    -l   'level' (optional JLPT level number '1-5')
    -m   'meaning' (optional Kanji type '1-4')
    -p   'pattern' (optional Kanji type '1-4')

  The following options can be followed by a 'num' to specify where to start in
  the question list (use negative to start from the end or 0 for random order).
    -r   review mode
    -t   test mode

  kanji  show details for a Kanji instead of starting a review or test

Examples:
  kanjiQuiz -f        # start 'frequency' quiz (prompts for 'bucket' number)
  kanjiQuiz -r40 -l1  # start 'JLPT N1' review beginning at the 40th entry

Note: 'kanji' can be UTF-8, frequency (between 1 and 2501), 'm' followed by
Morohashi ID (index in Dai Kan-Wa Jiten), 'n' followed by Classic Nelson ID
or 'u' followed by Unicode. For example, theses all produce the same output:
  kanjiQuiz 奉
  kanjiQuiz 1624
  kanjiQuiz m5894
  kanjiQuiz n212
  kanjiQuiz u5949
".
(** RadicalData.cpp:115-117: there are radicals without Kanji *)
Definition missesRadicals (e : Env) (d : Data) : bool :=
  match collectRadicals (dNames d) [] with
  | Val radicals => existsb (fun i => negb (existsb (fun x => fst (fst x) =? radNumber i) radicals)) (radList (envRadicals e))
  | _ => false
  end.
(** UcdData.cpp:222-225: there are Kanji with variation selectors *)
Definition hasVariants (d : Data) : bool :=
  existsb (fun x => match variant (snd x) with Val b => b | _ => false end) (dNames d).
(** what TextKanjiData leaves set in the stream: RadicalData.cpp:18 and 121 with Radical.cpp:21, then UcdData.cpp:224 *)
Definition leftSet (mode : ReportModel.DebugMode) (e : Env) (d : Data) : Stream :=
  match mode with
  | DebugFull => if hasVariants d then MkStream true 32 else if missesRadicals e d then MkStream false 48 else MkStream false 32
  | _ => MkStream false 32
  end.

Section Programs.
Variable fs : bytes -> option CountModel.node.
Variable writable : bytes -> bool.
Variable cwd : bytes.
Variable reg : bytes -> registry.
(** std::sort with KanjiData::OrderByStrokes and with KanjiData::OrderByQualifiedName *)
Variable sort sortNames : list Kanji -> list Kanji.
Variable ltr : bool.
Variable fuel : nat.

Section Quiz.
Variable R : Type.
Variable draw : N -> R -> N * R.
Variable shuffle : list QKanji -> R -> list QKanji * R.
Variable shuffleGroups : list Group -> R -> list Group * R.

(** what the constructor of QuizLauncher does: it writes a text, has a quiz or does nothing *)
Inductive Done := DoneText (t : bytes) | DoneQuiz (q : res (State R) (ProgramMode * QuestionOrder)) | DoneNothing.
(** QuizLauncher.cpp:98-99 with the data that was loaded.  reviewText always has a value (see C116) *)
Definition quizWith (d : Data) (gd : GroupData) (jd : JukugoData) (p : Settings) (i : istream) (r : R) :=
  startOptions R draw shuffle shuffleGroups (groupNumber gd) (fun k => extraTypeText (qKanji k) (kDetails (qKanji k)))
    (fun k => shownOr (reviewText sortNames gd jd (qKanji k))) d (meaningGroups gd) (patternGroups gd) fuel p i r.
(** QuizLauncher.cpp:75-100 without an input stream of its own: the line read at each question stands for the key that
    is pressed (see KeyQuizModel and C143; with keys a line feed is written too, and a default is not taken at the end of the input).  Where details are padded the fill is a space;
    it is '0' in full debug mode if radicals are missing and there are no variants and no meaning groups *)
Definition launch (a : Args) (mode : ReportModel.DebugMode) (e : Env) (d : Data) (gd : GroupData) (jd : JukugoData) (i : istream) (r : R) : out Done :=
  c <- readArgs fuel a ;;
  match c with
  | KanjiDetails arg => t <- processKanjiArg sortNames d (envUcd e) gd jd arg ;; Val (DoneText t)
  | HelpMessage => Val (DoneText HelpText)
  | Options p => Val (if startsQuiz (isDebug mode) false p then DoneQuiz (quizWith d gd jd p i r) else DoneNothing)
  end.
(** Quiz.cpp:12-16 run *)
Definition quizRun (a : Args) (st : list_static) (i : istream) (r : R) : L Done :=
  let* (dir, mode, e, d) := loadArgs fs writable cwd reg sort ltr a st 0 in
  let* (gd, f) := newGroupData fs writable reg mode (leftSet mode e d) dir d in
  let* jd := newJukugoData fs mode f dir d in
  llift (launch a mode e d gd jd i r).
(** apps/quizMain.cpp:3-11 *)
Definition quizMain (l : list bytes) (st : list_static) (i : istream) (r : R) : L Done :=
  let* a := llift (mainArgs l) in quizRun a st i r.
Definition quizEnded (x : L Done) : Ended :=
  match snd x with
  | Val (DoneQuiz (Ok _ _)) => Exit 0
  | Val (DoneQuiz (Err _ _)) => Exit 1
  | Val (DoneQuiz Undefined) => IsUndefined
  | Val (DoneQuiz NoReturn) => DoesNotEnd
  | y => ended y
  end.
End Quiz.

(** ** kanjiStats *)

(** the order of a std::set<Count> (see StatsReportModel), for the greatest frequency *)
Variable order : N -> list StatsModel.SCount -> list StatsModel.SCount.
(** apps/statsMain.cpp:4-14 *)
Definition statsMain (l : list bytes) (st : list_static) : L unit :=
  let* a := llift (mainArgs l) in
  let* (dir, mode, e, d) := loadArgs fs writable cwd reg sort ltr a st 0 in
  let '(t, x) := StatsReportModel.stats (loadedUcd e) (loadedEntry d) (order (dMax d)) fs fuel a (isDebug mode) in
  let* _ := lsay [ToOut t] in
  llift x.

(** ** kanjiFormat *)

(** std::fstream of a file that is not writable is not open: reading then fails at once.
    apps/formatMain.cpp:12-53; fromUtf8ToWstring does not fail for bytes (C118_formatted), so all is written at once *)
Definition formatMain (l : list bytes) : L unit :=
  let* a := llift (mainArgs l) in
  if argc a <? 2 then llift (Throw DomainError)
  else
    let* file := llift (argAt a 1) in
    if isRegular fs file then
      let* t := llift (FormatModel.format (if writable file then contentsOf fs file else [])) in
      let* _ := lsay [ToOut t] in llift (Val tt)
    else llift (Throw DomainError).

(** ** kanaConvert *)

(** apps/convertMain.cpp:3-11 *)
Definition convertMain (l : list bytes) (terminal : bool) (i : istream) : L unit :=
  let* a := llift (mainArgs l) in
  let '(t, x) := ProgramModel.program ltr fuel a terminal i in
  let* _ := lsay [ToOut t] in
  llift x.
End Programs.
