(** Model of how libs/quiz/src/QuizLauncher.cpp starts a quiz: the questions asked before it and the
    list that is chosen.  Characters are taken as their values below 128. *)
From Verif Require Export EnumModel DataModel LaunchModel GroupModel.
Open Scope N_scope.

(** ** Requests *)

(** QuizLauncher.cpp:51, 71, 106 *)
Definition modeRequest : request :=
  MkRequest None (b_ "Mode") true [(114, b_ "review"); (116, b_ "test")] (Some 116).
(** QuizLauncher.cpp:52-53, 71, 386 *)
Definition orderRequest : request :=
  MkRequest None (b_ "List order") true [(98, b_ "from beginning"); (101, b_ "from end"); (114, b_ "random")] (Some 114).
(** QuizLauncher.cpp:54-55, 445-447 *)
Definition typeRequest : request :=
  MkRequest None (b_ "Type") true
    [(102, b_ "freq"); (103, b_ "grade"); (107, b_ "kyu"); (108, b_ "JLPT"); (109, b_ "meaning"); (112, b_ "pattern")] (Some 103).
(** QuizLauncher.cpp:56, 65, 449-453 *)
Definition freqRequest : request :=
  MkRequest FrequencyRange (b_ "Choose frequency list") true [(48, b_ "top 250 Kanji")] None.
(** QuizLauncher.cpp:57, 65, 455-458 *)
Definition gradeRequest : request :=
  MkRequest GradeRange (b_ "Choose grade") true [(115, b_ "Secondary School")] (Some 54).
(** QuizLauncher.cpp:58, 66, 460-462 *)
Definition kyuRequest : request :=
  MkRequest KyuRange (b_ "Choose kyu") true [(97, b_ "10"); (98, b_ "準１級"); (99, b_ "準２級")] (Some 50).
(** QuizLauncher.cpp:59-60, 464-466 *)
Definition levelRequest : request :=
  MkRequest None (b_ "Choose level") true
    [(49, b_ "N1"); (50, b_ "N2"); (51, b_ "N3"); (52, b_ "N4"); (53, b_ "N5")] None.
(** QuizLauncher.cpp:62-63, 72, 237-239 *)
Definition kanjiTypeRequest : request :=
  MkRequest None (b_ "Kanji type") true
    [(49, b_ "Jōyō"); (50, b_ "1+JLPT"); (51, b_ "2+Freq."); (52, b_ "all")] (Some 50).
(** QuizLauncher.cpp:66, 72, 224-225 *)
Definition countRequest : request := MkRequest (Some (50, 57)) (b_ "Number of choices") true [] (Some 52).
(** QuizLauncher.cpp:61, 72, 228 *)
Definition styleRequest : request :=
  MkRequest None (b_ "Quiz style") true [(107, b_ "kanji to reading"); (114, b_ "reading to kanji")] (Some 107).

(** ** The lists *)

(** EnumMap.h:66-69 const operator[]: None, the value [none], stands for an empty list *)
Definition listOf (m : list (N * list Kanji)) (none x : N) : list Kanji := if x =? none then [] else alist N.eqb x m.
(** QuizLauncher.cpp:128-129; a negative number becomes a large std::size_t *)
Definition freqList (d : Data) (c : N) : out (list Kanji) := if c <? 48 then Val [] else frequencyList d (c - 48).
(** QuizLauncher.cpp:134-135 *)
Definition gradeList (d : Data) (c : N) : out (list Kanji) :=
  if c =? 115 then Val (listOf (dGrades d) 7 6)
  else x <- checkIndex 8 (Z.of_N c - 49) ;; Val (listOf (dGrades d) 7 x).
(** QuizLauncher.cpp:468-477 getKyuList *)
Definition kyuList (d : Data) (c : N) : out (list Kanji) :=
  x <- (if c =? 97 then Val 0 else if c =? 99 then Val 8 else if c =? 50 then Val 9
        else if c =? 98 then Val 10 else if c =? 49 then Val 11
        else checkIndex 13 (7 - (Z.of_N c - 51))) ;;
  Val (listOf (dKyus d) 12 x).
(** QuizLauncher.cpp:143-144 *)
Definition levelList (d : Data) (c : N) : out (list Kanji) :=
  x <- checkIndex 6 (4 - (Z.of_N c - 49)) ;; Val (listOf (dLevels d) 5 x).
(** QuizLauncher.cpp:242: other values of the enum are not modelled; the command line and the prompt
    only give these *)
Definition memberType (c : N) : option MemberType :=
  if c =? 49 then Some MJouyou else if c =? 50 then Some MJLPT else if c =? 51 then Some MFrequency
  else if c =? 52 then Some MAll else None.

(** a Kanji with what quizzes show of it *)
Definition detailed (k : Kanji) : QKanji := MkQ k (dReading (kDetails k)) (dMeaning (kDetails k)).

Section Start.
Variable R : Type.
Variable draw : N -> R -> N * R.
Variable shuffle : list QKanji -> R -> list QKanji * R.
Variable shuffleGroups : list Group -> R -> list Group * R.
Variable otherNumber : GroupType -> bytes -> option N.
Variable extraTypeInfo reviewDetails : QKanji -> bytes.
Variable d : Data.
Variable meaningGroups patternGroups : list Group.
Variable fuel : nat.
Notation State := (State R).

(** Choice::get with the quit option of the launcher *)
Definition asked (rq : request) (s : State) : res State N := ask R launcherQuit rq s.
(** [qList ? *qList : _choice.get(...)] *)
Definition orAsked (given : option N) (rq : request) (s : State) : res State N :=
  match given with Some c => Ok c s | None => asked rq s end.
Definition quits (c : N) : bool := isQuit launcherQuit c.

(** a quiz that goes on with the input and the random values of [s]; its events come after those of [s] *)
Definition after (s : State) (run : istream -> R -> res State unit) : res State unit :=
  match run (input R s) (rng R s) with
  | Ok _ s' => Ok tt (MkState R 0 false 0 [] (input R s') (events R s ++ events R s') (rng R s'))
  | Err e s' => Err e (MkState R 0 false 0 [] (input R s') (events R s ++ events R s') (rng R s'))
  | Undefined => Undefined
  | NoReturn => NoReturn
  end.
Definition lifted {A} (m : out A) (s : State) : res State A :=
  match m with Val a => Ok a s | Throw e => Err e s | Ub => Undefined | Fuel => NoReturn end.

(** QuizLauncher.cpp:219-235 startListQuiz *)
Definition startListQuiz (l : Launcher) (question : N) (showMeanings : bool) (excludeField : N) (list : list Kanji) (s : State)
    : res State unit :=
  let run (choiceCount style : N) (s : State) :=
    after s (listQuiz R draw shuffle extraTypeInfo reviewDetails fuel l question showMeanings (map detailed list)
      (N.lxor Info_All excludeField) choiceCount (toQuizStyle style)) in
  if isQuizMode l then
    do c, s <- asked countRequest s ;;
    if quits c then Ok tt s
    else do style, s <- asked styleRequest s ;; if quits style then Ok tt s else run (c - 48) style s
  else run 1 107 s.
(** QuizLauncher.cpp:237-243 startGroupQuiz *)
Definition startGroupQuiz (l : Launcher) (question : N) (showMeanings : bool) (qList : option N) (list : list Group) (s : State)
    : res State unit :=
  do c, s <- orAsked qList kanjiTypeRequest s ;;
  if quits c then Ok tt s
  else match memberType c with
       | Some m => after s (groupQuiz R shuffleGroups shuffle otherNumber fuel l question showMeanings list m)
       | None => Undefined
       end.

(** QuizLauncher.cpp:122-152: the choice of the list *)
Definition startType (l : Launcher) (quizType qList : option N) (question : N) (showMeanings : bool) (s : State) : res State unit :=
  let chosen (rq : request) (field : N) (list : N -> out (list Kanji)) (s : State) :=
    do c, s <- orAsked qList rq s ;;
    if quits c then Ok tt s
    else do x, s <- lifted (list c) s ;; startListQuiz l question showMeanings field x s in
  do t, s <- orAsked quizType typeRequest s ;;
  if t =? 102 then chosen freqRequest Info_Freq (freqList d) s
  else if t =? 103 then chosen gradeRequest Info_Grade (gradeList d) s
  else if t =? 107 then chosen kyuRequest Info_Kyu (kyuList d) s
  else if t =? 108 then chosen levelRequest Info_Level (levelList d) s
  else if t =? 109 then startGroupQuiz l question showMeanings qList meaningGroups s
  else if t =? 112 then startGroupQuiz l question showMeanings qList patternGroups s
  else Ok tt s.

(** QuizLauncher.cpp:102-156 start with 384-393 getQuestionOrder: the result is the mode and the order
    that the launcher has afterwards *)
Definition startQuiz (mode : ProgramMode) (order : QuestionOrder) (quizType qList : option N) (question : N)
    (showMeanings randomize : bool) (s : State) : res State (ProgramMode * QuestionOrder) :=
  do m, s <- (match mode with
              | NoMode => do c, s <- asked modeRequest s ;;
                          Ok (if quits c then NoMode else if c =? 114 then Review else QuizMode) s
              | _ => Ok mode s
              end) ;;
  match m with
  | NoMode => Ok (NoMode, order) s
  | _ =>
      do o, s <- (match order with
                  | NoOrder => do c, s <- asked orderRequest s ;;
                               Ok (if c =? 98 then FromBeginning else if c =? 101 then FromEnd
                                   else if c =? 114 then RandomOrder else NoOrder) s
                  | _ => Ok order s
                  end) ;;
      match o with
      | NoOrder => Ok (m, NoOrder) s
      | _ =>
          let l := MkLauncher (match m with QuizMode => true | _ => false end) o randomize launcherQuit in
          do _u, s <- startType l quizType qList question showMeanings s ;; Ok (NoMode, NoOrder) s
      end
  end.
(** QuizLauncher.cpp:98-99: the quiz that the constructor starts for the options [p] *)
Definition startOptions (p : Settings) (i : istream) (r : R) : res State (ProgramMode * QuestionOrder) :=
  startQuiz (sMode p) (sOrder p) (sType p) (sList p) (sQuestion p) (sMeanings p) true (initial R 0 false i r).
End Start.
