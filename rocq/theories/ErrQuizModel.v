(** Model of what() of the exceptions that libs/quiz/src/Quiz.cpp, ListQuiz.cpp and GroupQuiz.cpp throw when a quiz starts, and of what
    kanjiQuiz writes to std::cerr then.

    The value of a run is None if it returns and [Some (e, w)] if [e] is thrown with the text [w]; Err stands for exceptions whose text is
    not modelled here: those of Choice (see ErrChoiceModel.v) and of the standard library. *)
From Verif Require Import LoadLogModel ErrMainModel.
From Verif Require Export MainModel.
From Verif Require Export QuizModel GroupModel StartModel.
Open Scope N_scope.

Definition Thrown : Type := option (exn * bytes).
(** the same without texts *)
Definition erased {S A} (m : res S (Thrown * A)) : res S A :=
  match m with
  | Ok (None, a) s => Ok a s
  | Ok (Some (e, _), _) s => Err e s
  | Err e s => Err e s
  | Undefined => Undefined
  | NoReturn => NoReturn
  end.
Definition erased1 {S} (m : res S Thrown) : res S unit :=
  match m with
  | Ok None s => Ok tt s
  | Ok (Some (e, _)) s => Err e s
  | Err e s => Err e s
  | Undefined => Undefined
  | NoReturn => NoReturn
  end.
(** nothing after an exception is run *)
Definition unless {S} (m : res S Thrown) (k : S -> res S Thrown) : res S Thrown := do t, s <- m ;; match t with None => k s | Some _ => Ok t s end.

Section Quiz.
Variable R : Type.
Variable draw : N -> R -> N * R.
Variable shuffle : list QKanji -> R -> list QKanji * R.
Variable shuffleGroups : list Group -> R -> list Group * R.
Variable otherNumber : GroupType -> bytes -> option N.
Variable extraTypeInfo reviewDetails : QKanji -> bytes.
Notation State := (State R).
Definition throw (w : bytes) (s : State) : res State Thrown := Ok (Some (DomainError, w)) s.
Definition returns (m : res State unit) : res State Thrown := do _u, s <- m ;; Ok None s.

(** Quiz.cpp:49-62 with KanjiData.cpp:40 *)
Definition beginQuizMessageT (l : Launcher) (total : N) (s : State) : res State Thrown :=
  if negb (current R s =? 0) && (total <? current R s)
  then throw (b_ "entry num '" ++ to_string (current R s) ++ b_ "' is larger than total questions: " ++ to_string total) s
  else returns (beginQuizMessage R l total s).
(** ListQuiz.cpp:31-36 *)
Fixpoint noReading (list : list QKanji) : option bytes :=
  match list with
  | [] => None
  | k :: list => if hasReading k then noReading list else Some (qName k ++ b_ " has no reading")
  end.
(** ListQuiz.cpp:22-46 *)
Definition listQuizT (fuel : nat) (l : Launcher) (question : N) (showMeanings : bool) (list : list QKanji)
    (fields choiceCount : N) (style : QuizStyle) (i : istream) (r : R) : res State Thrown :=
  let s := initial R question showMeanings i r in
  destroyed R l
    (match toChar_int (Z.of_N (48 + choiceCount)) true with
     | Throw e => Err e s
     | Ub => Undefined
     | Fuel => NoReturn
     | Val choiceEnd =>
         match noReading list with
         | Some w => throw w s
         | None =>
             let '(questions, r) :=
               match questionOrder l with
               | FromEnd => (rev list, r)
               | RandomOrder => shuffle list r
               | _ => (list, r)
               end in
             let s := setRng R r s in
             unless (beginQuizMessageT l (len questions) s) (fun s =>
               let s := print R (b_ "kanji
>>>
") s in
               let s := if isKanjiToReading style then printLegend R fields s else s in
               returns (startLoop R draw extraTypeInfo reviewDetails fuel l style fields choiceCount choiceEnd questions s))
         end
     end).

(** GroupQuiz.cpp:109-146 start *)
Definition startGroupsT (fuel : nat) (l : Launcher) (t : GroupType) (m : MemberType) (list : list Group) (s : State) : res State Thrown :=
  unless (beginQuizMessageT l (len list) s) (fun s =>
    let s := print R (groupTypeText t ++ b_ " groups
") s in
    let s := if 0 <? memberRank m then print R (b_ ">>>   .=常用 '=JLPT ""=Freq ^=人名用 ~=LinkJ %=LinkO +=Extra @=検定 #=1級 *=Ucd
") s else s in
    returns (groupLoop R shuffle otherNumber fuel l t m list s)).
(** GroupQuiz.cpp:28-47 *)
Definition groupQuizT (fuel : nat) (l : Launcher) (question : N) (showMeanings : bool) (list : list Group) (m : MemberType)
    (i : istream) (r : R) : res State Thrown :=
  let s := initial R question showMeanings i r in
  destroyed R l
    match list with
    | [] => throw (b_ "empty group list") s
    | g :: _ =>
        match gType g with
        | PatternGroupType =>
            do c, s <- ask R (quitOption l) (MkRequest None (b_ "Pattern name") true PatternGroupChoices (Some 49)) s ;;
            if isQuit (quitOption l) c then Ok None s
            else let '(x, s) := prepareList R shuffleGroups l m (Some (c - 49)) list s in startGroupsT fuel l (gType g) m x s
        | MeaningType =>
            match questionOrder l, m with
            | FromBeginning, MAll => startGroupsT fuel l (gType g) m list s
            | _, _ => let '(x, s) := prepareList R shuffleGroups l m None list s in startGroupsT fuel l (gType g) m x s
            end
        end
    end.

Variable d : Data.
Variable meaningGroups patternGroups : list Group.
Variable fuel : nat.
Definition afterT (s : State) (run : istream -> R -> res State Thrown) : res State Thrown :=
  match run (input R s) (rng R s) with
  | Ok t s' => Ok t (MkState R 0 false 0 [] (input R s') (events R s ++ events R s') (rng R s'))
  | Err e s' => Err e (MkState R 0 false 0 [] (input R s') (events R s ++ events R s') (rng R s'))
  | Undefined => Undefined
  | NoReturn => NoReturn
  end.
(** QuizLauncher.cpp:219-235 *)
Definition startListQuizT (l : Launcher) (question : N) (showMeanings : bool) (excludeField : N) (list : list Kanji) (s : State)
    : res State Thrown :=
  let run (choiceCount style : N) (s : State) :=
    afterT s (listQuizT fuel l question showMeanings (map detailed list) (N.lxor Info_All excludeField) choiceCount (toQuizStyle style)) in
  if isQuizMode l then
    do c, s <- asked R countRequest s ;;
    if quits c then Ok None s
    else do style, s <- asked R styleRequest s ;; if quits style then Ok None s else run (c - 48) style s
  else run 1 107 s.
(** QuizLauncher.cpp:237-243 *)
Definition startGroupQuizT (l : Launcher) (question : N) (showMeanings : bool) (qList : option N) (list : list Group) (s : State)
    : res State Thrown :=
  do c, s <- orAsked R qList kanjiTypeRequest s ;;
  if quits c then Ok None s
  else match memberType c with
       | Some m => afterT s (groupQuizT fuel l question showMeanings list m)
       | None => Undefined
       end.
(** QuizLauncher.cpp:122-152 *)
Definition startTypeT (l : Launcher) (quizType qList : option N) (question : N) (showMeanings : bool) (s : State) : res State Thrown :=
  let chosen (rq : request) (field : N) (list : N -> out (list Kanji)) (s : State) :=
    do c, s <- orAsked R qList rq s ;;
    if quits c then Ok None s
    else do x, s <- lifted R (list c) s ;; startListQuizT l question showMeanings field x s in
  do t, s <- orAsked R quizType typeRequest s ;;
  if t =? 102 then chosen freqRequest Info_Freq (freqList d) s
  else if t =? 103 then chosen gradeRequest Info_Grade (gradeList d) s
  else if t =? 107 then chosen kyuRequest Info_Kyu (kyuList d) s
  else if t =? 108 then chosen levelRequest Info_Level (levelList d) s
  else if t =? 109 then startGroupQuizT l question showMeanings qList meaningGroups s
  else if t =? 112 then startGroupQuizT l question showMeanings qList patternGroups s
  else Ok None s.
(** QuizLauncher.cpp:102-156, 384-393 *)
Definition startQuizT (mode : ProgramMode) (order : QuestionOrder) (quizType qList : option N) (question : N)
    (showMeanings randomize : bool) (s : State) : res State (Thrown * (ProgramMode * QuestionOrder)) :=
  do m, s <- (match mode with
              | NoMode => do c, s <- asked R modeRequest s ;;
                          Ok (if quits c then NoMode else if c =? 114 then Review else QuizMode) s
              | _ => Ok mode s
              end) ;;
  match m with
  | NoMode => Ok (None, (NoMode, order)) s
  | _ =>
      do o, s <- (match order with
                  | NoOrder => do c, s <- asked R orderRequest s ;;
                               Ok (if c =? 98 then FromBeginning else if c =? 101 then FromEnd
                                   else if c =? 114 then RandomOrder else NoOrder) s
                  | _ => Ok order s
                  end) ;;
      match o with
      | NoOrder => Ok (None, (m, NoOrder)) s
      | _ =>
          let l := MkLauncher (match m with QuizMode => true | _ => false end) o randomize launcherQuit in
          do t, s <- startTypeT l quizType qList question showMeanings s ;; Ok (t, (NoMode, NoOrder)) s
      end
  end.
(** QuizLauncher.cpp:98-99 *)
Definition startOptionsT (p : Settings) (i : istream) (r : R) : res State (Thrown * (ProgramMode * QuestionOrder)) :=
  startQuizT (sMode p) (sOrder p) (sType p) (sList p) (sQuestion p) (sMeanings p) true (initial R 0 false i r).
End Quiz.

Section Program.
Variable std : exn -> bytes.
Variable fs : bytes -> option CountModel.node.
Variable writable : bytes -> bool.
Variable cwd : bytes.
Variable reg : bytes -> registry.
Variable sort sortNames : list Kanji -> list Kanji.
Variable ltr : bool.
Variable fuel : nat.
Variable R : Type.
Variable draw : N -> R -> N * R.
Variable shuffle : list QKanji -> R -> list QKanji * R.
Variable shuffleGroups : list Group -> R -> list Group * R.
Definition quizWithT (d : Data) (gd : GroupData) (jd : JukugoData) (p : Settings) (i : istream) (r : R) :=
  startOptionsT R draw shuffle shuffleGroups (groupNumber gd) (fun k => extraTypeText (qKanji k) (kDetails (qKanji k)))
    (fun k => shownOr (reviewText sortNames gd jd (qKanji k))) d (meaningGroups gd) (patternGroups gd) fuel p i r.
(** a program that ends without a quiz, or the run of a quiz *)
Definition DoneT : Type := MainModel.Done R + QuizModel.res (State R) (Thrown * (ProgramMode * QuestionOrder)).
Definition doneAs (x : DoneT) : MainModel.Done R := match x with inl y => y | inr q => DoneQuiz R (erased q) end.
(** QuizLauncher.cpp:75-100 *)
Definition launchQ (a : Args) (mode : ReportModel.DebugMode) (e : Env) (d : Data) (gd : GroupData) (jd : JukugoData) (i : istream) (r : R) : ErrBase.res DoneT :=
  ErrBase.rbind (readArgsT std fuel a) (fun c =>
  match c with
  | KanjiDetails arg => ErrBase.rbind (processKanjiArgT std sortNames d (envUcd e) gd jd arg) (fun t => Got (inl (DoneText R t)))
  | HelpMessage => Got (inl (DoneText R MainModel.HelpText))
  | Options p => Got (if startsQuiz (isDebug mode) false p then inr (quizWithT d gd jd p i r) else inl (DoneNothing R))
  end).
(** Quiz.cpp:12-16 and apps/quizMain.cpp:3-11 *)
Definition quizMainQ (l : list bytes) (i : istream) (r : R) : ErrBase.res DoneT :=
  ErrBase.rbind (mainArgsT l) (fun a =>
  ErrBase.rbind (loadArgsT fs writable cwd reg sort ltr a) (fun '(dir, mode, e, d) =>
  ErrBase.rbind (groupsT fs writable reg mode e dir d) (fun gd =>
  ErrBase.rbind (newJukugoDataT std fs dir) (fun jd =>
  launchQ a mode e d gd jd i r)))).
(** what is written to std::cerr if the program ends (KanjiData.cpp:210-216, quizMain.cpp:7) and no exception without a modelled text is thrown *)
Definition quizErrors (l : list bytes) (i : istream) (r : R) : option bytes :=
  let before := errorText 0 (fst (quizMain fs writable cwd reg sort sortNames ltr fuel R draw shuffle shuffleGroups l initStatic i r)) in
  match quizMainQ l i r with
  | Says _ w | Got (inr (Ok (Some (_, w), _) _)) => Some (before ++ w ++ [10])
  | Got (inl _) | Got (inr (Ok (None, _) _)) => Some before
  | _ => None
  end.
End Program.
