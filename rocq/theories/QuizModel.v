(** Model of libs/quiz/src/Quiz.cpp and libs/quiz/src/ListQuiz.cpp with the parts of
    QuizLauncher.cpp that they use.  A run is described by the list of its events: what was printed
    and what was asked, with the key that Choice::get returned and the text it wrote. *)
From Verif Require Export KanjiModel ChoiceModel.
Open Scope N_scope.

(** what a quiz uses of a Kanji: Kanji.h:51-150 (meaning and reading are virtual methods) *)
Record QKanji := MkQ { qKanji : Kanji; qReading : bytes; qMeaning : bytes }.
Definition qName (k : QKanji) : bytes := kName (qKanji k).
(** Kanji.cpp:42-44 hasMeaning, hasReading *)
Definition hasMeaning (k : QKanji) : bool := nonEmpty (qMeaning k).
Definition hasReading (k : QKanji) : bool := nonEmpty (qReading k).

(** QuizLauncher.h:48-53 *)
Inductive QuestionOrder := FromBeginning | FromEnd | RandomOrder | NoOrder.
(** the launcher as a quiz sees it: QuizLauncher.h:55-60; the mode is Quiz or Review here *)
Record Launcher := MkLauncher { isQuizMode : bool; questionOrder : QuestionOrder; randomizeAnswers : bool; quitOption : Quit }.
(** QuizLauncher.h:18 and Choice.h:21: the quit option of every launcher *)
Definition launcherQuit : Quit := Some (47, b_ "quit").

(** a call of Choice::get, with or without a range *)
Record request := MkRequest { rqRange : option (N * N); rqMsg : bytes; rqUseQuit : bool; rqChoices : Choices; rqDefault : option N }.
Inductive event := Print (s : bytes) | Asked (rq : request) (key : N) (written : bytes).

(** results that keep the state when an exception is thrown, since ~Quiz prints then, too *)
Inductive res (S A : Type) := Ok (a : A) (s : S) | Err (e : exn) (s : S) | Undefined | NoReturn.
Arguments Ok {S A} a s.
Arguments Err {S A} e s.
Arguments Undefined {S A}.
Arguments NoReturn {S A}.
Definition rbind {S A B} (m : res S A) (k : A -> S -> res S B) : res S B :=
  match m with Ok a s => k a s | Err e s => Err e s | Undefined => Undefined | NoReturn => NoReturn end.
Notation "'do' x , s <- e ;; k" := (rbind e (fun x s => k)) (at level 100, x name, s name, e at next level, right associativity).

Section Quiz.
(** a source of random values: the state of std::mt19937 (ListQuiz.cpp:10, GroupQuiz.cpp:12) *)
Variable R : Type.
(** std::uniform_int_distribution from 0 to the given number minus one *)
Variable draw : N -> R -> N * R.
(** std::shuffle *)
Variable shuffle : list QKanji -> R -> list QKanji * R.
(** QuizLauncher.cpp:158-161 printExtraTypeInfo and 184-217 printReviewDetails: what they print *)
Variable extraTypeInfo reviewDetails : QKanji -> bytes.

(** Quiz.h:66-71, with the input stream, the events so far and the source of random values *)
Record State := MkState {
  current : N;           (* _currentQuestion, uint16_t *)
  meanings : bool;       (* _showMeanings *)
  correctAnswers : N;    (* uint16_t *)
  mistakes : list bytes;
  input : istream;
  events : list event;
  rng : R
}.
Definition setCurrent (n : N) (s : State) : State :=
  MkState n (meanings s) (correctAnswers s) (mistakes s) (input s) (events s) (rng s).
Definition setMeanings (b : bool) (s : State) : State :=
  MkState (current s) b (correctAnswers s) (mistakes s) (input s) (events s) (rng s).
Definition setCorrect (n : N) (s : State) : State :=
  MkState (current s) (meanings s) n (mistakes s) (input s) (events s) (rng s).
Definition addMistake (n : bytes) (s : State) : State :=
  MkState (current s) (meanings s) (correctAnswers s) (mistakes s ++ [n]) (input s) (events s) (rng s).
Definition setInput (i : istream) (s : State) : State :=
  MkState (current s) (meanings s) (correctAnswers s) (mistakes s) i (events s) (rng s).
Definition addEvent (e : event) (s : State) : State :=
  MkState (current s) (meanings s) (correctAnswers s) (mistakes s) (input s) (events s ++ [e]) (rng s).
Definition setRng (r : R) (s : State) : State :=
  MkState (current s) (meanings s) (correctAnswers s) (mistakes s) (input s) (events s) r.
Definition print (t : bytes) (s : State) : State := addEvent (Print t) s.

(** Choice::get on the stream of the launcher.  The step bound is never the reason for not
    returning: every step but the last one reads a line (see ask_complete in QuizProofs.v). *)
Definition ask (q : Quit) (rq : request) (s : State) : res State N :=
  let fuel := S (S (length (inRest (input s)))) in
  match (match rqRange rq with
         | Some (a, b) => getRange fuel q a b (rqMsg rq) (rqUseQuit rq) (rqChoices rq) (rqDefault rq) (input s)
         | None => get fuel q (rqMsg rq) (rqUseQuit rq) (rqChoices rq) (rqDefault rq) (input s)
         end) with
  | Val (c, i, w) => Ok c (addEvent (Asked rq c w) (setInput i s))
  | Throw e => Err e s
  | Ub => Undefined
  | Fuel => NoReturn
  end.

(** Quiz.h:43: MeaningsOption, PrevOption, SkipOption *)
Definition MeaningsOption := 45.
Definition PrevOption := 44.
Definition SkipOption := 46.
(** Quiz.cpp:8 *)
Definition meaningsText (show : bool) : bytes := if show then b_ "hide meanings" else b_ "show meanings".

(** Quiz.cpp:22-36 ~Quiz; line 26 computes with std::size_t *)
Definition finalScore (l : Launcher) (s : State) : State :=
  if isQuizMode l then
    let skipped := u64 (2 * 2 ^ 64 + current s - correctAnswers s - len (mistakes s)) in
    print (b_ "
Final score: " ++ to_string (correctAnswers s) ++ b_ "/" ++ to_string (current s)
      ++ (if current s =? 0 then []
          else (if skipped =? 0 then [] else b_ ", skipped: " ++ to_string skipped)
               ++ (match mistakes s with
                   | [] => if skipped =? 0 then b_ " - Perfect!" else []
                   | m => b_ " - mistakes:" ++ flat_map (fun n => b_ " " ++ n) m
                   end))
      ++ b_ "
") s
  else s.
(** the destructor runs when the constructor of the derived class returns and when it throws *)
Definition destroyed {A} (l : Launcher) (m : res State A) : res State A :=
  match m with Ok a s => Ok a (finalScore l s) | Err e s => Err e (finalScore l s) | x => x end.

(** QuizLauncher.cpp:177-182 printMeaning *)
Definition printMeaning (k : QKanji) (useNewLine showMeaning : bool) (s : State) : State :=
  print ((if showMeaning && hasMeaning k then (if useNewLine then b_ "
    Meaning: " else b_ " : ") ++ qMeaning k else []) ++ b_ "
") s.
(** Quiz.cpp:49-62 beginQuizMessage; line 53 throws DomainError *)
Definition beginQuizMessage (l : Launcher) (total : N) (s : State) : res State unit :=
  let continue s := Ok tt (print (b_ ">>>
>>> Starting " ++ (if isQuizMode l then b_ "quiz" else b_ "review") ++ b_ " for " ++ to_string total ++ b_ " ") s) in
  if current s =? 0 then continue s
  else if total <? current s then Err DomainError s
  else continue (setCurrent (u16 (current s + 65535)) s).
(** Quiz.cpp:64-67 beginQuestionMessage *)
Definition beginQuestionMessage (l : Launcher) (total : N) (s : State) : State :=
  print ((if isQuizMode l then b_ "
Question " else b_ "
") ++ to_string (current s + 1) ++ b_ "/" ++ to_string total ++ b_ ":  ") s.
(** Quiz.cpp:71-74 correctMessage *)
Definition correctMessage (s : State) : State :=
  let s := setCorrect (u16 (correctAnswers s + 1)) s in
  print (b_ "  Correct! (" ++ to_string (correctAnswers s) ++ b_ "/" ++ to_string (current s + 1) ++ b_ ")
") s.
(** Quiz.cpp:76-79 incorrectMessage *)
Definition incorrectMessage (name : bytes) (s : State) : State := print (b_ "  Incorrect") (addMistake name s).
(** Quiz.cpp:81-89 getDefaultChoices *)
Definition getDefaultChoices (l : Launcher) (total : N) (s : State) : Choices :=
  let c := [(MeaningsOption, meaningsText (meanings s));
            (SkipOption, if current s + 1 =? total then b_ "finish"
                         else if negb (isQuizMode l) then b_ "next" else b_ "skip")] in
  if negb (isQuizMode l) && negb (current s =? 0) then insertKey PrevOption (b_ "prev") c else c.
(** std::map::operator[] followed by an assignment *)
Definition setKey (c : N) (d : bytes) (m : Choices) : Choices :=
  if hasKey c m then map (fun e => if fst e =? c then (c, d) else e) m else insertKey c d m.
(** Quiz.cpp:91-94 toggleMeanings *)
Definition toggleMeanings (m : Choices) (s : State) : Choices * State :=
  let s := setMeanings (negb (meanings s)) s in (setKey MeaningsOption (meaningsText (meanings s)) m, s).

(** * ListQuiz *)

(** ListQuiz.h:26-29 *)
Inductive QuizStyle := KanjiToReading | ReadingToKanji.
(** ListQuiz.cpp:18-20 toQuizStyle *)
Definition toQuizStyle (c : N) : QuizStyle := if c =? 107 then KanjiToReading else ReadingToKanji.
Definition isKanjiToReading (q : QuizStyle) : bool := match q with KanjiToReading => true | ReadingToKanji => false end.

(** ListQuiz.cpp:12 *)
Definition Prompt : bytes := b_ "  Select".
(** ListQuiz.cpp:65-69 getPrompt *)
Definition getPrompt (l : Launcher) (style : QuizStyle) : bytes :=
  if isQuizMode l then Prompt ++ (if isKanjiToReading style then b_ " correct reading" else b_ " correct kanji") else Prompt.

(** ListQuiz.cpp:87-92: draw until the reading is new; the result is the choice with the readings
    so far, the last added first *)
Fixpoint pickAnswer (fuel : nat) (questions : list QKanji) (seen : list bytes) (s : State) : res State (N * list bytes) :=
  match fuel with
  | O => NoReturn
  | S f =>
      let '(c, r) := draw (u16 (len questions + 65535) + 1) (rng s) in
      let s := setRng r s in
      match nth_error questions (N.to_nat c) with
      | None => Undefined
      | Some k => if existsb (beq (qReading k)) seen then pickAnswer f questions seen s
                  else Ok (c, qReading k :: seen) s
      end
  end.
(** ListQuiz.cpp:85-92: the answers from position [i] on, [n] of them *)
Fixpoint pickAnswers (fuel n : nat) (i correct : N) (questions : list QKanji) (seen : list bytes) (s : State)
    : res State (list N) :=
  match n with
  | O => Ok [] s
  | S n' =>
      if i =? correct
      then do a, s <- pickAnswers fuel n' (i + 1) correct questions seen s ;; Ok (current s :: a) s
      else do p, s <- pickAnswer fuel questions seen s ;;
           do a, s <- pickAnswers fuel n' (i + 1) correct questions (snd p) s ;; Ok (fst p :: a) s
  end.
(** ListQuiz.cpp:75-94 populateAnswers: the position of the correct answer and _answers.  Writing
    to position [correct] of a vector that is too short is undefined. *)
Definition populateAnswers (fuel : nat) (l : Launcher) (choiceCount : N) (kanji : QKanji) (questions : list QKanji) (s : State)
    : res State (N * list N) :=
  let '(correct, s) := if randomizeAnswers l then let '(c, r) := draw choiceCount (rng s) in (c, setRng r s) else (0, s) in
  if choiceCount <=? correct then Undefined
  else do a, s <- pickAnswers fuel (N.to_nat choiceCount) 0 correct questions [qReading kanji] s ;; Ok (correct, a) s.

(** ListQuiz.cpp:96-105 printQuestion *)
Definition printQuestion (l : Launcher) (style : QuizStyle) (fields : N) (k : QKanji) (s : State) : State :=
  let s := if isKanjiToReading style then
             let s := print (qName k) s in
             let s := match info (qKanji k) fields with [] => s | i => print (b_ "  " ++ i) s end in
             if isQuizMode l then s else print (extraTypeInfo k) s
           else print (b_ "Reading:  " ++ qReading k) s in
  printMeaning k (negb (isQuizMode l)) (meanings s) s.

(** ListQuiz.cpp:107-116 printChoices; [i] is the position of the first answer of the list *)
Fixpoint printAnswers (style : QuizStyle) (i : N) (answers : list N) (questions : list QKanji) (s : State) : res State unit :=
  match answers with
  | [] => Ok tt s
  | a :: r =>
      match nth_error questions (N.to_nat a) with
      | None => Undefined
      | Some k => printAnswers style (i + 1) r questions
          (print (b_ "    " ++ to_string (i + 1) ++ b_ ".  " ++ (if isKanjiToReading style then qReading k else qName k) ++ b_ "
") s)
      end
  end.
Definition printChoices (l : Launcher) (style : QuizStyle) (answers : list N) (kanji : QKanji) (questions : list QKanji) (s : State)
    : res State unit :=
  if isQuizMode l then printAnswers style 0 answers questions s else Ok tt (print (reviewDetails kanji) s).

(** ListQuiz.cpp:118-136 getAnswer: None when the question is repeated (with the changed choices),
    otherwise if the quiz stops *)
Definition getAnswer (l : Launcher) (style : QuizStyle) (choiceEnd : N) (choices : Choices) (correct : N) (name : bytes) (s : State)
    : res State (Choices + bool) :=
  do answer, s <- ask (quitOption l)
       (MkRequest (if isQuizMode l then Some (49, choiceEnd) else None) (getPrompt l style) true choices None) s ;;
  if answer =? MeaningsOption then let '(c, s) := toggleMeanings choices s in Ok (inl c) s
  else if isQuit (quitOption l) answer then Ok (inr true) s
  else if answer =? PrevOption then Ok (inr false) (setCurrent (u16 (current s + 65534)) s)
  else match toChar_int (Z.of_N (49 + correct)) true with
       | Throw e => Err e s
       | Ub => Undefined
       | Fuel => NoReturn
       | Val c =>
           if c =? answer then Ok (inr false) (correctMessage s)
           else if negb (answer =? SkipOption)
                then Ok (inr false) (print (b_ " (correct answer is " ++ [c] ++ b_ ")
") (incorrectMessage name s))
                else Ok (inr false) s
       end.

(** ListQuiz.cpp:55-59: the loop over one question *)
Fixpoint askQuestion (fuel : nat) (l : Launcher) (style : QuizStyle) (fields choiceEnd : N) (kanji : QKanji)
    (questions : list QKanji) (correct : N) (answers : list N) (choices : Choices) (s : State) : res State bool :=
  match fuel with
  | O => NoReturn
  | S f =>
      let s := beginQuestionMessage l (len questions) s in
      let s := printQuestion l style fields kanji s in
      do _u, s <- printChoices l style answers kanji questions s ;;
      do r, s <- getAnswer l style choiceEnd choices correct (qName kanji) s ;;
      match r with
      | inl choices => askQuestion f l style fields choiceEnd kanji questions correct answers choices s
      | inr stop => Ok stop s
      end
  end.
(** ListQuiz.cpp:48-63 start *)
Fixpoint startLoop (fuel : nat) (l : Launcher) (style : QuizStyle) (fields choiceCount choiceEnd : N) (questions : list QKanji) (s : State)
    : res State unit :=
  match fuel with
  | O => NoReturn
  | S f =>
      if current s <? len questions then
        match nth_error questions (N.to_nat (current s)) with
        | None => Undefined
        | Some k =>
            let choices := getDefaultChoices l (len questions) s in
            do p, s <- populateAnswers f l choiceCount k questions s ;;
            do stop, s <- askQuestion f l style fields choiceEnd k questions (fst p) (snd p) choices s ;;
            let s := setCurrent (u16 (current s + 1)) s in
            if stop then Ok tt (setCurrent (u16 (current s + 65535)) s)
            else startLoop f l style fields choiceCount choiceEnd questions s
        end
      else Ok tt s
  end.

(** QuizLauncher.cpp:163-175 printLegend *)
Definition legendAdd (c : bool) (t s : bytes) : bytes := if c then (match s with [] => [] | _ => s ++ b_ "," end) ++ t else s.
Definition printLegend (fields : N) (s : State) : State :=
  let t := legendAdd (hasField fields Info_Level) (b_ " N[1-5]=JLPT Level") [] in
  let t := legendAdd (hasField fields Info_Kyu) (b_ " K[1-10]=Kentei Kyu") t in
  let t := legendAdd (hasField fields Info_Grade) (b_ " G[1-6]=Grade (S=Secondary School)") t in
  print (b_ ">>> Legend:
Fields:" ++ t ++ b_ "
Suffix: " ++ b_ ".=常用 '=JLPT ""=Freq ^=人名用 ~=LinkJ %=LinkO +=Extra @=検定 #=1級 *=Ucd" ++ b_ "
") s.

(** ListQuiz.cpp:22-46: the constructor, from a state that only has the input and the random values;
    then the quiz is destroyed *)
Definition initial (question : N) (showMeanings : bool) (i : istream) (r : R) : State :=
  MkState question showMeanings 0 [] i [] r.
Definition listQuiz (fuel : nat) (l : Launcher) (question : N) (showMeanings : bool) (list : list QKanji)
    (fields choiceCount : N) (style : QuizStyle) (i : istream) (r : R) : res State unit :=
  let s := initial question showMeanings i r in
  destroyed l
    (match toChar_int (Z.of_N (48 + choiceCount)) true with
     | Throw e => Err e s
     | Ub => Undefined
     | Fuel => NoReturn
     | Val choiceEnd =>
         if forallb hasReading list then
           let '(questions, r) :=
             match questionOrder l with
             | FromEnd => (rev list, r)
             | RandomOrder => shuffle list r
             | _ => (list, r)
             end in
           let s := setRng r s in
           do _u, s <- beginQuizMessage l (len questions) s ;;
           let s := print (b_ "kanji
>>>
") s in
           let s := if isKanjiToReading style then printLegend fields s else s in
           startLoop fuel l style fields choiceCount choiceEnd questions s
         else Err DomainError s
     end).
End Quiz.
