(** Model of libs/quiz/src/Group.cpp and libs/quiz/src/GroupQuiz.cpp. *)
From Verif Require Export DisplayModel QuizModel.
Open Scope N_scope.

(** * Group *)

(** Group.h:9-12 *)
Inductive GroupType := MeaningType | PatternGroupType.
(** Group.h:32-45 *)
Inductive PatternType := Family | Peer | Reading | NoPattern.
(** Group.h:70-78, 94-123: the pattern type of a MeaningGroup is None (Group.cpp:28) *)
Record Group := MkGroup { gType : GroupType; gNumber : N; gName : bytes; gMembers : list QKanji; gPattern : PatternType }.
(** Group.h:30 *)
Definition MaxGroupSize := 58.

(** Group.cpp:18-20: some name was already seen *)
Fixpoint hasDuplicate (seen : list bytes) (l : list QKanji) : bool :=
  match l with
  | [] => false
  | k :: r => existsb (beq (qName k)) seen || hasDuplicate (qName k :: seen) r
  end.
(** Group.cpp:9-26: the checks of the constructor of Group; the text of the error is not modelled *)
Definition checkMembers (members : list QKanji) : out unit :=
  if len members =? 0 then Throw DomainError
  else if len members =? 1 then Throw DomainError
  else if MaxGroupSize <? len members then Throw DomainError
  else if hasDuplicate [] members then Throw DomainError
  else Val tt.
(** Group.cpp:39-41 MeaningGroup *)
Definition meaningGroup (number : N) (name : bytes) (members : list QKanji) : out Group :=
  obind (checkMembers members) (fun _ => Val (MkGroup MeaningType number name members NoPattern)).
(** Group.cpp:45-49 PatternGroup *)
Definition patternGroup (number : N) (name : bytes) (members : list QKanji) (p : PatternType) : out Group :=
  obind (checkMembers members) (fun _ =>
    match p with NoPattern => Throw DomainError | _ => Val (MkGroup PatternGroupType number name members p) end).
(** Group.cpp:5-7 *)
Definition groupTypeText (t : GroupType) : bytes := match t with MeaningType => b_ "Meaning" | PatternGroupType => b_ "Pattern" end.
(** Group.cpp:55-63 *)
Definition groupText (g : Group) : bytes :=
  b_ "[" ++ (match gPattern g with
             | Peer => b_ "Peers " ++ (match gMembers g with [] => [] | k :: _ => qName k end)
             | _ => []
             end) ++ gName g ++ b_ "]".

(** * GroupQuiz *)

(** GroupQuiz.h:27-32 *)
Inductive MemberType := MJouyou | MJLPT | MFrequency | MAll.
Definition memberRank (m : MemberType) : N := match m with MJouyou => 0 | MJLPT => 1 | MFrequency => 2 | MAll => 3 end.
(** GroupQuiz.cpp:14-15 *)
Definition PatternGroupChoices : Choices :=
  [(49, b_ "ア"); (50, b_ "カ"); (51, b_ "サ"); (52, b_ "タ、ナ"); (53, b_ "ハ、マ"); (54, b_ "ヤ、ラ、ワ")].
(** GroupQuiz.cpp:20 *)
Definition PatternGroups : list bytes := [b_ "：カ"; b_ "：サ"; b_ "：タ"; b_ "：ハ"; b_ "：ヤ"].
(** GroupQuiz.cpp:22-24 *)
Definition RefreshOption := 39.
Definition EditOption := 42.
Definition TotalLetters := 26.
(** GroupQuiz.h:53-54 *)
Definition PinyinWidth := 12.
Definition GroupEntryWidth := 22.

(** String::find(sub) != npos *)
Fixpoint startsWith (sub s : bytes) : bool :=
  match sub, s with
  | [], _ => true
  | _, [] => false
  | a :: sub', b :: s' => (a =? b) && startsWith sub' s'
  end.
Fixpoint contains (sub s : bytes) : bool :=
  startsWith sub s || match s with [] => false | _ :: s' => contains sub s' end.

(** GroupQuiz.cpp:87-93 includeMember *)
Definition includeMember (m : MemberType) (k : QKanji) : bool :=
  hasReading k && (match kType (qKanji k) with Jouyou => true | _ => false end
                   || ((0 <? memberRank m) && hasLevel (qKanji k)
                       || ((1 <? memberRank m) && negb (kFrequency (qKanji k) =? 0) || (2 <? memberRank m)))).

(** GroupQuiz.cpp:61-79: the groups kept by prepareList, before they are reordered *)
Fixpoint keepGroups (m : MemberType) (bucket : option N) (including : bool) (l : list Group) : list Group :=
  match l with
  | [] => []
  | g :: r =>
      let pattern i := nth (N.to_nat i) PatternGroups [] in
      let add rest := if 1 <? len (filter (includeMember m) (gMembers g)) then g :: rest else rest in
      match bucket with
      | None => if including then add (keepGroups m bucket true r) else keepGroups m bucket false r
      | Some b =>
          if including then
            if (b <? len PatternGroups) && contains (pattern b) (gName g) then []
            else add (keepGroups m bucket true r)
          else if contains (pattern (b - 1)) (gName g) then add (keepGroups m bucket true r)
          else keepGroups m bucket false r
      end
  end.

(** GroupQuiz.cpp:49-57 addPinyin; line 54 throws std::length_error (here StdOutOfRange) when the
    pinyin is too wide *)
Definition pinyinText (k : Kanji) : out bytes :=
  if nonEmpty (kPinyin k) then
    let p := b_ "  (" ++ kPinyin k ++ b_ ")" in
    d <- displaySize p ;;
    if PinyinWidth <? d then Throw StdOutOfRange else Val (p ++ repeat 32 (N.to_nat (PinyinWidth - d)))
  else Val (repeat 32 (N.to_nat PinyinWidth)).

(** std::map::erase *)
Definition eraseKey (c : N) (m : Choices) : Choices := filter (fun e => negb (fst e =? c)) m.

Section Quiz.
Variable R : Type.
(** std::shuffle, of the groups and of the members *)
Variable shuffleGroups : list Group -> R -> list Group * R.
Variable shuffle : list QKanji -> R -> list QKanji * R.
(** the number of the group of the other type with a Kanji, if any: patternMap and meaningMap *)
Variable otherNumber : GroupType -> bytes -> option N.
Notation State := (State R).

(** an exception or undefined behaviour of a part that prints nothing *)
Definition lift {A} (m : out A) (s : State) : res State A :=
  match m with Val a => Ok a s | Throw e => Err e s | Ub => Undefined | Fuel => NoReturn end.

(** GroupQuiz.cpp:59-85 prepareList *)
Definition prepareList (l : Launcher) (m : MemberType) (bucket : option N) (list : list Group) (s : State) : (List.list Group) * State :=
  let result := keepGroups m bucket (match bucket with None => true | Some b => b =? 0 end) list in
  match questionOrder l with
  | FromEnd => (rev result, s)
  | RandomOrder => let '(x, r) := shuffleGroups result (rng R s) in (x, setRng R r s)
  | _ => (result, s)
  end.

(** GroupQuiz.cpp:95-107 addOtherGroupName *)
Definition otherText (t : GroupType) (name : bytes) : bytes :=
  match otherNumber t name with
  | Some n => (match t with MeaningType => b_ "p:" | PatternGroupType => b_ "m:" end) ++ to_string n
  | None => []
  end.
(** GroupQuiz.cpp:172-175: what is shown of a member on the left *)
Definition entryText (l : Launcher) (t : GroupType) (k : QKanji) : out bytes :=
  q <- qualifiedName (qKanji k) ;;
  p <- pinyinText (qKanji k) ;;
  let s := q ++ p ++ (if isQuizMode l then [] else otherText t (qName k)) in
  w <- wideSetw s GroupEntryWidth ;;
  Val (putSetw true 32 w s).

(** GroupQuiz.cpp:148-155 printAssignedAnswers *)
Fixpoint assignedText (i : N) (answers : list N) : bytes :=
  match answers with
  | [] => []
  | a :: r => b_ " " ++ to_string (i + 1) ++ b_ "->" ++ [a] ++ assignedText (i + 1) r
  end.
Definition printAssignedAnswers (answers : list N) (s : State) : State :=
  match answers with
  | [] => s
  | _ => print R (b_ "   " ++ assignedText 0 answers ++ b_ "
") s
  end.
(** GroupQuiz.cpp:157-162 printAssignedAnswer *)
Fixpoint assignedTo (i : N) (answers : list N) (choice : N) : bytes :=
  match answers with
  | [] => b_ "    "
  | a :: r => if a =? choice then putSetw false 32 2 (to_string (i + 1)) ++ b_ "->" else assignedTo (i + 1) r choice
  end.

(** GroupQuiz.cpp:167-170: the letter of a member *)
Definition memberChoice (l : Launcher) (count : N) : out N :=
  if isQuizMode l then toChar_int (Z.of_N (if count <? TotalLetters then 97 + count else 65 + count - TotalLetters)) true
  else Val 32.
(** GroupQuiz.cpp:164-182 showGroup, from member [count] on; reading past [readings] is undefined *)
Fixpoint showMembers (l : Launcher) (t : GroupType) (count : N) (questions readings : list QKanji) (answers : list N)
    (repeat : bool) (choices : Choices) (s : State) : res State Choices :=
  match questions with
  | [] => Ok choices (print R (b_ "
") s)
  | k :: qs =>
      do choice, s <- lift (memberChoice l count) s ;;
      let s := print R (putSetw false 32 4 (to_string (count + 1)) ++ b_ ":  ") s in
      do entry, s <- lift (entryText l t k) s ;;
      match readings with
      | [] => Undefined
      | r :: rs =>
          let s := print R (entry ++ assignedTo 0 answers choice ++ [choice] ++ b_ ":  " ++ qReading r) s in
          let s := printMeaning R r false (meanings R s) s in
          showMembers l t (count + 1) qs rs answers repeat (if negb repeat && isQuizMode l then setKey choice [] choices else choices) s
      end
  end.

(** std::find and std::distance *)
Fixpoint indexOf (c : N) (l : list N) : option N :=
  match l with [] => None | x :: r => if x =? c then Some 0 else option_map N.succ (indexOf c r) end.
(** GroupQuiz.cpp:244-254 getAnswerToEdit; the assertion is undefined behaviour when it fails *)
Definition getAnswerToEdit (l : Launcher) (answers : list N) (s : State) : res State N :=
  if len answers =? 1 then Ok 0 s
  else
    do c, s <- ask R (quitOption l) (MkRequest None (b_ "    Answer to edit: ") false (fold_left (fun m k => setKey k [] m) answers []) None) s ;;
    match indexOf c answers with Some i => Ok i s | None => Undefined end.
Fixpoint setNth (i : nat) (x : N) (l : list N) : list N :=
  match l, i with
  | [], _ => []
  | _ :: r, O => x :: r
  | y :: r, S i' => y :: setNth i' x r
  end.
(** GroupQuiz.cpp:228-242 editAnswer *)
Definition editAnswer (l : Launcher) (choices : Choices) (answers : list N) (s : State) : res State (Choices * list N) :=
  do entry, s <- getAnswerToEdit l answers s ;;
  match nth_error answers (N.to_nat entry) with
  | None => Undefined
  | Some old =>
      let choices := setKey old [] choices in
      let newChoices := eraseKey SkipOption (eraseKey RefreshOption (eraseKey MeaningsOption (eraseKey EditOption choices))) in
      do answer, s <- ask R (quitOption l) (MkRequest None (b_ "    New reading for Entry: " ++ to_string (entry + 1)) false newChoices (Some old)) s ;;
      Ok (eraseKey answer choices, setNth (N.to_nat entry) answer answers) s
  end.

(** the variables that getAnswer changes *)
Record Turn := MkTurn { tChoices : Choices; tAnswers : list N; tSkip : bool; tRefresh : bool }.
(** GroupQuiz.cpp:196-226 getAnswer *)
Fixpoint getGroupAnswer (fuel : nat) (l : Launcher) (t : Turn) (s : State) : res State (bool * Turn) :=
  match fuel with
  | O => NoReturn
  | S f =>
      let msg := if isQuizMode l then b_ "  Reading for: " ++ to_string (len (tAnswers t) + 1) else b_ "  Select" in
      let s := printAssignedAnswers (tAnswers t) s in
      do answer, s <- ask R (quitOption l) (MkRequest None msg true (tChoices t) None) s ;;
      let again (t : Turn) (s : State) :=
        if negb (tSkip t) && negb (tRefresh t) then getGroupAnswer f l t s else Ok (false, t) s in
      if answer =? RefreshOption then again (MkTurn (tChoices t) (tAnswers t) (tSkip t) true) s
      else if answer =? MeaningsOption then
        let '(c, s) := toggleMeanings R (tChoices t) s in again (MkTurn c (tAnswers t) (tSkip t) true) s
      else if answer =? PrevOption then
        again (MkTurn (tChoices t) (tAnswers t) true (tRefresh t)) (setCurrent R (u16 (current R s + 65534)) s)
      else if answer =? SkipOption then again (MkTurn (tChoices t) (tAnswers t) true (tRefresh t)) s
      else if answer =? EditOption then
        do p, s <- editAnswer l (tChoices t) (tAnswers t) s ;; again (MkTurn (fst p) (snd p) (tSkip t) (tRefresh t)) s
      else if isQuit (quitOption l) answer then Ok (false, t) s
      else
        let answers := tAnswers t ++ [answer] in
        let choices := eraseKey answer (tChoices t) in
        let choices := if len answers =? 1 then setKey RefreshOption (b_ "refresh") (setKey EditOption (b_ "edit") choices) else choices in
        Ok (true, MkTurn choices answers (tSkip t) (tRefresh t)) s
  end.
(** GroupQuiz.cpp:184-194 getAnswers for [n] more answers: if all were given, the variables and
    stopQuiz; [refresh] starts as false for every answer *)
Fixpoint getGroupAnswers (fuel n : nat) (l : Launcher) (choices : Choices) (answers : list N) (s : State)
    : res State (bool * Turn * bool) :=
  match n with
  | O => Ok (true, MkTurn choices answers false false, false) s
  | S n' =>
      do p, s <- getGroupAnswer fuel l (MkTurn choices answers false false) s ;;
      let t := snd p in
      if fst p then getGroupAnswers fuel n' l (tChoices t) (tAnswers t) s
      else Ok (false, t, negb (tRefresh t) && negb (tSkip t)) s
  end.

(** GroupQuiz.cpp:258-270: how many answers are right, from question [questions] on.  An answer up to
    'z' is an index from 'a' on, and a std::size_t. *)
Fixpoint countRight (shown : bool) (questions readings : list QKanji) (answers : list N) : out N :=
  match answers with
  | [] => Val 0
  | c :: r =>
      match questions with
      | [] => Ub
      | q :: qs =>
          let answer := if c <=? 122 then u64 (2 ^ 64 + c - 97) else c - 65 + TotalLetters in
          match (if answer <? len readings then nth_error readings (N.to_nat answer) else None) with
          | None => Ub
          | Some k =>
              n <- countRight shown qs readings r ;;
              Val ((if beq (qReading q) (qReading k) && (negb shown || beq (qMeaning q) (qMeaning k)) then 1 else 0) + n)
          end
      end
  end.
(** GroupQuiz.cpp:256-276 checkAnswers *)
Definition checkAnswers (questions readings : list QKanji) (name : bytes) (answers : list N) (s : State) : res State unit :=
  do n, s <- lift (countRight (meanings R s) questions readings answers) s ;;
  if n =? len answers then Ok tt (correctMessage R s)
  else Ok tt (print R (b_ " (got " ++ to_string n ++ b_ " right out of " ++ to_string (len answers) ++ b_ ")
") (incorrectMessage R name s)).

(** GroupQuiz.cpp:129-143: the loop over one group; if the quiz stops *)
Fixpoint askGroup (fuel : nat) (l : Launcher) (ty : GroupType) (total : N) (g : Group) (questions readings : list QKanji)
    (choices : Choices) (answers : list N) (repeat : bool) (s : State) : res State bool :=
  match fuel with
  | O => NoReturn
  | S f =>
      let s := beginQuestionMessage R l total s in
      let s := print R (groupText g ++ b_ ", "
                 ++ (if len questions =? len (gMembers g) then to_string (len questions)
                     else b_ "showing " ++ to_string (len questions) ++ b_ " out of " ++ to_string (len (gMembers g)))
                 ++ b_ " members
") s in
      do choices, s <- showMembers l ty 0 questions readings answers repeat choices s ;;
      do p, s <- getGroupAnswers f (length questions - length answers) l choices answers s ;;
      let '(given, t, stop) := p in
      if given then do _u, s <- checkAnswers questions readings (gName g) (tAnswers t) s ;; Ok false s
      else if negb stop && negb (tSkip t) then askGroup f l ty total g questions readings (tChoices t) (tAnswers t) true s
      else Ok stop s
  end.
(** GroupQuiz.cpp:114-145: the loop over the groups; after quitting ++ and -- cancel *)
Fixpoint groupLoop (fuel : nat) (l : Launcher) (ty : GroupType) (m : MemberType) (list : list Group) (s : State) : res State unit :=
  match fuel with
  | O => NoReturn
  | S f =>
      if current R s <? len list then
        match nth_error list (N.to_nat (current R s)) with
        | None => Undefined
        | Some g =>
            let members := filter (includeMember m) (gMembers g) in
            let '(questions, readings, s) :=
              if isQuizMode l && randomizeAnswers l then
                let '(q, r1) := shuffle members (rng R s) in
                let '(x, r2) := shuffle members r1 in (q, x, setRng R r2 s)
              else (members, members, s) in
            do stop, s <- askGroup f l ty (len list) g questions readings (getDefaultChoices R l (len list) s) [] false s ;;
            if stop then Ok tt s else groupLoop f l ty m list (setCurrent R (u16 (current R s + 1)) s)
        end
      else Ok tt s
  end.
(** GroupQuiz.cpp:109-146 start *)
Definition startGroups (fuel : nat) (l : Launcher) (t : GroupType) (m : MemberType) (list : list Group) (s : State) : res State unit :=
  do _u, s <- beginQuizMessage R l (len list) s ;;
  let s := print R (groupTypeText t ++ b_ " groups
") s in
  let s := if 0 <? memberRank m then print R (b_ ">>>   .=常用 '=JLPT ""=Freq ^=人名用 ~=LinkJ %=LinkO +=Extra @=検定 #=1級 *=Ucd
") s else s in
  groupLoop fuel l t m list s.

(** GroupQuiz.cpp:28-42 GroupQuiz and Quiz.cpp:22-36 *)
Definition groupQuiz (fuel : nat) (l : Launcher) (question : N) (showMeanings : bool) (list : list Group) (m : MemberType)
    (i : istream) (r : R) : res State unit :=
  let s := initial R question showMeanings i r in
  destroyed R l
    match list with
    | [] => Err DomainError s
    | g :: _ =>
        match gType g with
        | PatternGroupType =>
            do c, s <- ask R (quitOption l) (MkRequest None (b_ "Pattern name") true PatternGroupChoices (Some 49)) s ;;
            if isQuit (quitOption l) c then Ok tt s
            else let '(x, s) := prepareList l m (Some (c - 49)) list s in startGroups fuel l (gType g) m x s
        | MeaningType =>
            match questionOrder l, m with
            | FromBeginning, MAll => startGroups fuel l (gType g) m list s
            | _, _ => let '(x, s) := prepareList l m None list s in startGroups fuel l (gType g) m x s
            end
        end
    end.
End Quiz.
