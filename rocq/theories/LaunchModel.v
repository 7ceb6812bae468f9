(** Model of how libs/quiz/src/QuizLauncher.cpp reads the command line.  Not modelled: the text of
    messages and of the help.  A byte of 0x80 or more given to [isdigit] or [ishexnumber] (as a
    negative int where char is signed, which the C standard leaves undefined) is not a digit here. *)
From Verif Require Export ArgsModel ColumnFileModel QuizModel.
Open Scope N_scope.

(** QuizLauncher.h:41-45; QuestionOrder of QuizLauncher.h:48-53 is in QuizModel *)
Inductive ProgramMode := Review | QuizMode | NoMode.
(** QuizLauncher.h:130-131 and QuizLauncher.cpp:80-82: what the options set *)
Record Settings := MkSettings {
  sType : option N; sList : option N; sQuestion : N; sMeanings : bool;
  sMode : ProgramMode; sOrder : QuestionOrder
}.
Definition noSettings : Settings := MkSettings None None 0 false NoMode NoOrder.

(** [std::all_of(s.begin(), s.end(), ::isdigit)] *)
Definition allDigits (s : bytes) : bool := forallb isdigit s.

(** QuizLauncher.cpp:261-289 processProgramModeArg, for an argument of at least two bytes: mode, order
    and question; line 282 can throw what std::stoul throws *)
Definition processProgramModeArg (mode : ProgramMode) (order : QuestionOrder) (arg : bytes) : out (ProgramMode * QuestionOrder * N) :=
  match mode with
  | NoMode =>
      let mode := match arg with _ :: c :: _ => if c =? 114 then Review else QuizMode | _ => QuizMode end in
      match arg with
      | _ :: _ :: c :: r =>
          if (len arg =? 3) && (c =? 48) then Val (mode, RandomOrder, 0)
          else
            let order := if c =? 45 then FromEnd else FromBeginning in
            let s := if (c =? 45) || (c =? 43) then r else c :: r in
            if negb (allDigits s) then Throw DomainError
            else i <- stoul s ;; if i <=? 65535 then Val (mode, order, i) else Throw DomainError
      | _ => Val (mode, order, 0)
      end
  | _ => Throw DomainError
  end.

(** QuizLauncher.cpp:51-66: the keys of the choices and ranges (the descriptions are in LaunchRun) *)
Definition FrequencyKeys : list N := [48].
Definition GradeKeys : list N := [115].
Definition KyuKeys : list N := [97; 98; 99].
Definition LevelKeys : list N := [49; 50; 51; 52; 53].
Definition GroupKanjiKeys : list N := [49; 50; 51; 52].
Definition FrequencyRange : option (N * N) := Some (49, 57).
Definition GradeRange : option (N * N) := Some (49, 54).
Definition KyuRange : option (N * N) := Some (49, 57).

(** QuizLauncher.cpp:298-313 setQuizType: the new quiz type and the question list *)
Definition setQuizType (quizType : option N) (arg : bytes) (keys : list N) (r : option (N * N)) : out (option N * option N) :=
  match quizType with
  | Some _ => Throw DomainError
  | None =>
      match arg with
      | _ :: t :: [] => Val (Some t, None)
      | _ :: t :: c :: rest =>
          if (len arg =? 3) && (existsb (N.eqb c) keys || match r with Some (a, b) => (a <=? c) && (c <=? b) | None => false end)
          then Val (Some t, Some c)
          else Throw DomainError
      | _ => Ub
      end
  end.

(** QuizLauncher.cpp:245-259 processArg with line 97: the settings after this option *)
Definition processArg (p : Settings) (arg : bytes) : out Settings :=
  let setType keys r :=
    '(t, l) <- setQuizType (sType p) arg keys r ;;
    Val (MkSettings t (match l with Some c => Some c | None => sList p end) (sQuestion p) (sMeanings p) (sMode p) (sOrder p)) in
  match arg with
  | _ :: c :: _ =>
      if (c =? 114) || (c =? 116) then
        '(mo, q) <- processProgramModeArg (sMode p) (sOrder p) arg ;;
        Val (MkSettings (sType p) (sList p) q (sMeanings p) (fst mo) (snd mo))
      else if c =? 102 then setType FrequencyKeys FrequencyRange
      else if c =? 103 then setType GradeKeys GradeRange
      else if c =? 107 then setType KyuKeys KyuRange
      else if c =? 108 then setType LevelKeys None
      else if (c =? 109) || (c =? 112) then setType GroupKanjiKeys None
      else Throw DomainError
  | _ => Ub
  end.

(** what the constructor does after reading the arguments *)
Inductive Command := KanjiDetails (arg : bytes) | HelpMessage | Options (p : Settings).

(** QuizLauncher.cpp:83-97: the loop over the arguments *)
Fixpoint argsLoop (fuel : nat) (a : Args) (i : N) (endOptions : bool) (p : Settings) : out Command :=
  match fuel with
  | O => Fuel
  | S f =>
      if i <? argc a then
        arg <- argAt a i ;;
        if endOptions || negb (match arg with c :: _ => c =? 45 | [] => false end) || (len arg <? 2) then Val (KanjiDetails arg)
        else if beq arg (b_ "-h") then Val HelpMessage
        else
          '(endOptions, p) <-
            (if beq arg (b_ "--") then Val (true, p)
             else if beq arg (b_ "-s") then Val (endOptions, MkSettings (sType p) (sList p) (sQuestion p) true (sMode p) (sOrder p))
             else p <- processArg p arg ;; Val (endOptions, p)) ;;
          next <- nextArg f a i ;; argsLoop f a next endOptions p
      else Val (Options p)
  end.
(** QuizLauncher.cpp:75-97: the constructor up to the start of a quiz *)
Definition readArgs (fuel : nat) (a : Args) : out Command :=
  i <- nextArg fuel a 0 ;; argsLoop fuel a i false noSettings.
(** QuizLauncher.cpp:98: if the constructor starts a quiz *)
Definition startsQuiz (debug hasIn : bool) (p : Settings) : bool :=
  negb debug && (negb hasIn || match sType p with Some _ => true | None => false end).
