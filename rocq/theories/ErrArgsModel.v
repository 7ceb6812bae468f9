(** Model of the texts of the exceptions of libs/utils/src/Args.cpp, of the command line functions of libs/kanji/src/KanjiData.cpp and
    of libs/quiz/src/QuizLauncher.cpp: the functions of ArgsModel and LaunchModel with what() of what they throw (ErrArgsProofs shows
    that they are the same otherwise). *)
From Verif Require Export ArgsModel LaunchModel.
From Verif Require Export ErrBase.
Open Scope N_scope.

(** std::to_string(int) *)
Definition to_stringZ (n : Z) : bytes := if (n <? 0)%Z then 45 :: to_string (Z.to_N (- n)) else to_string (Z.to_N n).

(** Args.cpp:7-12 *)
Definition newArgsT (n : N) (v : option (list bytes)) : res Args :=
  if n =? 0
  then match v with Some _ => Says DomainError (b_ "argc is 0, but argv is not null") | None => Got (MkArgs n v) end
  else match v with
       | None => Says DomainError (b_ "argc is " ++ to_string n ++ b_ ", but argv is null")
       | Some _ => Got (MkArgs n v)
       end.
(** Args.cpp:21-28 *)
Definition checkIntT (n : Z) : res N :=
  if (n <? 0)%Z then Says RangeError (b_ "argc " ++ to_stringZ n ++ b_ " is less than 0")
  else if (65535 <? n)%Z then Says RangeError (b_ "argc " ++ to_stringZ n ++ b_ " is greater than " ++ to_string 65535)
  else Got (Z.to_N n).
(** Args.h:29 *)
Definition newArgsIntT (n : Z) (v : option (list bytes)) : res Args := c <~ checkIntT n ;; newArgsT c v.
(** Args.cpp:14-19 *)
Definition argAtT (a : Args) (i : N) : res bytes :=
  if argc a <=? i then Says RangeError (b_ "index " ++ to_string i ++ b_ " must be less than argc " ++ to_string (argc a))
  else match argv a with
       | None => Undefined
       | Some l => match nth_error l (N.to_nat i) with Some s => Got s | None => Undefined end
       end.

(** KanjiData.cpp:23-38 *)
Fixpoint nextArgT (fuel : nat) (a : Args) (current : N) : res N :=
  match fuel with
  | O => Unfinished
  | S fuel' =>
      if argc a <? current then
        Says DomainError (b_ "current arg '" ++ to_string current ++ b_ "' is greater than args size '" ++ to_string (argc a) ++ b_ "'")
      else if argc a =? 0 then Got current
      else
        let result := u16 (current + 1) in
        if result <? argc a then
          arg <~ argAtT a result ;;
          if beq arg DataArg then nextArgT fuel' a (u16 (result + 1))
          else if beq arg DebugArg || beq arg InfoArg then nextArgT fuel' a result
          else Got result
        else Got result
  end.

(** KanjiData.cpp:210-224 *)
Fixpoint debugLoopT (n : nat) (a : Args) (i : N) (result : DebugMode) : res DebugMode :=
  match n with
  | O => Got result
  | S n' =>
      arg <~ argAtT a i ;;
      let set x := match result with
                   | NoDebug => debugLoopT n' a (i + 1) x
                   | _ => Says DomainError (b_ "can only specify one '" ++ DebugArg ++ b_ "' or '" ++ InfoArg ++ b_ "' option")
                   end in
      if beq arg DebugArg then set Full
      else if beq arg InfoArg then set Info
      else debugLoopT n' a (i + 1) result
  end.
Definition getDebugModeT (a : Args) : res DebugMode := debugLoopT (N.to_nat (argc a) - 1) a 1 NoDebug.

(** ** The quiz program *)
Section Launch.
(** what() of the exceptions of std::stoul, which the library chooses *)
Variable stdWhat : exn -> bytes.
Definition withText {A} (x : out A) : res A :=
  match x with Val v => Got v | Throw e => Says e (stdWhat e) | Ub => Undefined | Fuel => Unfinished end.

(** QuizLauncher.cpp:278, 311: [arg.substr(0, 2)] *)
Definition badFormat (arg : bytes) : bytes := b_ "invalid format for '" ++ firstn 2 arg ++ b_ "', use -h for help".
(** QuizLauncher.cpp:261-289 *)
Definition processProgramModeArgT (mode : ProgramMode) (order : QuestionOrder) (arg : bytes) : res (ProgramMode * QuestionOrder * N) :=
  match mode with
  | NoMode =>
      let mode := match arg with _ :: c :: _ => if c =? 114 then Review else QuizMode | _ => QuizMode end in
      match arg with
      | _ :: _ :: c :: r =>
          if (len arg =? 3) && (c =? 48) then Got (mode, RandomOrder, 0)
          else
            let order := if c =? 45 then FromEnd else FromBeginning in
            let s := if (c =? 45) || (c =? 43) then r else c :: r in
            if negb (allDigits s) then Says DomainError (badFormat arg)
            else i <~ withText (stoul s) ;;
                 if i <=? 65535 then Got (mode, order, i)
                 else Says DomainError (b_ "value for '" ++ firstn 2 arg ++ b_ "' exceeds limit")
      | _ => Got (mode, order, 0)
      end
  | _ => Says DomainError (b_ "only one mode (-r or -t) can be specified, use -h for help")
  end.
(** QuizLauncher.cpp:298-313 *)
Definition setQuizTypeT (quizType : option N) (arg : bytes) (keys : list N) (r : option (N * N)) : res (option N * option N) :=
  match quizType with
  | Some _ => Says DomainError (b_ "only one quiz type can be specified, use -h for help")
  | None =>
      match arg with
      | _ :: t :: [] => Got (Some t, None)
      | _ :: t :: c :: rest =>
          if (len arg =? 3) && (existsb (N.eqb c) keys || match r with Some (a, b) => (a <=? c) && (c <=? b) | None => false end)
          then Got (Some t, Some c)
          else Says DomainError (badFormat arg)
      | _ => Undefined
      end
  end.
(** QuizLauncher.cpp:245-259 with line 97 *)
Definition processArgT (p : Settings) (arg : bytes) : res Settings :=
  let setType keys r :=
    '(t, l) <~ setQuizTypeT (sType p) arg keys r ;;
    Got (MkSettings t (match l with Some c => Some c | None => sList p end) (sQuestion p) (sMeanings p) (sMode p) (sOrder p)) in
  match arg with
  | _ :: c :: _ =>
      if (c =? 114) || (c =? 116) then
        '(mo, q) <~ processProgramModeArgT (sMode p) (sOrder p) arg ;;
        Got (MkSettings (sType p) (sList p) q (sMeanings p) (fst mo) (snd mo))
      else if c =? 102 then setType FrequencyKeys FrequencyRange
      else if c =? 103 then setType GradeKeys GradeRange
      else if c =? 107 then setType KyuKeys KyuRange
      else if c =? 108 then setType LevelKeys None
      else if (c =? 109) || (c =? 112) then setType GroupKanjiKeys None
      else Says DomainError (b_ "illegal option '" ++ arg ++ b_ "', use -h for help")
  | _ => Undefined
  end.
(** QuizLauncher.cpp:83-97 *)
Fixpoint argsLoopT (fuel : nat) (a : Args) (i : N) (endOptions : bool) (p : Settings) : res Command :=
  match fuel with
  | O => Unfinished
  | S f =>
      if i <? argc a then
        arg <~ argAtT a i ;;
        if endOptions || negb (match arg with c :: _ => c =? 45 | [] => false end) || (len arg <? 2) then Got (KanjiDetails arg)
        else if beq arg (b_ "-h") then Got HelpMessage
        else
          '(endOptions, p) <~
            (if beq arg (b_ "--") then Got (true, p)
             else if beq arg (b_ "-s") then Got (endOptions, MkSettings (sType p) (sList p) (sQuestion p) true (sMode p) (sOrder p))
             else p <~ processArgT p arg ;; Got (endOptions, p)) ;;
          next <~ nextArgT f a i ;; argsLoopT f a next endOptions p
      else Got (Options p)
  end.
(** QuizLauncher.cpp:75-97 *)
Definition readArgsT (fuel : nat) (a : Args) : res Command :=
  i <~ nextArgT fuel a 0 ;; argsLoopT fuel a i false noSettings.
End Launch.
