(** Model of the messages about the Jukugo files, libs/quiz/src/Jukugo.cpp and libs/quiz/src/JukugoData.cpp: the functions of
    JukugoModel and QuizDataModel with what() of what they throw (ErrJukugoProofs shows that they are the same otherwise).  The line
    number of the code is an int; here it has no bound.  Not modelled here: debug output. *)
From Verif Require Export JukugoModel QuizDataModel ErrListModel ErrArgsModel.
From Verif Require Export ErrBase.
Open Scope N_scope.

Section Text.
(** what() of exceptions of the standard library *)
Variable std : exn -> bytes.

(** Jukugo.cpp:23-25 *)
Definition jukugoError (name msg : bytes) : bytes := b_ "jukugo '" ++ name ++ b_ "' " ++ msg.
(** Jukugo.cpp:16-18 *)
Fixpoint checkReadingT (name : bytes) (cs : list bytes) : res unit :=
  match cs with
  | [] => Got tt
  | c :: r =>
      h <~ withText std (isHiragana c true) ;;
      if negb h && negb (beq c ProlongMark) then Says DomainError (jukugoError name (b_ "reading must be all Hiragana")) else checkReadingT name r
  end.
(** Jukugo.cpp:8-19 *)
Definition newJukugoT (name reading : bytes) (grade : N) : res Jukugo :=
  ks <~ withText std (kanjiOf name) ;;
  if len ks =? 0 then Says DomainError (jukugoError name (b_ "contains no Kanji"))
  else if len ks <? 2 then Says DomainError (jukugoError name (b_ "must contain two or more Kanji"))
  else ' (cs, _) <~ withText std (allChars reading true) ;; _ <~ checkReadingT name cs ;; Got (MkJukugo name reading grade).
(** JukugoData.cpp:82-88 *)
Definition findOpenBracketT (line : bytes) (onePerLine : bool) : res N :=
  match findByte 40 line with
  | None => Says DomainError (b_ "failed to find open bracket")
  | Some i =>
      if onePerLine && ((i <? 2) || negb (nth (N.to_nat (i - 1)) line 0 =? 32)) then Says DomainError (b_ "open bracket should follow a space")
      else Got i
  end.
(** JukugoData.cpp:90-96 *)
Definition findCloseBracketT (line : bytes) (onePerLine : bool) : res N :=
  match findByte 41 line with
  | None => Says DomainError (b_ "failed to find close bracket")
  | Some i => if onePerLine && negb (i =? len line - 1) then Says DomainError (b_ "close bracket should be the last character") else Got i
  end.
(** JukugoData.cpp:113-121 *)
Definition addJukugoT (name reading : bytes) (grade : N) (d : JukugoData) : res JukugoData :=
  match findUnique name reading (jUnique d) with
  | None =>
      j <~ newJukugoT name reading grade ;;
      ks <~ withText std (kanjiOf name) ;;
      Got (MkJData (jUnique d ++ [j]) (addToMap j ks (jMap d)))
  | Some j => if negb (jGrade j =? grade) then Says DomainError (b_ "jukugo '" ++ name ++ b_ "' found in more than one file") else Got d
  end.
(** JukugoData.cpp:100-122 *)
Definition createJukugoT (line : bytes) (grade : N) (onePerLine : bool) (d : JukugoData) : res JukugoData :=
  open <~ findOpenBracketT line onePerLine ;;
  close <~ findCloseBracketT line onePerLine ;;
  name <~ withText std (substr line 0 (if onePerLine then open - 1 else open)) ;;
  reading <~ withText std (substr line (open + 1) (u64 (close + (2 ^ 64 - open) + (2 ^ 64 - 1)))) ;;
  addJukugoT name reading grade d.
(** JukugoData.cpp:71-73 *)
Fixpoint createAllT (entries : list bytes) (grade : N) (d : JukugoData) : res JukugoData :=
  match entries with
  | [] => Got d
  | l :: r => d' <~ createJukugoT l grade false d ;; createAllT r grade d'
  end.
(** JukugoData.cpp:63 and 67-74: what is done with one line *)
Definition createLineT (line : bytes) (grade : N) (d : JukugoData) : res JukugoData :=
  if negb (grade =? GradeS) then createJukugoT line grade true d
  else match findText (b_ "...") line with
       | None => Says DomainError (b_ "line is missing '" ++ b_ "..." ++ b_ "'")
       | Some i => rest <~ withText std (substrFrom line (i + 3 + 1)) ;; createAllT (getlines 32 rest) grade d
       end.
(** JukugoData.cpp:75-78 *)
Definition inLine {A} (num : N) (file : bytes) (x : res A) : res A :=
  match x with
  | Says _ w => Says DomainError (w ++ b_ " - line: " ++ to_string num ++ b_ ", file: " ++ file)
  | o => o
  end.
(** JukugoData.cpp:59-78; [num] is the number of the first of these lines *)
Fixpoint createLinesT (file : bytes) (num : N) (lines : list bytes) (grade : N) (d : JukugoData) : res JukugoData :=
  match lines with
  | [] => Got d
  | l :: r => d' <~ inLine num file (createLineT l grade d) ;; createLinesT file (num + 1) r grade d'
  end.
Definition loadJukugoFileT (file content : bytes) (grade : N) (d : JukugoData) : res JukugoData :=
  createLinesT file 1 (getlines 10 content) grade d.

Section Files.
Variable fs : bytes -> option CountModel.node.
(** JukugoData.cpp:20-32 *)
Fixpoint jukugoFilesT (dir : bytes) (l : list (bytes * N)) (d : JukugoData) : res JukugoData :=
  match l with
  | [] => Got d
  | (file, grade) :: r =>
      p <~ getFileT fs dir file ;;
      d <~ loadJukugoFileT (fileName p) (contentsOf fs p) grade d ;;
      jukugoFilesT dir r d
  end.
(** JukugoData.cpp:18-32 *)
Definition newJukugoDataT (dir : bytes) : res JukugoData := jukugoFilesT (joinPath dir (b_ "jukugo")) GradeFiles emptyJukugo.
End Files.
End Text.
