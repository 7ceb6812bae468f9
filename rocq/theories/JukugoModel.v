(** Model of libs/quiz/src/Jukugo.cpp and libs/quiz/src/JukugoData.cpp.  The files are given by
    their content.  Not modelled: finding the files, debug output and the text of messages. *)
From Verif Require Export Utf8CharModel BlockModel ColumnFileModel MapModel KanaModel.
Open Scope N_scope.

(** Jukugo.h:33-35; the grade is a number: 1 to 6 for G1 to G6, 7 for S *)
Record Jukugo := MkJukugo { jName : bytes; jReading : bytes; jGrade : N }.
Definition GradeS : N := 7.

(** [s.find(c)] for a char *)
Fixpoint findByte (c : N) (s : bytes) : option N :=
  match s with
  | [] => None
  | b :: r => if b =? c then Some 0 else option_map N.succ (findByte c r)
  end.
(** [s.find(t)] for a string *)
Fixpoint startsWith (t s : bytes) : bool :=
  match t, s with
  | [], _ => true
  | x :: t', y :: s' => (x =? y) && startsWith t' s'
  | _ :: _, [] => false
  end.
Fixpoint findText (t s : bytes) : option N :=
  if startsWith t s then Some 0
  else match s with [] => None | _ :: r => option_map N.succ (findText t r) end.
(** [s.substr(pos, n)] *)
Definition substr (s : bytes) (pos n : N) : out bytes :=
  if len s <? pos then Throw StdOutOfRange
  else let r := skipn (N.to_nat pos) s in
       Val (if n <? len r then firstn (N.to_nat n) r else r).
(** [s.substr(pos)] *)
Definition substrFrom (s : bytes) (pos : N) : out bytes := substr s pos (len s).

(** Jukugo.cpp:12-13 and JukugoData.cpp:117-118: the characters of [name] that are Kanji *)
Fixpoint onlyKanji (cs : list bytes) : out (list bytes) :=
  match cs with
  | [] => Val []
  | c :: r => k <- isKanji c true ;; ks <- onlyKanji r ;; Val (if k : bool then c :: ks else ks)
  end.
Definition kanjiOf (name : bytes) : out (list bytes) := '(cs, _) <- allChars name true ;; onlyKanji cs.
(** Jukugo.cpp:16-18 *)
Fixpoint checkReading (cs : list bytes) : out unit :=
  match cs with
  | [] => Val tt
  | c :: r =>
      h <- isHiragana c true ;;
      if negb h && negb (beq c ProlongMark) then Throw DomainError else checkReading r
  end.
(** Jukugo.cpp:8-19 *)
Definition newJukugo (name reading : bytes) (grade : N) : out Jukugo :=
  ks <- kanjiOf name ;;
  if len ks =? 0 then Throw DomainError
  else if len ks <? 2 then Throw DomainError
  else '(cs, _) <- allChars reading true ;; _ <- checkReading cs ;; Val (MkJukugo name reading grade).
(** Jukugo.cpp:21 *)
Definition nameAndReading (j : Jukugo) : bytes := jName j ++ b_ "（" ++ jReading j ++ b_ "）".

(** JukugoData.h:41-42; the order of [_uniqueJukugo] is never seen *)
Record JukugoData := MkJData { jUnique : list Jukugo; jMap : smap (list Jukugo) }.
Definition emptyJukugo : JukugoData := MkJData [] [].
Definition findUnique (name reading : bytes) (l : list Jukugo) : option Jukugo :=
  find (fun j => beq (jName j) name && beq (jReading j) reading) l.

(** JukugoData.cpp:49-52 *)
Definition jFind (d : JukugoData) (kanji : bytes) : list Jukugo :=
  match mfind kanji (jMap d) with Some l => l | None => [] end.

(** JukugoData.cpp:82-88 *)
Definition findOpenBracket (line : bytes) (onePerLine : bool) : out N :=
  match findByte 40 line with
  | None => Throw DomainError
  | Some i =>
      if onePerLine && ((i <? 2) || negb (nth (N.to_nat (i - 1)) line 0 =? 32)) then Throw DomainError else Val i
  end.
(** JukugoData.cpp:90-96 *)
Definition findCloseBracket (line : bytes) (onePerLine : bool) : out N :=
  match findByte 41 line with
  | None => Throw DomainError
  | Some i => if onePerLine && negb (i =? len line - 1) then Throw DomainError else Val i
  end.

(** JukugoData.cpp:116-118 *)
Definition addToMap (j : Jukugo) (ks : list bytes) (m : smap (list Jukugo)) : smap (list Jukugo) :=
  fold_left (fun m c => mupdate (fun o => match o with Some l => l ++ [j] | None => [j] end) c m) ks m.
(** JukugoData.cpp:113-121 *)
Definition addJukugo (name reading : bytes) (grade : N) (d : JukugoData) : out JukugoData :=
  match findUnique name reading (jUnique d) with
  | None =>
      j <- newJukugo name reading grade ;;
      ks <- kanjiOf name ;;
      Val (MkJData (jUnique d ++ [j]) (addToMap j ks (jMap d)))
  | Some j => if negb (jGrade j =? grade) then Throw DomainError else Val d
  end.
(** JukugoData.cpp:100-122; [close - open - 1] is computed with 64 bits *)
Definition createJukugo (line : bytes) (grade : N) (onePerLine : bool) (d : JukugoData) : out JukugoData :=
  open <- findOpenBracket line onePerLine ;;
  close <- findCloseBracket line onePerLine ;;
  name <- substr line 0 (if onePerLine then open - 1 else open) ;;
  reading <- substr line (open + 1) (u64 (close + (2 ^ 64 - open) + (2 ^ 64 - 1))) ;;
  addJukugo name reading grade d.

(** the loops of JukugoData.cpp:62-63 and 71-73 *)
Fixpoint createAll (lines : list bytes) (grade : N) (onePerLine : bool) (d : JukugoData) : out JukugoData :=
  match lines with
  | [] => Val d
  | l :: r => d' <- createJukugo l grade onePerLine d ;; createAll r grade onePerLine d'
  end.
(** JukugoData.cpp:67-74 *)
Fixpoint otherLines (lines : list bytes) (grade : N) (d : JukugoData) : out JukugoData :=
  match lines with
  | [] => Val d
  | line :: r =>
      match findText (b_ "...") line with
      | None => Throw DomainError
      | Some i =>
          rest <- substrFrom line (i + 3 + 1) ;;
          d' <- createAll (getlines 32 rest) grade false d ;;
          otherLines r grade d'
      end
  end.
(** JukugoData.cpp:75-78: every exception leaves as a DomainError *)
Definition asDomainError {A} (x : out A) : out A := match x with Throw _ => Throw DomainError | o => o end.
(** JukugoData.cpp:54-80 *)
Definition loadJukugoFile (content : bytes) (grade : N) (d : JukugoData) : out JukugoData :=
  asDomainError (if negb (grade =? GradeS) then createAll (getlines 10 content) grade true d
                 else otherLines (getlines 10 content) grade d).
(** JukugoData.cpp:26-32: the files g1 to g6 and other *)
Fixpoint loadGrades (files : list bytes) (grade : N) (d : JukugoData) : out JukugoData :=
  match files with
  | [] => Val d
  | f :: r => d' <- loadJukugoFile f grade d ;; loadGrades r (grade + 1) d'
  end.
Record JukugoFiles := MkJFiles { fG1 : bytes; fG2 : bytes; fG3 : bytes; fG4 : bytes; fG5 : bytes; fG6 : bytes;
  fOther : bytes }.
Definition loadJukugo (f : JukugoFiles) : out JukugoData :=
  d <- loadGrades [fG1 f; fG2 f; fG3 f; fG4 f; fG5 f; fG6 f] 1 emptyJukugo ;;
  loadJukugoFile (fOther f) GradeS d.
