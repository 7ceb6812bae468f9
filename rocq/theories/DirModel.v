(** Model of finding and opening files: libs/kanji/src/KanjiData.cpp:173-208 and 271-294, libs/kanji/src/ListFile.cpp:11-23 and
    44-55, and the constructor libs/kanji/src/TextKanjiData.cpp:21-53 with the files it reads.  Paths are texts, as in a POSIX
    system; the path functions are those of std::filesystem::path in libstdc++. *)
From Verif Require Export RowsModel.
From Verif Require CountModel.
From Verif Require Export ArgsModel LoadLogModel StringModel.
Open Scope N_scope.

(** ** Paths *)

Definition isSlash (b : N) : bool := b =? 47.
(** [dir / name] *)
Definition joinPath (dir name : bytes) : bytes :=
  match name with
  | c :: _ => if isSlash c then name else match dir with [] => name | _ => if ends_with dir 47 then dir ++ name else dir ++ 47 :: name end
  | [] => match dir with [] => [] | _ => if ends_with dir 47 then dir else dir ++ [47] end
  end.
Fixpoint dropWhile (p : N -> bool) (s : bytes) : bytes :=
  match s with b :: r => if p b then dropWhile p r else s | [] => [] end.
Fixpoint takeWhile (p : N -> bool) (s : bytes) : bytes :=
  match s with b :: r => if p b then b :: takeWhile p r else [] | [] => [] end.
(** without trailing slashes *)
Definition noSlashes (s : bytes) : bytes := rev (dropWhile isSlash (rev s)).
(** [filename()] *)
Definition fileName (p : bytes) : bytes := rev (takeWhile (fun b => negb (isSlash b)) (rev p)).
(** [parent_path()] *)
Definition parentPath (p : bytes) : bytes :=
  if forallb isSlash p then p
  else if ends_with p 47 then noSlashes p
  else let q := rev (dropWhile (fun b => negb (isSlash b)) (rev p)) in
       match q with
       | [] => []
       | _ => if forallb isSlash q then [47] else noSlashes q
       end.
(** [extension()] of a file name: from the last dot on, if that is not the first character *)
Definition extension (p : bytes) : bytes :=
  let f := fileName p in
  if beq f (b_ "..") then []
  else let after := rev (takeWhile (fun b => negb (b =? 46)) (rev f)) in
       if (len after + 2 <=? len f) then 46 :: after else [].
(** [has_extension()] *)
Definition hasExtension (p : bytes) : bool := match extension p with [] => false | _ => true end.
(** ListFile.h:25 *)
Definition TextFileExtension : bytes := b_ ".txt".

(** ** Files *)

Section Files.
(** what the file system has at a path, links and all (relative paths start at the current directory) *)
Variable fs : bytes -> option CountModel.node.
(** if a file may be opened for reading and writing; all may be opened for reading *)
Variable writable : bytes -> bool.
(** [current_path()] *)
Variable cwd : bytes.
(** the columns that exist when the table with this name is opened *)
Variable reg : bytes -> registry.

Definition look (p : bytes) : option CountModel.node := match fs p with Some n => CountModel.resolve n | None => None end.
Definition isDirectory (p : bytes) : bool := match look p with Some (CountModel.Dir _) => true | _ => false end.
Definition isRegular (p : bytes) : bool := match look p with Some (CountModel.File _) => true | _ => false end.
Definition isThere (p : bytes) : bool := match look p with Some _ => true | None => false end.
(** reading a regular file with std::ifstream *)
Definition contentsOf (p : bytes) : bytes := match look p with Some (CountModel.File c) => c | _ => [] end.

(** ListFile.cpp:11-23 getFile *)
Definition getFile (dir file : bytes) : out bytes :=
  if negb (isDirectory dir) then Throw DomainError
  else
    let p := joinPath dir file in
    let p := if negb (isRegular p) && negb (hasExtension file) then p ++ TextFileExtension else p in
    if negb (isThere p) then Throw DomainError
    else if negb (isRegular p) then Throw DomainError
    else Val p.
(** ListFile.cpp:49-53: the file of a list *)
Definition listFile (p : bytes) : out bytes :=
  let file := if negb (isRegular p) && negb (hasExtension p) then p ++ TextFileExtension else p in
  if negb (isRegular file) then Throw DomainError else Val file.

(** ** The data directory *)

(** KanjiData.cpp:15: TextFilesInDataDir *)
Definition TextFilesInDataDir : N := 10.
(** KanjiData.cpp:290-294 isValidDataDir; for something that is no directory, the iterator throws *)
Definition isValidDataDir (p : bytes) : bool :=
  match look p with
  | Some (CountModel.Dir es) => len (filter (fun e => beq (extension (fst e)) TextFileExtension) es) =? TextFilesInDataDir
  | _ => false
  end.
(** KanjiData.cpp:273-288 searchUpForDataDir; [n] is a bound for the number of parents *)
Fixpoint searchUp (n : nat) (parent : bytes) : out (option bytes) :=
  let data := joinPath parent (b_ "data") in
  if isDirectory data && isValidDataDir data then Val (Some data)
  else let p := parentPath parent in
       if beq p parent then Val None
       else match n with O => Fuel | S n' => searchUp n' p end.
Definition searchUpForDataDir (parent : bytes) : out (option bytes) := searchUp (List.length parent) parent.
(** KanjiData.cpp:177-187: the loop over the arguments from [i] on *)
Fixpoint dataArg (n : nat) (a : Args) (i : N) : out (option bytes) :=
  match n with
  | O => Val None
  | S n' =>
      arg <- argAt a i ;;
      if beq arg DataArg then
        if i + 1 =? argc a then Throw DomainError
        else
          data <- argAt a (i + 1) ;;
          if negb (isDirectory data) then Throw DomainError
          else if negb (isValidDataDir data) then Throw DomainError
          else Val (Some data)
      else dataArg n' a (i + 1)
  end.
(** KanjiData.cpp:173-208 getDataDir *)
Definition getDataDir (a : Args) : out bytes :=
  given <- dataArg (N.to_nat (argc a) - 1) a 1 ;;
  match given with
  | Some d => Val d
  | None =>
      found <- searchUpForDataDir cwd ;;
      found <- match found with
               | Some _ => Val found
               | None =>
                   if argc a =? 0 then Val None
                   else
                     arg0 <- argAt a 0 ;;
                     let p := parentPath arg0 in
                     if isDirectory p then searchUpForDataDir (parentPath p) else Val None
               end ;;
      match found with Some d => Val d | None => Throw DomainError end
  end.

(** ** Tables *)

(** getFile and the rows of the table; ColumnFile.cpp:31 opens the file with std::fstream, so also for writing, and line 39
    throws if that has failed *)
Definition fileRows (dir file : bytes) (names : list bytes) : out (list (list bytes) * bool) :=
  p <- getFile dir file ;;
  if writable p then tableRows (reg file) names (contentsOf p) else Throw DomainError.
(** the rows are processed before the line that is not a row throws *)
Definition loadFrom {R A} (t : out (list (list bytes) * bool)) (mk : list bytes -> R) (load : list R -> out A) : out A :=
  '(rows, ended) <- t ;;
  x <- load (map mk rows) ;;
  if ended : bool then Val x else Throw DomainError.
Definition field (n : nat) (l : list bytes) : bytes := nth n l [].

(** UcdData.cpp:12-19 and 93-97 *)
Definition UcdColumns : list bytes :=
  [b_ "Code"; b_ "Name"; b_ "Block"; b_ "Version"; b_ "Radical"; b_ "Strokes"; b_ "VStrokes"; b_ "Pinyin"; b_ "MorohashiId";
   b_ "NelsonIds"; b_ "Sources"; b_ "JSource"; b_ "Joyo"; b_ "Jinmei"; b_ "LinkCodes"; b_ "LinkNames"; b_ "LinkType"; b_ "Meaning";
   b_ "On"; b_ "Kun"; b_ "Japanese"].
Definition ucdRow (l : list bytes) : UcdRow :=
  MkUcdRow (field 0 l) (field 1 l) (field 2 l) (field 3 l) (field 4 l) (field 5 l) (field 6 l) (field 7 l) (field 8 l) (field 9 l)
    (field 10 l) (field 11 l) (field 12 l) (field 13 l) (field 14 l) (field 15 l) (field 16 l) (field 17 l) (field 18 l) (field 19 l)
    (field 20 l).
(** RadicalData.cpp:48-51 *)
Definition RadicalColumns : list bytes := [b_ "Number"; b_ "Name"; b_ "LongName"; b_ "Reading"].
Definition radicalRow (l : list bytes) : RadicalRow := MkRadicalRow (field 0 l) (field 1 l) (field 2 l) (field 3 l).
(** TextKanjiData.cpp:72-73 *)
Definition ReadingColumns : list bytes := [b_ "Name"; b_ "Reading"].
Definition readingRow (l : list bytes) : bytes * bytes := (field 0 l, field 1 l).
(** OfficialKanji.h:207-208 with 110-111, 93-94 and 132 *)
Definition JouyouColumns : list bytes :=
  [b_ "Number"; b_ "Name"; b_ "Radical"; b_ "Reading"; b_ "OldNames"; b_ "Year"; b_ "Strokes"; b_ "Grade"; b_ "Meaning"].
Definition jouyouRow (l : list bytes) : KanjiRow :=
  MkKanjiRow (field 0 l) (field 1 l) (field 2 l) (field 3 l) (field 4 l) (field 5 l) (field 6 l) (field 7 l) (field 8 l) [].
Definition JinmeiColumns : list bytes :=
  [b_ "Number"; b_ "Name"; b_ "Radical"; b_ "Reading"; b_ "OldNames"; b_ "Year"; b_ "Reason"].
Definition jinmeiRow (l : list bytes) : KanjiRow :=
  MkKanjiRow (field 0 l) (field 1 l) (field 2 l) (field 3 l) (field 4 l) (field 5 l) [] [] [] (field 6 l).
Definition ExtraColumns : list bytes := [b_ "Number"; b_ "Name"; b_ "Radical"; b_ "Reading"; b_ "Strokes"; b_ "Meaning"].
Definition extraRow (l : list bytes) : KanjiRow :=
  MkKanjiRow (field 0 l) (field 1 l) (field 2 l) (field 3 l) [] [] (field 4 l) [] (field 5 l) [].

(** ** The constructor *)

(** TextKanjiData.cpp:204-210 dataFile *)
Definition levelPath (dir : bytes) (x : JlptLevels) : bytes := joinPath (joinPath dir (b_ "jlpt")) (firstLower (levelToString x)).
Definition kyuPath (dir : bytes) (x : KenteiKyus) : bytes := joinPath (joinPath dir (b_ "kentei")) (firstLower (kyuToString x)).
(** TextKanjiData.cpp:25-33 *)
Fixpoint readLists {A} (k : list_kind) (path : A -> bytes) (l : list A) (st : list_static) : out (list_static * list (A * ListFile)) :=
  match l with
  | [] => Val (st, [])
  | a :: r =>
      file <- listFile (path a) ;;
      '(st, x) <- construct k MultiplePerLine (contentsOf file) st ;;
      match x with
      | inr _ => Throw DomainError
      | inl f => '(st, l) <- readLists k path r st ;; Val (st, (a, f) :: l)
      end
  end.
(** TextKanjiData.cpp:25-39 *)
Definition readEnv (ltr : bool) (dir : bytes) (st : list_static) : out Env :=
  '(st, levels) <- readLists ListModel.LevelList (levelPath dir) AllLevels st ;;
  '(st, kyus) <- readLists ListModel.KyuList (kyuPath dir) AllKyus st ;;
  file <- listFile (joinPath dir (b_ "frequency")) ;;
  '(_, freq) <- construct PlainList OnePerLine (contentsOf file) st ;;
  match freq with
  | inr _ => Throw DomainError
  | inl freq =>
      ucd <- loadFrom (fileRows dir (b_ "ucd") UcdColumns) ucdRow (fun rows => loadUcd rows emptyUcdData) ;;
      radicals <- loadFrom (fileRows dir (b_ "radicals") RadicalColumns) radicalRow (fun rows => loadRadicals rows emptyRadicals) ;;
      readings <- loadFrom (fileRows dir (b_ "frequency-readings") ReadingColumns) readingRow (fun rows => loadReadings rows []) ;;
      Val (MkEnv ucd radicals levels kyus freq readings ltr)
  end.
(** TextKanjiData.cpp:78-87 and 127-132 *)
Definition readPlain (e : Env) (t : out (list (list bytes) * bool)) (mk : list bytes -> KanjiRow) (make : KanjiRow -> out Kanji)
    (type : KanjiTypes) (d : Data) : L Data :=
  let* ks := llift (loadFrom t mk (fromRows make)) in
  let* d := insertAllL e d ks in
  llift (Val (setType d type ks)).
(** TextKanjiData.cpp:114-125 *)
Definition readJinmei (e : Env) (t : out (list (list bytes) * bool)) (d : Data) : L Data :=
  let* ks := llift (loadFrom t jinmeiRow (fromRows (makeJinmei e))) in
  let* d := insertJinmeiL e ks d in
  llift (Val (setType d Jinmei ks)).
(** TextKanjiData.cpp:40-52 *)
Definition readKanji (full : bool) (e : Env) (dir : bytes) (d : Data) : L Data :=
  let* d := readPlain e (fileRows dir (b_ "jouyou") JouyouColumns) jouyouRow (makeJouyou e) Jouyou d in
  let* linked := llift (getFile dir (b_ "linked-jinmei")) in
  let* d := loadLinkedLinesL e (getlines 10 (contentsOf linked)) d in
  let* d := loadOldL e (dNames d) d in
  let* d := readJinmei e (fileRows dir (b_ "jinmei") JinmeiColumns) d in
  let* d := readPlain e (fileRows dir (b_ "extra") ExtraColumns) extraRow (makeExtra e) Extra d in
  let* d := processLevelsL full e (envLevels e) d in
  let* d := processListL full e FrequencyList (b_ "Frequency") (fun i s => makeFrequency e i s) (listOf (envFrequency e)) d in
  let* d := processKyusL full e (envKyus e) d in
  processUcdL e (ucdMap (envUcd e)) d.
(** TextKanjiData.cpp:21-53 for a directory *)
Definition loadDir (sort : list Kanji -> list Kanji) (mode : ReportModel.DebugMode) (ltr : bool) (dir : bytes) (st : list_static) (max : N)
    : L (Env * Data) :=
  let* _ := lsay (if isFull mode then [ToOut (logText true ++ b_ "Begin Loading Data" ++ [10] ++ b_ ">>>" ++ [10])] else []) in
  let* e := llift (readEnv ltr dir st) in
  let* d := readKanji (isFull mode) e dir (newData max) in
  let* t := llift (finishedLoadingData sort mode e d) in
  let* _ := lsay [ToOut t] in
  llift (Val (e, d)).
(** the mode as the reports see it *)
Definition reportMode (m : ArgsModel.DebugMode) : ReportModel.DebugMode :=
  match m with Full => DebugFull | Info => DebugInfo | NoDebug => DebugNone end.
(** TextKanjiData.cpp:21-23: the constructor with the arguments of the program *)
Definition loadArgs (sort : list Kanji -> list Kanji) (ltr : bool) (a : Args) (st : list_static) (max : N) : L (bytes * ReportModel.DebugMode * Env * Data) :=
  let* dir := llift (getDataDir a) in
  let* mode := llift (getDebugMode a) in
  let* (e, d) := loadDir sort (reportMode mode) ltr dir st max in
  llift (Val (dir, reportMode mode, e, d)).
End Files.
