(** Model of the constructors of the Kanji classes (libs/kanji/src/Kanji.cpp:106-253 and
    libs/kanji/src/OfficialKanji.cpp) and of loading all data
    (libs/kanji/src/TextKanjiData.cpp:21-173, libs/kanji/src/KanjiData.cpp:44-89, 319-327).
    The list files are given by their content, the linked Jinmei file by its content and the
    column files by their rows (fields as ColumnFile::get returns them).  Not modelled: finding
    the files and printed messages (errors of insertSanityChecks, debug output), which are in LoadLogModel. *)
From Verif Require Export UcdModel DataModel ListModel RadicalModel.
Open Scope N_scope.

(** what the constructors look things up in: KanjiData.h:236-241 (_radicals, _ucd) and
    TextKanjiData.h:60-70 (_levels, _kyus, _frequency, _frequencyReadings).  [envLtr] is the
    order in which the compiler evaluates function arguments (see ConverterModel.v). *)
Record Env := MkEnv {
  envUcd : UcdData; envRadicals : RadicalData;
  envLevels : list (JlptLevels * ListFile); envKyus : list (KenteiKyus * ListFile);
  envFrequency : ListFile; envReadings : smap bytes; envLtr : bool }.

(** TextKanjiData.cpp:55-57 *)
Definition frequency (e : Env) (s : bytes) : N := getIndex (envFrequency e) s.
(** TextKanjiData.cpp:59-63 *)
Fixpoint levelIn (l : list (JlptLevels * ListFile)) (s : bytes) : JlptLevels :=
  match l with [] => NoLevel | (v, f) :: r => if list_exists f s then v else levelIn r s end.
Definition level (e : Env) (s : bytes) : JlptLevels := levelIn (envLevels e) s.
(** TextKanjiData.cpp:65-69 *)
Fixpoint kyuIn (l : list (KenteiKyus * ListFile)) (s : bytes) : KenteiKyus :=
  match l with [] => NoKyu | (v, f) :: r => if list_exists f s then v else kyuIn r s end.
Definition kyu (e : Env) (s : bytes) : KenteiKyus := kyuIn (envKyus e) s.

(** ** Constructors *)

(** KanjiData.cpp:86-89 *)
Definition getCompatibilityName (e : Env) (s : bytes) : out (option bytes) :=
  u <- ucdFind (envUcd e) s ;;
  Val (match u with
       | Some u => if negb (beq (ucdName u) s) then Some (ucdName u) else None
       | None => None
       end).
(** KanjiData.cpp:70-75 *)
Definition ucdRadicalOf (e : Env) (u : option Ucd) : out Radical :=
  match u with Some u => radicalByNumber (envRadicals e) (ucdRadical u) | None => Throw DomainError end.
(** KanjiData.cpp:77-80 *)
Definition ucdStrokesOf (u : option Ucd) : out (N * N) :=
  match u with Some u => Val (ucdStrokes u) | None => Throw DomainError end.
(** Kanji.cpp:172-174 *)
Definition ucdReading (e : Env) (u : option Ucd) : out bytes :=
  match u with Some u => getReadingsAsKana (envLtr e) u | None => Val [] end.
(** Kanji.cpp:196-202 *)
Definition linkNames (u : option Ucd) : list bytes := match u with Some u => ucdLinks u | None => [] end.
Definition hasTraditional (u : option Ucd) : bool := match u with Some u => hasTraditionalLinks u | None => false end.
Definition hasNonTraditional (u : option Ucd) : bool := match u with Some u => hasNonTraditionalLinks u | None => false end.
Definition hasLinkedReadings (u : option Ucd) : bool := match u with Some u => linkedReadings u | None => false end.

(** Kanji.cpp:106-117 with KanjiData.cpp:44-64 (values for a missing Ucd); the values after
    [strokes] are those of the virtual methods of the class *)
Definition newKanji (e : Env) (name : bytes) (u : option Ucd) (radical : Radical) (strokes : N * N)
    (t : KanjiTypes) (freq : N) (grade : KanjiGrades) (k : KenteiKyus) (l : JlptLevels)
    (newName : option bytes) (oldNames : list bytes) (linked : bool) (x : Details) : out Kanji :=
  c <- getCompatibilityName e name ;;
  Val (MkKanji name c (radName radical) (radNumber radical) strokes
         (match u with Some u => ucdPinyin u | None => [] end)
         (match u with Some u => ucdMorohashi u | None => (0, Plain) end)
         (match u with Some u => getNelsonIds (ucdNelson u) | None => [] end)
         t freq grade k l newName oldNames linked x).

(** the fields of a row of 'jouyou.txt', 'jinmei.txt' or 'extra.txt' (OfficialKanji.h:41-44);
    columns that a file does not have are not looked at *)
Record KanjiRow := MkKanjiRow {
  krNumber : bytes; krName : bytes; krRadical : bytes; krReading : bytes; krOldNames : bytes;
  krYear : bytes; krStrokes : bytes; krGrade : bytes; krMeaning : bytes; krReason : bytes }.

(** OfficialKanji.cpp:46-51 *)
Definition getOldNames (r : KanjiRow) : list bytes := getlines 44 (krOldNames r).
(** OfficialKanji.cpp:38, 44 *)
Definition getYear (r : KanjiRow) : out N :=
  if isEmptyField (krYear r) then Val 0 else y <- processU64 (krYear r) 65535 ;; Val (u16 y).
Definition getNumber (r : KanjiRow) : out N := n <- processU64 (krNumber r) 65535 ;; Val (u16 n).
Definition getStrokes (r : KanjiRow) : out (N * N) := n <- processU64 (krStrokes r) 255 ;; newStrokes (u8 n).

(** OfficialKanji.cpp:71-73 and KanjiEnums.h:42-43 *)
Definition AllGrades : list KanjiGrades := [G1; G2; G3; G4; G5; G6; GS].
Definition getGrade (s : bytes) : out KanjiGrades :=
  let s := match s with 83 :: _ => s | _ => 71 :: s end in
  match find (fun g => beq (gradeToString g) s) AllGrades with Some g => Val g | None => Throw DomainError end.
(** KanjiEnums.h:98-99: a reason is its position *)
Definition ReasonNames : list bytes := [b_ "Names"; b_ "Print"; b_ "Variant"; b_ "Moved"; b_ "Simple"; b_ "Other"].
Fixpoint positionOf (s : bytes) (l : list bytes) (i : N) : option N :=
  match l with [] => None | x :: r => if beq x s then Some i else positionOf s r (i + 1) end.
Definition getReason (s : bytes) : out N :=
  match positionOf s ReasonNames 0 with Some i => Val i | None => Throw DomainError end.

(** OfficialKanji.cpp:66-69, 40-44, 15-19: JouyouKanji *)
Definition makeJouyou (e : Env) (r : KanjiRow) : out Kanji :=
  strokes <- getStrokes r ;;
  u <- ucdFind (envUcd e) (krName r) ;;
  radical <- radicalByName (envRadicals e) (krRadical r) ;;
  number <- getNumber r ;;
  year <- getYear r ;;
  grade <- getGrade (krGrade r) ;;
  newKanji e (krName r) u radical strokes Jouyou (frequency e (krName r)) grade
    (kyu e (krName r)) (level e (krName r)) None (getOldNames r) false
    (MkDetails (krMeaning r) (krReading r) number year None).
(** OfficialKanji.cpp:55-57, 35-38, 21-24 and Kanji.cpp:208-210: JinmeiKanji *)
Definition makeJinmei (e : Env) (r : KanjiRow) : out Kanji :=
  u <- ucdFind (envUcd e) (krName r) ;;
  radical <- radicalByName (envRadicals e) (krRadical r) ;;
  strokes <- ucdStrokesOf u ;;
  number <- getNumber r ;;
  year <- getYear r ;;
  reason <- getReason (krReason r) ;;
  newKanji e (krName r) u radical strokes Jinmei (frequency e (krName r)) NoGrade
    (kyu e (krName r)) (level e (krName r)) None (getOldNames r) false
    (MkDetails (getMeaning u) (krReading r) number year (Some reason)).
(** OfficialKanji.cpp:77-87: ExtraKanji; neither a frequency nor a level (the defaults, Kanji.cpp:11-17) *)
Definition makeExtra (e : Env) (r : KanjiRow) : out Kanji :=
  u <- ucdFind (envUcd e) (krName r) ;;
  strokes <- getStrokes r ;;
  radical <- radicalByName (envRadicals e) (krRadical r) ;;
  number <- getNumber r ;;
  newKanji e (krName r) u radical strokes Extra 0 NoGrade (kyu e (krName r)) NoLevel
    (if hasNonTraditional u then match linkNames u with n :: _ => Some n | [] => None end else None)
    (if hasTraditional u then linkNames u else []) false
    (MkDetails (krMeaning r) (krReading r) number 0 None).
(** OfficialKanji.cpp:91-117: LinkedJinmeiKanji and LinkedOldKanji; meaning and reading are those of
    the linked Kanji *)
Definition makeLinked (e : Env) (isOld : bool) (name : bytes) (link : Kanji) : out Kanji :=
  if match kType link with Jouyou => false | Jinmei => isOld | _ => true end then Throw DomainError
  else
    u <- ucdFind (envUcd e) name ;;
    radical <- ucdRadicalOf e u ;;
    strokes <- ucdStrokesOf u ;;
    newKanji e name u radical strokes (if isOld then LinkedOld else LinkedJinmei) (frequency e name)
      NoGrade (kyu e name) NoLevel (Some (kName link)) [] true
      (MkDetails (dMeaning (kDetails link)) (dReading (kDetails link)) 0 0 None).
(** Kanji.cpp:214-230: OtherKanji; [reading]: None if it comes from the Ucd *)
Definition makeOther (e : Env) (name : bytes) (u : option Ucd) (reading : option bytes)
    (t : KanjiTypes) (freq : N) (k : KenteiKyus) : out Kanji :=
  reading <- (match reading with Some s => Val s | None => ucdReading e u end) ;;
  radical <- ucdRadicalOf e u ;;
  strokes <- ucdStrokesOf u ;;
  newKanji e name u radical strokes t freq NoGrade k NoLevel
    (match linkNames u with n :: _ => if hasTraditional u then None else Some n | [] => None end)
    (if hasTraditional u then linkNames u else []) (hasLinkedReadings u)
    (MkDetails (getMeaning u) reading 0 0 None).
(** Kanji.cpp:232-247 and TextKanjiData.cpp:154-158: FrequencyKanji; the place in the list
    becomes a uint16_t *)
Definition makeFrequency (e : Env) (i : N) (name : bytes) : out Kanji :=
  u <- ucdFind (envUcd e) name ;;
  makeOther e name u (mfind name (envReadings e)) FrequencyType (u16 i) (kyu e name).
(** Kanji.cpp:249-250: KenteiKanji *)
Definition makeKentei (e : Env) (k : KenteiKyus) (name : bytes) : out Kanji :=
  u <- ucdFind (envUcd e) name ;;
  makeOther e name u None Kentei 0 k.
(** Kanji.cpp:252-253: UcdKanji *)
Definition makeUcdKanji (e : Env) (u : Ucd) : out Kanji :=
  makeOther e (ucdName u) (Some u) None UcdType 0 NoKyu.

(** ** Loading *)

(** OfficialKanji.h:205-212: fromFile *)
Fixpoint fromRows (make : KanjiRow -> out Kanji) (rows : list KanjiRow) : out (list Kanji) :=
  match rows with
  | [] => Val []
  | r :: rest => k <- make r ;; ks <- fromRows make rest ;; Val (k :: ks)
  end.
(** [getTypes()[t] = l] *)
Fixpoint aset {V} (k : N) (l : list V) (m : list (N * list V)) : list (N * list V) :=
  match m with
  | [] => [(k, l)]
  | (x, v) :: r => if x =? k then (x, l) :: r else (x, v) :: aset k l r
  end.
Definition setType (d : Data) (t : KanjiTypes) (l : list Kanji) : Data :=
  MkData (dNames d) (dCompat d) (aset (kanjiTypeNumber t) l (dTypes d)) (dGrades d) (dLevels d)
    (dKyus d) (dFreqs d) (dMoro d) (dNelson d) (dMax d).
(** TextKanjiData.cpp:78-87 (Jouyou) and 127-132 (Extra) *)
Definition loadPlain (make : KanjiRow -> out Kanji) (t : KanjiTypes) (rows : list KanjiRow) (d : Data) : out Data :=
  ks <- fromRows make rows ;;
  d <- insertAll d ks ;;
  Val (setType d t ks).
(** TextKanjiData.cpp:94-105: the lines of the linked Jinmei file; usage throws DomainError *)
Fixpoint loadLinkedLines (e : Env) (lines : list bytes) (d : Data) : out Data :=
  match lines with
  | [] => Val d
  | line :: r =>
      match getlines 9 line with
      | jouyou :: linked :: _ =>
          match mfind jouyou (dNames d) with
          | None => Throw DomainError
          | Some i =>
              k <- makeLinked e false linked i ;;
              '(d, _) <- checkInsertType d LinkedJinmei k ;;
              loadLinkedLines e r d
          end
      | _ => Throw DomainError
      end
  end.
(** TextKanjiData.cpp:109-111: the old names of one Kanji *)
Fixpoint loadOldNames (e : Env) (link : Kanji) (names : list bytes) (d : Data) : out Data :=
  match names with
  | [] => Val d
  | j :: r =>
      match findByName d j with
      | Some _ => loadOldNames e link r d
      | None =>
          k <- makeLinked e true j link ;;
          '(d, _) <- checkInsertType d LinkedOld k ;;
          loadOldNames e link r d
      end
  end.
(** TextKanjiData.cpp:108-111: all Kanji.  The code walks over the std::map that it inserts
    into; what it inserts has no old names, so it does not matter whether it meets the new
    entries: this walks over the entries at the start. *)
Fixpoint loadOld (e : Env) (l : list (bytes * Kanji)) (d : Data) : out Data :=
  match l with
  | [] => Val d
  | (_, k) :: r => d <- loadOldNames e k (kOldNames k) d ;; loadOld e r d
  end.
(** TextKanjiData.cpp:120-122 *)
Fixpoint loadLinkedNames (e : Env) (link : Kanji) (names : list bytes) (d : Data) : out Data :=
  match names with
  | [] => Val d
  | j :: r =>
      k <- makeLinked e false j link ;;
      '(d, _) <- checkInsertType d LinkedJinmei k ;;
      loadLinkedNames e link r d
  end.
(** TextKanjiData.cpp:117-123 *)
Fixpoint insertJinmei (e : Env) (ks : list Kanji) (d : Data) : out Data :=
  match ks with
  | [] => Val d
  | k :: r =>
      '(d, _) <- checkInsert d k ;;
      d <- loadLinkedNames e k (kOldNames k) d ;;
      insertJinmei e r d
  end.
(** TextKanjiData.cpp:114-125 *)
Definition loadJinmei (e : Env) (rows : list KanjiRow) (d : Data) : out Data :=
  ks <- fromRows (makeJinmei e) rows ;;
  d <- insertJinmei e ks d ;;
  Val (setType d Jinmei ks).
(** TextKanjiData.cpp:44-51: the lists *)
Definition processLevel (e : Env) (f : ListFile) (d : Data) : out Data :=
  processList DataModel.LevelList (fun i s => makeFrequency e i s) (listOf f) d.
Definition processFrequency (e : Env) (d : Data) : out Data :=
  processList FrequencyList (fun i s => makeFrequency e i s) (listOf (envFrequency e)) d.
Definition processKyu (e : Env) (k : KenteiKyus) (f : ListFile) (d : Data) : out Data :=
  processList (DataModel.KyuList k) (fun _ s => makeKentei e k s) (listOf f) d.
Fixpoint processLevels (e : Env) (l : list (JlptLevels * ListFile)) (d : Data) : out Data :=
  match l with [] => Val d | (_, f) :: r => d <- processLevel e f d ;; processLevels e r d end.
Fixpoint processKyus (e : Env) (l : list (KenteiKyus * ListFile)) (d : Data) : out Data :=
  match l with [] => Val d | (k, f) :: r => d <- processKyu e k f d ;; processKyus e r d end.
(** KanjiData.cpp:319-327: processUcd *)
Fixpoint processUcd (e : Env) (l : list (bytes * Ucd)) (d : Data) : out Data :=
  match l with
  | [] => Val d
  | (_, u) :: r =>
      match findByName d (ucdName u) with
      | Some _ => processUcd e r d
      | None =>
          k <- makeUcdKanji e u ;;
          '(d, _) <- checkInsertType d UcdType k ;;
          processUcd e r d
      end
  end.

(** TextKanjiData.cpp:71-76: the rows are (Name, Reading) *)
Fixpoint loadReadings (rows : list (bytes * bytes)) (m : smap bytes) : out (smap bytes) :=
  match rows with
  | [] => Val m
  | (n, r) :: rest => match mfind n m with
                      | Some _ => Throw DomainError
                      | None => loadReadings rest (madd n r m)
                      end
  end.

(** the data directory *)
Record Files := MkFiles {
  levelFiles : list (JlptLevels * bytes); kyuFiles : list (KenteiKyus * bytes); frequencyFile : bytes;
  ucdRows : list UcdRow; radicalRows : list RadicalRow; readingRows : list (bytes * bytes);
  jouyouRows : list KanjiRow; linkedFile : bytes; jinmeiRows : list KanjiRow; extraRows : list KanjiRow }.
(** TextKanjiData.cpp:25-33: the order of the lists *)
Definition AllLevels : list JlptLevels := [N5; N4; N3; N2; N1].
Definition AllKyus : list KenteiKyus := [K10; K9; K8; K7; K6; K5; K4; K3; KJ2; K2; KJ1; K1].
(** lists of one kind, one file for each *)
Fixpoint makeLists {A} (k : list_kind) (files : list (A * bytes)) (st : list_static)
  : out (list_static * list (A * ListFile)) :=
  match files with
  | [] => Val (st, [])
  | (a, c) :: r =>
      '(st, x) <- construct k MultiplePerLine c st ;;
      match x with
      | inr _ => Throw DomainError
      | inl f => '(st, l) <- makeLists k r st ;; Val (st, (a, f) :: l)
      end
  end.
(** TextKanjiData.cpp:23-39: everything but the Kanji *)
Definition loadEnv (ltr : bool) (f : Files) (st : list_static) : out Env :=
  '(st, levels) <- makeLists ListModel.LevelList (levelFiles f) st ;;
  '(st, kyus) <- makeLists ListModel.KyuList (kyuFiles f) st ;;
  '(_, freq) <- construct PlainList OnePerLine (frequencyFile f) st ;;
  match freq with
  | inr _ => Throw DomainError
  | inl freq =>
      ucd <- loadUcd (ucdRows f) emptyUcdData ;;
      radicals <- loadRadicals (radicalRows f) emptyRadicals ;;
      readings <- loadReadings (readingRows f) [] ;;
      Val (MkEnv ucd radicals levels kyus freq readings ltr)
  end.
(** TextKanjiData.cpp:40-52 and KanjiData.cpp:158-159: the Kanji *)
Definition loadKanji (e : Env) (f : Files) (d : Data) : out Data :=
  d <- loadPlain (makeJouyou e) Jouyou (jouyouRows f) d ;;
  d <- loadLinkedLines e (getlines 10 (linkedFile f)) d ;;
  d <- loadOld e (dNames d) d ;;
  d <- loadJinmei e (jinmeiRows f) d ;;
  d <- loadPlain (makeExtra e) Extra (extraRows f) d ;;
  d <- processLevels e (envLevels e) d ;;
  d <- processFrequency e d ;;
  d <- processKyus e (envKyus e) d ;;
  processUcd e (ucdMap (envUcd e)) d.
(** TextKanjiData.cpp:21-53: the constructor; [st] and [max] are the static data left by
    earlier objects *)
Definition loadData (ltr : bool) (f : Files) (st : list_static) (max : N) : out (Env * Data) :=
  e <- loadEnv ltr f st ;;
  d <- loadKanji e f (newData max) ;;
  Val (e, d).
