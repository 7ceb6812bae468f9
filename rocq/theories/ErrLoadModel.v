(** Model of the texts of the exceptions of loading: libs/kanji/src/TextKanjiData.cpp:21-53 and 78-173,
    libs/kanji/src/OfficialKanji.cpp:91-117, libs/kanji/src/KanjiData.cpp:252-260 and 319-327.  Each function is the one with
    the same name in DirModel and LoadModel, with texts; what loading writes to the outputs is in LoadLogModel. *)
From Verif Require Export ErrArgsModel ErrDirModel ErrListModel ErrUcdModel ErrOfficialModel.
From Verif Require Import DetailsModel.
From Verif Require Export ErrBase.
Open Scope N_scope.

(** a range based 'for' that ends with the first exception *)
Fixpoint forEachT {A S} (body : A -> S -> res S) (l : list A) (s : S) : res S :=
  match l with [] => Got s | a :: r => s <~ body a s ;; forEachT body r s end.
(** the elements with their indexes, from [i] on *)
Fixpoint indexed {A} (i : N) (l : list A) : list (N * A) := match l with [] => [] | a :: r => (i, a) :: indexed (i + 1) r end.

(** ** Kanji made while loading *)
Section Make.
Variable e : Env.
(** OfficialKanji.cpp:91-117 *)
Definition makeLinkedT (isOld : bool) (name : bytes) (link : Kanji) : res Kanji :=
  if match kType link with Jouyou => false | Jinmei => isOld | _ => true end then
    Says DomainError (b_ "OfficialLinkedKanji " ++ name ++ b_ " wanted type '" ++ typeToString Jouyou
                      ++ (if isOld then [] else b_ "' or '" ++ typeToString Jinmei)
                      ++ b_ "' for link " ++ kName link ++ b_ ", but got '" ++ typeToString (kType link) ++ b_ "'")
  else
    u <~ quiet (ucdFind (envUcd e) name) ;;
    radical <~ ucdRadicalOfT e name u ;;
    strokes <~ ucdStrokesOfT name u ;;
    quiet (newKanji e name u radical strokes (if isOld then LinkedOld else LinkedJinmei) (frequency e name)
      NoGrade (kyu e name) NoLevel (Some (kName link)) [] true
      (MkDetails (dMeaning (kDetails link)) (dReading (kDetails link)) 0 0 None)).
(** Kanji.cpp:214-230 *)
Definition makeOtherT (name : bytes) (u : option Ucd) (reading : option bytes) (t : KanjiTypes) (freq : N) (k : KenteiKyus) : res Kanji :=
  reading <~ quiet (match reading with Some s => Val s | None => ucdReading e u end) ;;
  radical <~ ucdRadicalOfT e name u ;;
  strokes <~ ucdStrokesOfT name u ;;
  quiet (newKanji e name u radical strokes t freq NoGrade k NoLevel
    (match linkNames u with n :: _ => if hasTraditional u then None else Some n | [] => None end)
    (if hasTraditional u then linkNames u else []) (hasLinkedReadings u)
    (MkDetails (getMeaning u) reading 0 0 None)).
(** Kanji.cpp:232-253 and TextKanjiData.cpp:150-158 *)
Definition makeFrequencyT (i : N) (name : bytes) : res Kanji :=
  u <~ quiet (ucdFind (envUcd e) name) ;;
  makeOtherT name u (mfind name (envReadings e)) FrequencyType (u16 i) (kyu e name).
Definition makeKenteiT (k : KenteiKyus) (name : bytes) : res Kanji :=
  u <~ quiet (ucdFind (envUcd e) name) ;; makeOtherT name u None Kentei 0 k.
Definition makeUcdKanjiT (u : Ucd) : res Kanji := makeOtherT (ucdName u) (Some u) None UcdType 0 NoKyu.

(** ** Loading *)

(** KanjiData.cpp:226-250 as the loaders call it *)
Definition insertT (k : Kanji) (d : Data) : res Data := '(d, _) <~ quiet (checkInsert d k) ;; Got d.
Definition insertTypeT (t : KanjiTypes) (k : Kanji) (d : Data) : res Data := '(d, _) <~ quiet (checkInsertType d t k) ;; Got d.
(** TextKanjiData.cpp:94-105: a line of the file with this name *)
Definition linkedLineT (file line : bytes) (d : Data) : res Data :=
  match getlines 9 line with
  | jouyou :: linked :: _ =>
      match mfind jouyou (dNames d) with
      | None => Says DomainError (b_ "'" ++ jouyou ++ b_ "' not found - file: " ++ file)
      | Some i => k <~ makeLinkedT false linked i ;; insertTypeT LinkedJinmei k d
      end
  | _ => Says DomainError (b_ "bad line '" ++ line ++ b_ "' - file: " ++ file)
  end.
(** TextKanjiData.cpp:108-111 *)
Definition oldNameT (link : Kanji) (j : bytes) (d : Data) : res Data :=
  match findByName d j with
  | Some _ => Got d
  | None => k <~ makeLinkedT true j link ;; insertTypeT LinkedOld k d
  end.
Definition oldNamesT (p : bytes * Kanji) (d : Data) : res Data := forEachT (oldNameT (snd p)) (kOldNames (snd p)) d.
(** TextKanjiData.cpp:117-123 *)
Definition linkedNameT (link : Kanji) (j : bytes) (d : Data) : res Data := k <~ makeLinkedT false j link ;; insertTypeT LinkedJinmei k d.
Definition jinmeiT (k : Kanji) (d : Data) : res Data := d <~ insertT k d ;; forEachT (linkedNameT k) (kOldNames k) d.
(** KanjiData.cpp:252-260 with EnumMap.h:60 and EnumContainer.h:145-153; the asserts are those of a release build *)
Definition outOfRange {A} (value : bytes) : res A := Says RangeError (b_ "index 'enum value " ++ value ++ b_ "' is out of range").
Definition addToKyusT (k : Kanji) (d : Data) : res Data := if hasKyu k then quiet (addToKyus d k) else outOfRange (b_ "12").
Definition addToLevelsT (k : Kanji) (d : Data) : res Data := if hasLevel k then quiet (addToLevels d k) else outOfRange (b_ "5").
Definition addToListT (kind : ListKind) (k : Kanji) (d : Data) : res Data :=
  match kind with
  | DataModel.KyuList _ => addToKyusT k d
  | DataModel.LevelList => addToLevelsT k d
  | FrequencyList => Got (addToFrequencies d k)
  end.
(** TextKanjiData.cpp:140-172 *)
Definition listEntryT (kind : ListKind) (make : N -> bytes -> res Kanji) (p : N * bytes) (d : Data) : res Data :=
  '(d, kanji) <~ match findByName d (snd p) with
                 | Some k => Got (d, k)
                 | None =>
                     k <~ make (fst p + 1) (snd p) ;;
                     d <~ insertTypeT (match kind with DataModel.KyuList _ => Kentei | _ => FrequencyType end) k d ;;
                     Got (d, k)
                 end ;;
  addToListT kind kanji d.
Definition processListT (kind : ListKind) (make : N -> bytes -> res Kanji) (l : list bytes) (d : Data) : res Data :=
  forEachT (listEntryT kind make) (indexed 0 l) d.
(** TextKanjiData.cpp:46-50 *)
Definition levelListT (p : JlptLevels * ListFile) (d : Data) : res Data := processListT DataModel.LevelList makeFrequencyT (listOf (snd p)) d.
Definition kyuListT (p : KenteiKyus * ListFile) (d : Data) : res Data :=
  processListT (DataModel.KyuList (fst p)) (fun _ s => makeKenteiT (fst p) s) (listOf (snd p)) d.
(** KanjiData.cpp:319-327 *)
Definition ucdEntryT (p : bytes * Ucd) (d : Data) : res Data :=
  match findByName d (ucdName (snd p)) with
  | Some _ => Got d
  | None => k <~ makeUcdKanjiT (snd p) ;; insertTypeT UcdType k d
  end.
End Make.

(** ** The constructor *)
Section Files.
Variable fs : bytes -> option CountModel.node.
Variable writable : bytes -> bool.
Variable reg : bytes -> registry.
(** TextKanjiData.cpp:40-51 *)
Definition readKanjiT (e : Env) (dir : bytes) (d : Data) : res Data :=
  jouyou <~ jouyouTableT fs writable reg e dir ;;
  d <~ forEachT insertT jouyou d ;;
  d <~ Got (setType d Jouyou jouyou) ;;
  linked <~ getFileT fs dir (b_ "linked-jinmei") ;;
  d <~ forEachT (linkedLineT e (fileName linked)) (getlines 10 (contentsOf fs linked)) d ;;
  d <~ forEachT (oldNamesT e) (dNames d) d ;;
  jinmei <~ jinmeiTableT fs writable reg e dir ;;
  d <~ forEachT (jinmeiT e) jinmei d ;;
  d <~ Got (setType d Jinmei jinmei) ;;
  extra <~ extraTableT fs writable reg e dir ;;
  d <~ forEachT insertT extra d ;;
  d <~ Got (setType d Extra extra) ;;
  d <~ forEachT (levelListT e) (envLevels e) d ;;
  d <~ processListT FrequencyList (makeFrequencyT e) (listOf (envFrequency e)) d ;;
  d <~ forEachT (kyuListT e) (envKyus e) d ;;
  forEachT (ucdEntryT e) (ucdMap (envUcd e)) d.
(** the constructor of a list as it is called in TextKanjiData.cpp:25-35 *)
Definition listT (k : list_kind) (ft : FileType) (p given : bytes) (st : list_static) : res (list_static * ListFile) :=
  '(st, x) <~ quiet (newListT fs k ft p given st) ;;
  match x with inl f => Got (st, f) | inr w => Says DomainError w end.
(** TextKanjiData.cpp:25-33 and 204-210 with ListFile.h:128-134 *)
Fixpoint readListsT {A} (k : list_kind) (path name : A -> bytes) (l : list A) (st : list_static) : res (list_static * list (A * ListFile)) :=
  match l with
  | [] => Got (st, [])
  | a :: r => '(st, f) <~ listT k MultiplePerLine (path a) (name a) st ;; '(st, l) <~ readListsT k path name r st ;; Got (st, (a, f) :: l)
  end.
(** TextKanjiData.cpp:25-39 *)
Definition readEnvT (ltr : bool) (dir : bytes) (st : list_static) : res Env :=
  '(st, levels) <~ readListsT ListModel.LevelList (levelPath dir) levelToString AllLevels st ;;
  '(st, kyus) <~ readListsT ListModel.KyuList (kyuPath dir) kyuToString AllKyus st ;;
  '(_, freq) <~ listT PlainList OnePerLine (joinPath dir (b_ "frequency")) [] st ;;
  ucd <~ ucdTableT ltr fs writable reg dir ;;
  radicals <~ radicalTableT fs writable reg dir ;;
  readings <~ readingTableT fs writable reg dir ;;
  Got (MkEnv ucd radicals levels kyus freq readings ltr).
(** ReportModel.selectorLines with UcdData.cpp:235, KanjiData.cpp:40 and ListFile.cpp:36 *)
Fixpoint selectorLinesT (ucd : UcdData) (l : list (bytes * Kanji)) (count : N) : res bytes :=
  match l with
  | [] => Got []
  | (_, k) :: r =>
      v <~ quiet (variant k) ;;
      if v : bool then
        a <~ quiet (toUnicode_string (kName k) Square) ;;
        b <~ quiet (nonVariantName k) ;;
        u <~ quiet (ucdFind ucd (kName k)) ;;
        match u with
        | Some u =>
            c <~ quiet (entryCodeAndName (ucdName u)) ;;
            e <~ quiet (if hasLinks u then x <- linkCodeAndNames u ;; Val (b_ " variant of " ++ x) else Val []) ;;
            rest <~ selectorLinesT ucd r (count + 1) ;;
            Got (logText false ++ b_ "    " ++ putSetw true 32 3 (to_string (count + 1)) ++ b_ "    " ++ a ++ b_ " " ++ kName k
                   ++ b_ " variant of " ++ b ++ b_ "    " ++ c ++ e ++ [10] ++ rest)
        | None => Says DomainError (b_ "UCD not found for '" ++ kName k ++ b_ "'")
        end
      else selectorLinesT ucd r count
  end.
(** KanjiData.cpp:156-171: the reports that are written last, which only fail in the last one (UcdData.cpp:179); the text itself is in ReportModel *)
Definition finishedT (sort : list Kanji -> list Kanji) (mode : ReportModel.DebugMode) (e : Env) (d : Data) : res unit :=
  match mode with
  | DebugFull =>
      _ <~ quiet (checkStrokes d (envUcd e)) ;;
      _ <~ quiet (printCountsAndStats d true) ;;
      _ <~ quiet (printRadicals sort (envRadicals e) d) ;;
      _ <~ quiet (printLinks (envUcd e) (b_ "Frequency") (typeList d FrequencyType)) ;;
      _ <~ quiet (printLinks (envUcd e) (b_ "Extra") (typeList d Extra)) ;;
      _ <~ selectorLinesT (envUcd e) (dNames d) 0 ;;
      Got tt
  | _ => _ <~ quiet (finishedLoadingData sort mode e d) ;; Got tt
  end.
(** TextKanjiData.cpp:21-53 *)
Definition loadDirT (sort : list Kanji -> list Kanji) (mode : ReportModel.DebugMode) (ltr : bool) (dir : bytes) (st : list_static) (max : N) : res (Env * Data) :=
  e <~ readEnvT ltr dir st ;;
  d <~ readKanjiT e dir (newData max) ;;
  _ <~ finishedT sort mode e d ;;
  Got (e, d).
(** KanjiData.cpp:148-156 with TextKanjiData.cpp:21-35: the lists loaded before by the program do not count *)
Definition newTextDataT (sort : list Kanji -> list Kanji) (mode : ReportModel.DebugMode) (ltr : bool) (dir : bytes) (st : list_static) (max : N) : res (Env * Data) :=
  loadDirT sort mode ltr dir (clearUnique st) max.
End Files.
