(** Model of the messages about radicals (libs/kanji/src/RadicalData.cpp:32-67), extra readings (libs/kanji/src/TextKanjiData.cpp:71-76) and
    the tables of Jouyou, Jinmei and extra Kanji (libs/kanji/src/OfficialKanji.cpp and KanjiData.cpp:71-80): the functions of RadicalModel
    and LoadModel with what() of what they throw (ErrOfficialProofs shows that they are the same otherwise). *)
From Verif Require Export LoadModel DirModel ErrRowsModel ErrDetailsModel ErrUcdModel.
From Verif Require Export ErrBase.
Open Scope N_scope.

(** ** Radicals *)
(** RadicalData.cpp:51-65: one row *)
Definition radicalRowT (file : bytes) (row : N) (r : RadicalRow) (d : RadicalData) : res RadicalData :=
  n <~ processU64E file row (rrNumber r) (ucdCol (b_ "Number")) 255 ;;
  let n := u8 n in
  if negb (n =? row) then tableError file row (b_ "radicals must be ordered by 'number'")
  else
    let '(name, alt) := splitName (getlines 32 (rrName r)) [] [] in
    Got (MkRadicals (radList d ++ [MkRadical n name alt (rrLongName r) (rrReading r)]) (mupdate (fun _ => n - 1) name (radMap d))).
(** RadicalData.cpp:32-37 and 109-112; the text of what() of std::out_of_range is not specified *)
Definition radicalByNameT (d : RadicalData) (name : bytes) : res Radical :=
  match radList d with
  | [] => Says DomainError (b_ "must call 'load' before calling 'find'")
  | _ => match mfind name (radMap d) with
         | None => Says DomainError (b_ "name not found: " ++ name)
         | Some i => match nth_error (radList d) (N.to_nat i) with Some r => Got r | None => Says StdOutOfRange [] end
         end
  end.
(** RadicalData.cpp:39-45 *)
Definition radicalByNumberT (d : RadicalData) (number : N) : res Radical :=
  match radList d with
  | [] => Says DomainError (b_ "must call 'load' before calling 'find'")
  | _ => if (number =? 0) || (len (radList d) <? number) then Says DomainError (b_ "'" ++ to_string number ++ b_ "' is not a valid radical number")
         else match nth_error (radList d) (N.to_nat (number - 1)) with Some r => Got r | None => Says StdOutOfRange [] end
  end.
(** ** Extra readings *)
(** TextKanjiData.cpp:73-75: one row *)
Definition readingRowT (file : bytes) (row : N) (r : bytes * bytes) (m : smap bytes) : res (smap bytes) :=
  match mfind (fst r) m with
  | Some _ => tableError file row (b_ "duplicate name")
  | None => Got (madd (fst r) (snd r) m)
  end.

(** ** Official Kanji *)
Section Row.
Variable e : Env.
Variables (file : bytes) (row : N).
(** OfficialKanji.cpp:38, 44 and 17-19 *)
Definition getYearT (r : KanjiRow) : res N :=
  if isEmptyField (krYear r) then Got 0 else y <~ processU64E file row (krYear r) (ucdCol (b_ "Year")) 65535 ;; Got (u16 y).
Definition getNumberT (r : KanjiRow) : res N := n <~ processU64E file row (krNumber r) (ucdCol (b_ "Number")) 65535 ;; Got (u16 n).
Definition getStrokesT (r : KanjiRow) : res (N * N) := n <~ processU64E file row (krStrokes r) (ucdCol (b_ "Strokes")) 255 ;; newStrokesT (u8 n).
(** OfficialKanji.cpp:71-73 and EnumList.h:292-297 *)
Definition getGradeT (s : bytes) : res KanjiGrades :=
  let s := match s with 83 :: _ => s | _ => 71 :: s end in
  match find (fun g => beq (gradeToString g) s) AllGrades with Some g => Got g | None => Says DomainError (b_ "name '" ++ s ++ b_ "' not found") end.
Definition getReasonT (s : bytes) : res N :=
  match positionOf s ReasonNames 0 with Some i => Got i | None => Says DomainError (b_ "name '" ++ s ++ b_ "' not found") end.
(** KanjiData.cpp:71-80 *)
Definition ucdRadicalOfT (name : bytes) (u : option Ucd) : res Radical :=
  match u with Some u => radicalByNumberT (envRadicals e) (ucdRadical u) | None => Says DomainError (b_ "UCD entry not found: " ++ name) end.
Definition ucdStrokesOfT (name : bytes) (u : option Ucd) : res (N * N) :=
  match u with Some u => Got (ucdStrokes u) | None => Says DomainError (b_ "UCD entry not found: " ++ name) end.
(** OfficialKanji.cpp:66-69, 40-44, 15-19 *)
Definition makeJouyouT (r : KanjiRow) : res Kanji :=
  strokes <~ getStrokesT r ;;
  u <~ quiet (ucdFind (envUcd e) (krName r)) ;;
  radical <~ radicalByNameT (envRadicals e) (krRadical r) ;;
  number <~ getNumberT r ;;
  year <~ getYearT r ;;
  grade <~ getGradeT (krGrade r) ;;
  quiet (newKanji e (krName r) u radical strokes Jouyou (frequency e (krName r)) grade
    (kyu e (krName r)) (level e (krName r)) None (getOldNames r) false
    (MkDetails (krMeaning r) (krReading r) number year None)).
(** OfficialKanji.cpp:55-57, 35-38, 21-24 and Kanji.cpp:208-210 *)
Definition makeJinmeiT (r : KanjiRow) : res Kanji :=
  u <~ quiet (ucdFind (envUcd e) (krName r)) ;;
  radical <~ radicalByNameT (envRadicals e) (krRadical r) ;;
  strokes <~ ucdStrokesOfT (krName r) u ;;
  number <~ getNumberT r ;;
  year <~ getYearT r ;;
  reason <~ getReasonT (krReason r) ;;
  quiet (newKanji e (krName r) u radical strokes Jinmei (frequency e (krName r)) NoGrade
    (kyu e (krName r)) (level e (krName r)) None (getOldNames r) false
    (MkDetails (getMeaning u) (krReading r) number year (Some reason))).
(** OfficialKanji.cpp:77-87 *)
Definition makeExtraT (r : KanjiRow) : res Kanji :=
  u <~ quiet (ucdFind (envUcd e) (krName r)) ;;
  strokes <~ getStrokesT r ;;
  radical <~ radicalByNameT (envRadicals e) (krRadical r) ;;
  number <~ getNumberT r ;;
  quiet (newKanji e (krName r) u radical strokes Extra 0 NoGrade (kyu e (krName r)) NoLevel
    (if hasNonTraditional u then match linkNames u with n :: _ => Some n | [] => None end else None)
    (if hasTraditional u then linkNames u else []) false
    (MkDetails (krMeaning r) (krReading r) number 0 None)).
End Row.

(** ** Tables *)
Section Tables.
Variable fs : bytes -> option CountModel.node.
Variable writable : bytes -> bool.
Variable reg : bytes -> registry.
(** RadicalData.cpp:47-66 with TextKanjiData.cpp:38 *)
Definition radicalTableT (dir : bytes) : res RadicalData :=
  tableLoadT (fun file row l d => radicalRowT file row (radicalRow l) d) fs writable reg dir (b_ "radicals") RadicalColumns emptyRadicals.
(** TextKanjiData.cpp:71-76 with 39 *)
Definition readingTableT (dir : bytes) : res (smap bytes) :=
  tableLoadT (fun file row l m => readingRowT file row (readingRow l) m) fs writable reg dir (b_ "frequency-readings") ReadingColumns [].
(** OfficialKanji.h:205-212 *)
Definition kanjiTableT (make : bytes -> N -> KanjiRow -> res Kanji) (mk : list bytes -> KanjiRow) (dir file : bytes) (names : list bytes) : res (list Kanji) :=
  tableLoadT (fun file row l ks => k <~ make file row (mk l) ;; Got (ks ++ [k])) fs writable reg dir file names [].
(** TextKanjiData.cpp:79-80, 115-116 and 128-129 *)
Definition jouyouTableT (e : Env) (dir : bytes) : res (list Kanji) := kanjiTableT (makeJouyouT e) jouyouRow dir (b_ "jouyou") JouyouColumns.
Definition jinmeiTableT (e : Env) (dir : bytes) : res (list Kanji) := kanjiTableT (makeJinmeiT e) jinmeiRow dir (b_ "jinmei") JinmeiColumns.
Definition extraTableT (e : Env) (dir : bytes) : res (list Kanji) := kanjiTableT (makeExtraT e) extraRow dir (b_ "extra") ExtraColumns.
End Tables.
