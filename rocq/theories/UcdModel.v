(** Model of libs/kanji/src/Ucd.cpp, Ucd.h, UcdData.cpp and UcdData.h.
    Symbols (Pinyin, Block, Version) are the strings they stand for (see SymbolModel.v for the
    limit on their number).  The text of error messages and UcdData::print are not modelled. *)
From Verif Require Export ColumnFileModel BlockModel EnumModel IdsModel Utf8CharModel MapModel ConverterModel.
Open Scope N_scope.

(** ** Ucd *)

(** Ucd.cpp:8-17: SourcesBits, and 19-21: SourceLetterMap (in the order of the map) *)
Definition SourceLetterMap : list (N * N) := [(71, 1); (72, 2); (74, 4); (75, 8); (84, 16); (86, 32)].
Definition Joyo_bit := 64.
Definition Jinmei_bit := 128.
Fixpoint letterBit (m : list (N * N)) (c : N) : option N :=
  match m with [] => None | (l, b) :: r => if l =? c then Some b else letterBit r c end.

(** Ucd.cpp:93-100: the loop *)
Fixpoint sourcesLoop (s : bytes) (result : N) : out N :=
  match s with
  | [] => Val result
  | i :: r => match letterBit SourceLetterMap i with
              | None => Throw DomainError
              | Some b => if negb (N.land result b =? 0) then Throw DomainError
                          else sourcesLoop r (N.lor result b)
              end
  end.
(** Ucd.cpp:88-104: getSources *)
Definition getSources (s : bytes) (joyo jinmei : bool) : out N :=
  if len SourceLetterMap <? len s then Throw DomainError
  else
    r <- sourcesLoop s 0 ;;
    let r := if joyo then N.lor r Joyo_bit else r in
    Val (if jinmei then N.lor r Jinmei_bit else r).

(** Ucd.h:33-46 and 152-155: LinkTypes are numbers, None is 11 *)
Definition LinkTypeNames : list bytes :=
  [b_ "Compatibility*"; b_ "Definition*"; b_ "Jinmei*"; b_ "Semantic*"; b_ "Simplified*";
   b_ "Traditional*"; b_ "Compatibility"; b_ "Definition"; b_ "Jinmei"; b_ "Simplified"; b_ "Traditional"].
Definition AllUcdLinkTypes : EnumNames := Eval vm_compute in
  match createEnum false true LinkTypeNames with Val e => e | _ => {| nameMap := []; enumNames := [] |} end.
Definition Link_Traditional_R := 5.
Definition Link_Compatibility := 6.
Definition Link_Traditional := 10.

(** Ucd.h:134-144 *)
Record Ucd := MkUcd {
  ucdName : bytes; ucdBlock : bytes; ucdVersion : bytes; ucdPinyin : bytes; ucdBits : N;
  ucdLinkType : N; ucdRadical : N; ucdStrokes : N * N; ucdMorohashi : N * IdType;
  ucdLinks : list bytes; ucdNelson : bytes; ucdJSource : bytes; ucdMeaning : bytes;
  ucdOn : bytes; ucdKun : bytes
}.

(** Ucd.cpp:25-31: the constructor of Entry; an Entry is its name *)
Definition newEntry (code : N) (name : bytes) : out bytes :=
  k <- isKanji name true ;;
  if negb k then Throw DomainError
  else c <- getCode name ;; if code =? c then Val name else Throw DomainError.
(** Ucd.cpp:35-37 *)
Definition entryCodeAndName (name : bytes) : out bytes :=
  c <- getCode name ;; u <- toUnicode c Square ;; Val (u ++ [32] ++ name).
(** Ucd.cpp:39-46: linkCodeAndNames, the loop *)
Fixpoint linkLoop (links : list bytes) (result : bytes) : out bytes :=
  match links with
  | [] => Val result
  | i :: r =>
      c <- getCode i ;; u <- toUnicode c Square ;;
      linkLoop r ((match result with [] => [] | _ => result ++ b_ ", " end) ++ u ++ [32] ++ i)
  end.
Definition linkCodeAndNames (u : Ucd) : out bytes := linkLoop (ucdLinks u) [].
(** Ucd.cpp:59-61 *)
Definition linkedReadings (u : Ucd) : bool := ucdLinkType u <? Link_Compatibility.
(** Ucd.cpp:63-68 *)
Definition sources (u : Ucd) : bytes :=
  flat_map (fun '(l, b) => if N.land (ucdBits u) b =? 0 then [] else [l]) SourceLetterMap.
(** Ucd.cpp:70-72 *)
Definition joyo (u : Ucd) : bool := negb (N.land (ucdBits u) Joyo_bit =? 0).
Definition jinmei (u : Ucd) : bool := negb (N.land (ucdBits u) Jinmei_bit =? 0).
(** Ucd.cpp:74-84 *)
Definition hasLinks (u : Ucd) : bool := match ucdLinks u with [] => false | _ => true end.
Definition hasTraditionalLinks (u : Ucd) : bool :=
  (ucdLinkType u =? Link_Traditional) || (ucdLinkType u =? Link_Traditional_R).
Definition hasNonTraditionalLinks (u : Ucd) : bool :=
  hasLinks u && negb (ucdLinkType u =? Link_Traditional) && negb (ucdLinkType u =? Link_Traditional_R).

(** ** UcdData *)

(** the fields of one row of the file (UcdData.cpp:12-18), as ColumnFile::get returns them *)
Record UcdRow := MkUcdRow {
  rCode : bytes; rName : bytes; rBlock : bytes; rVersion : bytes; rRadical : bytes;
  rStrokes : bytes; rVStrokes : bytes; rPinyin : bytes; rMorohashi : bytes; rNelson : bytes;
  rSources : bytes; rJSource : bytes; rJoyo : bytes; rJinmei : bytes; rLinkCodes : bytes;
  rLinkNames : bytes; rLinkType : bytes; rMeaning : bytes; rOn : bytes; rKun : bytes;
  rJapanese : bytes
}.
(** UcdData.h:50-59: _map, _linkedJinmei, _linkedOther *)
Record UcdData := MkUcdData {
  ucdMap : smap Ucd; linkedJinmei : smap bytes; linkedOther : smap (list bytes) }.
Definition emptyUcdData : UcdData := MkUcdData [] [] [].

(** ColumnFile.h:66 isEmpty *)
Definition isEmptyField (s : bytes) : bool := match s with [] => true | _ => false end.
(** Radical.h:26 *)
Definition MaxRadicals := 214.

(** UcdData.cpp:186-190: the loop over the names; each name takes the next code *)
Fixpoint zipLinks (names codes : list bytes) : out (list bytes) :=
  match names with
  | [] => Val []
  | n :: ns =>
      match codes with
      | [] => Throw DomainError
      | c :: cs => v <- convChar32 c ;; e <- newEntry v n ;; r <- zipLinks ns cs ;; Val (e :: r)
      end
  end.
(** UcdData.cpp:182-203: loadLinks *)
Definition loadLinks (r : UcdRow) (isJoyo : bool) : out (list bytes) :=
  if negb (isEmptyField (rLinkNames r)) then
    links <- zipLinks (getlines 44 (rLinkNames r)) (getlines 44 (rLinkCodes r)) ;;
    if isJoyo : bool then Throw DomainError
    else if isEmptyField (rLinkType r) then Throw DomainError else Val links
  else if negb (isEmptyField (rLinkType r)) then Throw DomainError
  else if negb (isEmptyField (rLinkCodes r)) then Throw DomainError
  else Val [].
(** UcdData.cpp:205-213: processLinks *)
Fixpoint processLinks (links : list bytes) (name : bytes) (isJinmei : bool) (d : UcdData) : out UcdData :=
  match links with
  | [] => Val d
  | l :: r =>
      if negb isJinmei then
        processLinks r name isJinmei
          (MkUcdData (ucdMap d) (linkedJinmei d)
             (mupdate (fun o => match o with Some x => x ++ [name] | None => [name] end) l (linkedOther d)))
      else match mfind l (linkedJinmei d) with
           | Some _ => Throw DomainError
           | None => processLinks r name isJinmei
                       (MkUcdData (ucdMap d) (mupdate (fun _ => name) l (linkedJinmei d)) (linkedOther d))
           end
  end.
(** UcdData.cpp:132-134: every std::exception becomes f.error, a DomainError *)
Definition asError {A} (x : out A) : out A := match x with Throw _ => Throw DomainError | _ => x end.
(** UcdData.cpp:117-129: the new Ucd *)
Definition makeUcd (r : UcdRow) (radical : N) (isJoyo isJinmei : bool) (links : list bytes) : out Ucd :=
  strokes <- (if isEmptyField (rVStrokes r)
              then s <- processU64 (rStrokes r) 255 ;; newStrokes (u8 s)
              else s <- processU64 (rStrokes r) 255 ;; v <- processU64 (rVStrokes r) 255 ;;
                   newStrokes2 (u8 s) (u8 v)) ;;
  code <- convChar32 (rCode r) ;;
  entry <- newEntry code (rName r) ;;
  link <- fromStringAllowEmpty AllUcdLinkTypes (rLinkType r) ;;
  bits <- getSources (rSources r) isJoyo isJinmei ;;
  moro <- newMorohashi (rMorohashi r) ;;
  Val (MkUcd entry (rBlock r) (rVersion r) (rPinyin r) bits link (u16 radical) strokes moro links
         (rNelson r) (rJSource r) (rMeaning r) (rOn r) (rKun r)).
(** UcdData.cpp:99-134: one row *)
Definition loadRow (d : UcdData) (r : UcdRow) : out UcdData :=
  if isEmptyField (rOn r) && isEmptyField (rKun r) && isEmptyField (rMorohashi r) && isEmptyField (rJSource r)
  then Throw DomainError
  else if 4 <? len (rName r) then Throw DomainError
  else
    radical <- processU64 (rRadical r) 0 ;;
    if (radical <? 1) || (MaxRadicals <? radical) then Throw DomainError
    else
      isJoyo <- convBool (rJoyo r) ;;
      isJinmei <- convBool (rJinmei r) ;;
      if isJoyo && (isJinmei || isEmptyField (rMeaning r)) then Throw DomainError
      else
        links <- loadLinks r isJoyo ;;
        d <- processLinks links (rName r) isJinmei d ;;
        asError (u <- makeUcd r radical isJoyo isJinmei links ;;
                 match mfind (rName r) (ucdMap d) with
                 | Some _ => Throw DomainError
                 | None => Val (MkUcdData (mupdate (fun _ => u) (rName r) (ucdMap d))
                                  (linkedJinmei d) (linkedOther d))
                 end).
(** UcdData.cpp:92-136: load *)
Fixpoint loadUcd (rows : list UcdRow) (d : UcdData) : out UcdData :=
  match rows with
  | [] => Val d
  | r :: rest => d <- loadRow d r ;; loadUcd rest d
  end.

(** UcdData.cpp:60-73: find *)
Definition ucdFind (d : UcdData) (name : bytes) : out (option Ucd) :=
  v <- isCharWithVariationSelector name ;;
  if v : bool then
    n <- noVariationSelector name ;;
    match mfind n (linkedJinmei d) with
    | Some r => Val (mfind r (ucdMap d))
    | None => Val None
    end
  else Val (mfind name (ucdMap d)).
(** UcdData.cpp:56-58 *)
Definition getMeaning (u : option Ucd) : bytes := match u with Some u => ucdMeaning u | None => [] end.

(** UcdData.cpp:75-90: getReadingsAsKana; the converter has no flags set *)
Definition commas (s : bytes) : bytes := map (fun c => if c =? 32 then 44 else c) s.
Definition getReadingsAsKana (ltr : bool) (u : Ucd) : out bytes :=
  on <- convertFrom Katakana FlagNone ltr Romaji (commas (ucdOn u)) ;;
  match ucdKun u with
  | [] => Val on
  | _ =>
      let s := commas (ucdKun u) in
      let s := match on with [] => s | _ => 44 :: s end in
      kun <- convertFrom Hiragana FlagNone ltr Romaji s ;;
      Val (on ++ kun)
  end.
