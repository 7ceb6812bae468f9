(** Model of the messages about the Unicode data: the constructor of Entry and getSources of libs/kanji/src/Ucd.cpp and
    libs/kanji/src/UcdData.cpp:92-136 and 182-213, the functions of UcdModel with what() of what they throw (ErrUcdProofs shows that they
    are the same otherwise). *)
From Verif Require Export UcdModel DirModel ErrRowsModel ErrDetailsModel.
From Verif Require Export ErrBase.
Open Scope N_scope.

(** what does not throw *)
Definition quiet {A} (x : out A) : res A :=
  match x with Val v => Got v | Throw e => Says e [] | Ub => Undefined | Fuel => Unfinished end.

(** ** Ucd *)
(** Ucd.cpp:25-31 *)
Definition newEntryT (code : N) (name : bytes) : res bytes :=
  k <~ quiet (isKanji name true) ;;
  if negb k then Says DomainError (b_ "name '" ++ name ++ b_ "' isn't a recognized Kanji")
  else c <~ quiet (getCode name) ;;
       if code =? c then Got name
       else a <~ quiet (toUnicode code NoBrackets) ;; b <~ quiet (toUnicode c NoBrackets) ;;
            Says DomainError (b_ "code '" ++ a ++ b_ "' doesn't match '" ++ b ++ b_ "'").
(** Ucd.cpp:89-91 *)
Definition sourcesError {A} (s msg : bytes) : res A := Says DomainError (b_ "sources '" ++ s ++ b_ "' " ++ msg).
(** Ucd.cpp:93-100: the loop *)
Fixpoint sourcesLoopT (s : bytes) (l : bytes) (result : N) : res N :=
  match l with
  | [] => Got result
  | i :: r => match letterBit SourceLetterMap i with
              | None => sourcesError s (b_ "has unrecognized value: " ++ [i])
              | Some b => if negb (N.land result b =? 0) then sourcesError s (b_ "has duplicate value: " ++ [i])
                          else sourcesLoopT s r (N.lor result b)
              end
  end.
(** Ucd.cpp:88-104 *)
Definition getSourcesT (s : bytes) (joyo jinmei : bool) : res N :=
  if len SourceLetterMap <? len s then sourcesError s (b_ "exceeds max size")
  else
    r <~ sourcesLoopT s s 0 ;;
    let r := if joyo then N.lor r Joyo_bit else r in
    Got (if jinmei then N.lor r Jinmei_bit else r).

(** ** EnumList *)
(** EnumList.h:292-297 with domainError, and 239-241 *)
Definition enumFromStringT (e : EnumNames) (name : bytes) : res N :=
  match enumFromString e name with
  | Val x => Got x
  | Throw x => Says x (b_ "name '" ++ name ++ b_ "' not found")
  | Ub => Undefined
  | Fuel => Unfinished
  end.
Definition fromStringAllowEmptyT (e : EnumNames) (name : bytes) : res N :=
  if isEmpty name then Got (len (enumNames e)) else enumFromStringT e name.

(** ** UcdData *)
(** UcdData.cpp:12-19: only the names of columns are in messages *)
Definition ucdCol (n : bytes) : Column := {| cname := n; cnumber := 0 |}.
Section Row.
(** the order of evaluation of the arguments at UcdData.cpp:121-128 *)
Variable ltr : bool.
Variables (file : bytes) (row : N).
(** ColumnFile.cpp:132-142 getBool *)
Definition fieldBoolT (col s : bytes) : res bool :=
  match convBool s with
  | Val b => Got b
  | Throw _ => valueError file row (b_ "failed to convert to bool") (ucdCol col) s
  | Ub => Undefined
  | Fuel => Unfinished
  end.
(** ColumnFile.cpp:144-156 getChar32 *)
Definition fieldChar32T (col s : bytes) : res N :=
  if (len s <? 4) || (5 <? len s) then valueError file row (b_ "failed to convert to Code, size must be 4 or 5") (ucdCol col) s
  else if existsb (fun i => (i <? 48) || (70 <? i) || ((i <? 65) && (57 <? i))) s
  then valueError file row (b_ "failed to convert to Code, invalid hex") (ucdCol col) s
  else Got (fold_left (fun a b => a * 16 + hexVal b) s 0).
(** UcdData.cpp:186-190 *)
Fixpoint zipLinksT (names codes : list bytes) : res (list bytes) :=
  match names with
  | [] => Got []
  | n :: ns =>
      match codes with
      | [] => tableError file row (b_ "LinkNames has more values than LinkCodes")
      | c :: cs => v <~ fieldChar32T (b_ "LinkCodes") c ;; e <~ newEntryT v n ;; r <~ zipLinksT ns cs ;; Got (e :: r)
      end
  end.
(** UcdData.cpp:182-203 *)
Definition loadLinksT (r : UcdRow) (isJoyo : bool) : res (list bytes) :=
  if negb (isEmptyField (rLinkNames r)) then
    links <~ zipLinksT (getlines 44 (rLinkNames r)) (getlines 44 (rLinkCodes r)) ;;
    if isJoyo : bool then tableError file row (b_ "joyo shouldn't have links")
    else if isEmptyField (rLinkType r) then tableError file row (b_ "LinkNames has a value, but LinkType is empty") else Got links
  else if negb (isEmptyField (rLinkType r)) then tableError file row (b_ "LinkType has a value, but LinkNames is empty")
  else if negb (isEmptyField (rLinkCodes r)) then tableError file row (b_ "LinkCodes has a value, but LinkNames is empty")
  else Got [].
(** UcdData.cpp:205-213 *)
Fixpoint processLinksT (links : list bytes) (name : bytes) (isJinmei : bool) (d : UcdData) : res UcdData :=
  match links with
  | [] => Got d
  | l :: r =>
      if negb isJinmei then
        processLinksT r name isJinmei
          (MkUcdData (ucdMap d) (linkedJinmei d)
             (mupdate (fun o => match o with Some x => x ++ [name] | None => [name] end) l (linkedOther d)))
      else match mfind l (linkedJinmei d) with
           | Some n => tableError file row (b_ "jinmei entry '" ++ name ++ b_ "' with link '" ++ l ++ b_ "' failed - link already points to '" ++ n ++ b_ "'")
           | None => processLinksT r name isJinmei
                       (MkUcdData (ucdMap d) (mupdate (fun _ => name) l (linkedJinmei d)) (linkedOther d))
           end
  end.
(** UcdData.cpp:132-134 *)
Definition asErrorT {A} (x : res A) : res A := match x with Says _ w => tableError file row w | _ => x end.
(** UcdData.cpp:117-119 *)
Definition rowStrokesT (r : UcdRow) : res (N * N) :=
  if isEmptyField (rVStrokes r)
  then s <~ processU64E file row (rStrokes r) (ucdCol (b_ "Strokes")) 255 ;; newStrokesT (u8 s)
  else s <~ processU64E file row (rStrokes r) (ucdCol (b_ "Strokes")) 255 ;;
       v <~ processU64E file row (rVStrokes r) (ucdCol (b_ "VStrokes")) 255 ;; newStrokes2T (u8 s) (u8 v).
(** UcdData.cpp:123 and 128: two arguments that can throw *)
Definition entryAndType (r : UcdRow) : res (bytes * N) :=
  let entry := code <~ fieldChar32T (b_ "Code") (rCode r) ;; newEntryT code (rName r) in
  let link := fromStringAllowEmptyT AllUcdLinkTypes (rLinkType r) in
  if ltr then e <~ entry ;; l <~ link ;; Got (e, l) else l <~ link ;; e <~ entry ;; Got (e, l).
(** UcdData.cpp:117-129 *)
Definition makeUcdT (r : UcdRow) (radical : N) (isJoyo isJinmei : bool) (links : list bytes) : res Ucd :=
  strokes <~ rowStrokesT r ;;
  '(entry, link) <~ entryAndType r ;;
  bits <~ getSourcesT (rSources r) isJoyo isJinmei ;;
  moro <~ newMorohashiT (rMorohashi r) ;;
  Got (MkUcd entry (rBlock r) (rVersion r) (rPinyin r) bits link (u16 radical) strokes moro links
         (rNelson r) (rJSource r) (rMeaning r) (rOn r) (rKun r)).
(** UcdData.cpp:99-134: one row *)
Definition loadRowT (d : UcdData) (r : UcdRow) : res UcdData :=
  if isEmptyField (rOn r) && isEmptyField (rKun r) && isEmptyField (rMorohashi r) && isEmptyField (rJSource r)
  then tableError file row (b_ "one of 'On', 'Kun', 'Morohashi' or 'JSource' must be populated")
  else if 4 <? len (rName r) then tableError file row (b_ "name more than 4 bytes")
  else
    radical <~ processU64E file row (rRadical r) (ucdCol (b_ "Radical")) 0 ;;
    if (radical <? 1) || (MaxRadicals <? radical) then tableError file row (b_ "radical '" ++ to_string radical ++ b_ "' out of range")
    else
      isJoyo <~ fieldBoolT (b_ "Joyo") (rJoyo r) ;;
      isJinmei <~ fieldBoolT (b_ "Jinmei") (rJinmei r) ;;
      if isJoyo && isJinmei then tableError file row (b_ "can't be both joyo and jinmei")
      else if isJoyo && isEmptyField (rMeaning r) then tableError file row (b_ "meaning is empty for Jōyō Kanji")
      else
        links <~ loadLinksT r isJoyo ;;
        d <~ processLinksT links (rName r) isJinmei d ;;
        asErrorT (u <~ makeUcdT r radical isJoyo isJinmei links ;;
                  match mfind (rName r) (ucdMap d) with
                  | Some _ => Says DomainError (b_ "duplicate entry '" ++ rName r ++ b_ "'")
                  | None => Got (MkUcdData (mupdate (fun _ => u) (rName r) (ucdMap d)) (linkedJinmei d) (linkedOther d))
                  end).
End Row.
(** UcdData.cpp:92-136 and TextKanjiData.cpp:37 *)
Definition ucdTableT (ltr : bool) (fs : bytes -> option CountModel.node) (writable : bytes -> bool) (reg : bytes -> registry) (dir : bytes) : res UcdData :=
  tableLoadT (fun file row l d => loadRowT ltr file row d (ucdRow l)) fs writable reg dir (b_ "ucd") UcdColumns emptyUcdData.
