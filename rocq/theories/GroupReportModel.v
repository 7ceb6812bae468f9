(** Model of what libs/quiz/src/GroupData.cpp prints about groups (lines 106-223).  The width, alignment and fill character of the
    stream are as std::setw, std::left, std::right and std::setfill set them; alignment and fill stay set.
    Not modelled: errors printed while loading. *)
From Verif Require Export GroupLoadModel ReportModel.
Open Scope N_scope.

(** what stays set in the stream *)
Record Stream := MkStream { sLeft : bool; sFill : N }.
Definition put (f : Stream) (w : Z) (s : bytes) : bytes := putSetw (sLeft f) (sFill f) w s.
(** Kanji.h:206-208 *)
Definition Legend : bytes := b_ ".=常用 '=JLPT ""=Freq ^=人名用 ~=LinkJ %=LinkO +=Extra @=検定 #=1級 *=Ucd".
(** GroupData.cpp:12 *)
Definition MissingTypeExamples : N := 12.
Definition PatternGroupSetW : N := 25.
Definition BreakdownSetW : Z := 14.
(** GroupData.h:63 TypeMap: names by type; only looked up *)
Definition TypeMap := list (N * list bytes).
Fixpoint addType (t : N) (s : bytes) (m : TypeMap) : TypeMap :=
  match m with
  | [] => [(t, [s])]
  | (x, l) :: r => if x =? t then (x, l ++ [s]) :: r else (x, l) :: addType t s r
  end.
Fixpoint findType (t : N) (m : TypeMap) : option (list bytes) :=
  match m with
  | [] => None
  | (x, l) :: r => if x =? t then Some l else findType t r
  end.
Definition typeOf (k : QKanji) : N := kanjiTypeNumber (kType (qKanji k)).

Section Printing.
(** KanjiData::fullDebug *)
Variable full : bool.

(** GroupData.cpp:141-143 *)
Definition namePad (n : N) : bytes := if n =? 1 then b_ "　　" else if n =? 2 then b_ "　" else [].
(** GroupData.cpp:147-153; the set of names is a list *)
Fixpoint meaningMembers (l : list QKanji) (types : TypeMap) (unique : list bytes) : out (bytes * TypeMap * list bytes) :=
  match l with
  | [] => Val ([], types, unique)
  | k :: r =>
      q <- (if full then n <- qualifiedName (qKanji k) ;; Val (b_ " " ++ n) else Val []) ;;
      let seen := existsb (beq (qName k)) unique in
      let types := if seen then types else addType (typeOf k) (qName k) types in
      let unique := if seen then unique else unique ++ [qName k] in
      '(t, types, unique) <- meaningMembers r types unique ;;
      Val (q ++ t, types, unique)
  end.
(** GroupData.cpp:136-154 printMeaningGroup *)
Definition printMeaningGroup (f : Stream) (g : Group) (types : TypeMap) (unique : list bytes) : out (bytes * TypeMap * list bytes * Stream) :=
  '(head, f) <-
    (if full then
       n <- u8size (gName g) false ;;
       let f' := MkStream (sLeft f) 32 in
       Val (gName g ++ namePad n ++ b_ " (" ++ put f' 2 (to_string (len (gMembers g))) ++ b_ ")   :", f')
     else Val ([], f)) ;;
  '(t, types, unique) <- meaningMembers (gMembers g) types unique ;;
  Val (head ++ t, types, unique, f).
(** GroupData.cpp:160-173.  The first member is the one equal to [members()[0]]: members of a group are different *)
Fixpoint patternMembers (p : PatternType) (first : bool) (l : list QKanji) (types : TypeMap) : out (bytes * TypeMap) :=
  match l with
  | [] => Val ([], types)
  | k :: r =>
      q <- (if full then
              n <- qualifiedName (qKanji k) ;;
              Val (if first then match p with
                                 | Peer => b_ "　 : " ++ n
                                 | Reading => n
                                 | Family | NoPattern => n ++ b_ ":"
                                 end
                   else b_ " " ++ n)
            else Val []) ;;
      '(t, types) <- patternMembers p false r (addType (typeOf k) (qName k) types) ;;
      Val (q ++ t, types)
  end.
(** GroupData.cpp:156-174 printPatternGroup *)
Definition printPatternGroup (f : Stream) (g : Group) (types : TypeMap) : out (bytes * TypeMap) :=
  head <- (if full then
             w <- wideSetw (gName g) PatternGroupSetW ;;
             Val (put f w (gName g) ++ b_ "(" ++ put f 2 (to_string (len (gMembers g))) ++ b_ ")   ")
           else Val []) ;;
  '(t, types) <- patternMembers (gPattern g) true (gMembers g) types ;;
  Val (head ++ t, types).
(** GroupData.cpp:116-128 *)
Fixpoint groupLines (numberWidth : Z) (f : Stream) (gs : list Group) (types : TypeMap) (unique : list bytes)
  : out (bytes * TypeMap * list bytes * Stream) :=
  match gs with
  | [] => Val ([], types, unique, f)
  | g :: r =>
      let number := if full then b_ "[" ++ put f numberWidth (to_string (gNumber g)) ++ b_ "]  " else [] in
      '(t, types, unique, f) <-
        match gType g with
        | MeaningType => printMeaningGroup f g types unique
        | PatternGroupType => '(t, types) <- printPatternGroup f g types ;; Val (t, types, unique, f)
        end ;;
      '(rest, types, unique, f) <- groupLines numberWidth f r types unique ;;
      Val (number ++ t ++ (if full then [10] else []) ++ rest, types, unique, f)
  end.

(** GroupData.cpp:182-188: [keys] are those of the map in order, one for each entry *)
Fixpoint countKeys (keys : list bytes) (prevKey : bytes) (multiple : smap N) (maxBelongsTo : N) : smap N * N :=
  match keys with
  | [] => (multiple, maxBelongsTo)
  | k :: r =>
      if beq k prevKey then
        let multiple := mupdate (fun o => match o with Some n => n + 1 | None => 1 end) k multiple in
        let belongsTo := match mfind k multiple with Some n => n | None => 0 end in
        countKeys r prevKey multiple (if maxBelongsTo <? belongsTo then belongsTo else maxBelongsTo)
      else countKeys r k multiple maxBelongsTo
  end.
(** GroupData.cpp:192-197 *)
Fixpoint multipleLines (n : nat) (i : N) (multiple : smap N) : bytes :=
  match n with
  | O => []
  | S n => b_ "  Kanji in " ++ to_string (i + 1) ++ b_ " groups:"
           ++ flat_map (fun '(k, c) => if c =? i then b_ " " ++ k else []) multiple ++ [10] ++ multipleLines n (i + 1) multiple
  end.
(** GroupData.cpp:176-198 printUniqueNames *)
Definition printUniqueNames (keys unique : list bytes) : bytes :=
  let '(multiple, maxBelongsTo) := countKeys keys [] [] 0 in
  logText false ++ b_ "Unique kanji: " ++ to_string (len unique) ++ b_ " (once " ++ to_string (sub64 (len unique) (len multiple))
    ++ b_ ", multi " ++ to_string (len multiple) ++ b_ ")" ++ [10] ++ multipleLines (N.to_nat maxBelongsTo) 1 multiple.

(** GroupData.cpp:217-222; looking up a name in the sorted list is membership *)
Fixpoint missingLoop (all : list Kanji) (found : list bytes) (missing count : N) : bytes :=
  match all with
  | [] => []
  | k :: r =>
      if negb (existsb (beq (kName k)) found) then
        (if negb (count =? 0) then b_ " " else []) ++ kName k
          ++ (if (count + 1 =? missing) || (count + 1 =? MissingTypeExamples) then [] else missingLoop r found missing (count + 1))
      else missingLoop r found missing count
  end.
(** GroupData.cpp:212-224 printMissingFromType *)
Definition printMissingFromType (all : list Kanji) (found : list bytes) : bytes :=
  let missing := sub64 (len all) (len found) in
  if negb (missing =? 0) then b_ " (" ++ missingLoop all found missing 0 ++ b_ ")" else [].
(** GroupData.cpp:200-210 printTypeBreakdown; std::right stays set *)
Definition printTypeBreakdown (f : Stream) (d : Data) (types : TypeMap) : bytes :=
  b_ "Type Breakdown (showing up to " ++ to_string MissingTypeExamples ++ b_ " missing examples per type)" ++ [10]
    ++ flat_map (fun t => match findType (kanjiTypeNumber t) types with
                          | Some l => putSetw false (sFill f) BreakdownSetW (typeToString t) ++ b_ ": " ++ to_string (len l) ++ b_ " / "
                                        ++ to_string (len (typeList d t)) ++ printMissingFromType (typeList d t) l ++ [10]
                          | None => []
                          end) AllKanjiTypes.
Definition afterBreakdown (f : Stream) (types : TypeMap) : Stream :=
  if existsb (fun t => match findType (kanjiTypeNumber t) types with Some _ => true | None => false end) AllKanjiTypes
  then MkStream false (sFill f) else f.
(** GroupData.cpp:117-119 *)
Definition numberWidth (n : N) : Z := if n <? 100 then 2%Z else if n <? 1000 then 3%Z else 4%Z.
(** GroupData.cpp:130-131 *)
Definition printUnique (keys unique : list bytes) : bytes :=
  if match unique with [] => false | _ => len unique <? len keys end then printUniqueNames keys unique else [].
(** GroupData.cpp:106-133 printGroups *)
Definition printGroups (f : Stream) (d : Data) (keys : list bytes) (gs : list Group) : out (bytes * Stream) :=
  '(lines, types, unique, f) <- groupLines (numberWidth (len gs)) f gs [] [] ;;
  Val (logText false ++ b_ "Loaded " ++ to_string (len keys) ++ b_ " kanji into " ++ to_string (len gs) ++ b_ " groups" ++ [10]
         ++ (if full then logText false ++ Legend ++ [10] ++ b_ "Name (number of entries)   Parent Member : Other Members" ++ [10] else [])
         ++ lines
         ++ printUnique keys unique
         ++ printTypeBreakdown f d types, afterBreakdown f types).
(** the keys of the multimap and of the map *)
Definition meaningKeys (gd : GroupData) : list bytes := flat_map (fun '(k, l) => map (fun _ => k) l) (meaningMap gd).
Definition patternKeys (gd : GroupData) : list bytes := map fst (patternMap gd).
(** GroupData.cpp:27-30: the end of the constructor when a debug mode is set *)
Definition printGroupData (f : Stream) (d : Data) (gd : GroupData) : out bytes :=
  '(a, f) <- printGroups f d (meaningKeys gd) (meaningGroups gd) ;;
  '(b, _) <- printGroups f d (patternKeys gd) (patternGroups gd) ;;
  Val (a ++ b).
End Printing.
