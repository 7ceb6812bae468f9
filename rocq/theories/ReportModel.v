(** Model of the reports that KanjiData prints in debug mode (libs/kanji/src/KanjiData.cpp:136-144, 156-171,
    329-474, libs/kanji/src/ListFile.cpp:25-35, libs/kanji/src/RadicalData.cpp:15-29, 69-127 and
    libs/kanji/src/UcdData.cpp:20-56, 138-180, 215-236).  The result is the text printed.  Counts are those of lists in
    memory: additions to a size_t or int do not wrap here, subtractions do. *)
From Verif Require Export DetailsModel.
Open Scope N_scope.

(** a - b for size_t *)
Definition sub64 (a b : N) : N := if b <=? a then a - b else 2^64 + a - b.
(** KanjiData.cpp:142-144 log *)
Definition logText (heading : bool) : bytes := if heading then b_ ">>>" ++ [10] ++ b_ ">>> " else b_ ">>> ".
(** KanjiEnums.h:24-26, EnumListWithNone.h: the values of the list, with None at the end *)
Definition AllKanjiTypes : list KanjiTypes :=
  [Jouyou; Jinmei; LinkedJinmei; LinkedOld; FrequencyType; Extra; Kentei; UcdType; NoType].
(** KanjiEnums.h:40-43, 56-59, 79-82: with their numbers *)
Definition AllKanjiGrades : list (N * bytes) :=
  map (fun g => (gradeNumber g, gradeToString g)) (AllGrades ++ [NoGrade]).
Definition AllJlptLevels : list (N * bytes) :=
  map (fun v => (levelNumber v, levelToString v)) (AllLevels ++ [NoLevel]).
Definition AllKenteiKyus : list (N * bytes) :=
  map (fun k => (kyuNumber k, kyuToString k)) (AllKyus ++ [NoKyu]).
(** the values of _types (EnumMap has no value for None) *)
Definition typeLists (d : Data) : list (list Kanji) := map (fun i => alist N.eqb i (dTypes d)) [0; 1; 2; 3; 4; 5; 6; 7].
(** EnumMap::operator[] const: None has an empty list *)
Definition typeList (d : Data) (t : KanjiTypes) : list Kanji :=
  match t with NoType => [] | _ => alist N.eqb (kanjiTypeNumber t) (dTypes d) end.

(** std::count_if *)
Fixpoint countIf {A} (p : A -> bool) (l : list A) : N :=
  match l with [] => 0 | x :: r => (if p x then 1 else 0) + countIf p r end.
Fixpoint countIfOut {A} (p : A -> out bool) (l : list A) : out N :=
  match l with
  | [] => Val 0
  | x :: r => b <- p x ;; n <- countIfOut p r ;; Val ((if b : bool then 1 else 0) + n)
  end.

(** * Counts *)

(** KanjiData.cpp:377-380: the count and the examples of one type *)
Fixpoint exampleLoop (p : Kanji -> out bool) (printExamples : N) (l : list Kanji) (count : N) (names : list bytes)
  : out (N * list bytes) :=
  match l with
  | [] => Val (count, names)
  | j :: r =>
      b <- p j ;;
      if b : bool then
        let count := count + 1 in
        exampleLoop p printExamples r count (if count <=? printExamples then names ++ [kName j] else names)
      else exampleLoop p printExamples r count names
  end.
(** KanjiData.cpp:373-387: the entries of [counts] (each with its examples) and the total *)
Fixpoint countTypes (p : Kanji -> out bool) (printExamples : N) (l : list (KanjiTypes * list Kanji))
  (counts : list (KanjiTypes * N * list bytes)) (total : N) : out (list (KanjiTypes * N * list bytes) * N) :=
  match l with
  | [] => Val (counts, total)
  | (t, ks) :: r =>
      '(count, names) <- (if negb (printExamples =? 0) then exampleLoop p printExamples ks 0 []
                          else c <- countIfOut p ks ;; Val (c, [])) ;;
      if negb (count =? 0) then countTypes p printExamples r (counts ++ [(t, count, names)]) (total + count)
      else countTypes p printExamples r counts total
  end.
(** KanjiData.cpp:390-395 *)
Fixpoint countItems (counts : list (KanjiTypes * N * list bytes)) (total : N) : bytes :=
  match counts with
  | [] => []
  | (t, c, names) :: r =>
      let total := sub64 total c in
      typeToString t ++ b_ " " ++ to_string c ++ flat_map (fun j => b_ " " ++ j) names
        ++ (if negb (total =? 0) then b_ ", " else []) ++ countItems r total
  end.
(** KanjiData.cpp:368-397 printCount *)
Definition printCount (d : Data) (p : Kanji -> out bool) (name : bytes) (printExamples : N) : out bytes :=
  '(counts, total) <- countTypes p printExamples (combine AllKanjiTypes (typeLists d)) [] 0 ;;
  Val (if negb (total =? 0) then
         logText false ++ name ++ b_ " " ++ to_string total ++ b_ " (" ++ countItems counts total ++ b_ ")" ++ [10]
       else []).

(** KanjiData.cpp:17 *)
Definition MaxVariantSelectorExamples := 5.
(** KanjiData.cpp:345-349: the numbers of Kanji of each type *)
Fixpoint sizeItems (first : bool) (l : list (KanjiTypes * list Kanji)) : bytes :=
  match l with
  | [] => []
  | (t, ks) :: r => (if first then [] else b_ " ") ++ typeToString t ++ b_ " " ++ to_string (len ks) ++ sizeItems false r
  end.
Definition isType (t : KanjiTypes) (k : Kanji) : bool := kanjiTypeNumber (kType k) =? kanjiTypeNumber t.
Definition hasFrequency (k : Kanji) : bool := negb (kFrequency k =? 0).
(** Strokes.h: hasVariant *)
Definition hasVariantStrokes (s : N * N) : bool := negb (snd s =? 0).
(** KanjiData.cpp:343-366 printCountsAndStats *)
Definition printCountsAndStats (d : Data) (full : bool) : out bytes :=
  let loaded := logText false ++ b_ "Loaded " ++ to_string (len (dNames d)) ++ b_ " Kanji ("
                ++ sizeItems true (combine AllKanjiTypes (typeLists d)) ++ b_ ")" ++ [10] in
  if full then
    a <- printCount d (fun k => Val (hasLevel k)) (b_ "  Has JLPT level") 0 ;;
    b <- printCount d (fun k => Val (hasFrequency k && negb (isType Jouyou k) && negb (hasLevel k)))
           (b_ "  Has frequency and not in Jouyou or JLPT") 0 ;;
    c <- printCount d (fun k => Val (isType Jinmei k && negb (hasFrequency k) && negb (hasLevel k)))
           (b_ "  Jinmei with no frequency and not JLPT") 0 ;;
    e <- printCount d (fun k => Val (negb (hasFrequency k))) (b_ "  NF (no-frequency)") 0 ;;
    f <- printCount d (fun k => Val (hasVariantStrokes (kStrokes k))) (b_ "  Has Variant Strokes") 0 ;;
    g <- printCount d variant (b_ "  Has Variation Selectors") MaxVariantSelectorExamples ;;
    h <- printCount d (fun k => Val (nonEmpty (kOldNames k))) (b_ "Old Forms") 0 ;;
    Val (loaded ++ a ++ b ++ c ++ e ++ f ++ g ++ h)
  else Val loaded.

(** KanjiData.cpp:463-474 noFreq *)
Definition noFreq (f : N) (brackets : bool) : bytes :=
  if negb (f =? 0) then
    (if brackets then b_ " (" else b_ " ") ++ b_ "nf " ++ to_string f ++ (if brackets then b_ ")" else [])
  else [].

(** * Grades *)

(** KanjiData.cpp:412-422: the levels of the Kanji of a grade *)
Fixpoint gradeLevels (jouyou : list Kanji) (grade : N) (levels : list (N * bytes)) (gradeCount : N) : bytes :=
  match levels with
  | [] => []
  | (level, name) :: r =>
      let c := countIf (fun x => (gradeNumber (kGrade x) =? grade) && (levelNumber (kLevel x) =? level)) jouyou in
      if negb (c =? 0) then
        let gradeCount := sub64 gradeCount c in
        name ++ b_ " " ++ to_string c ++ (if negb (gradeCount =? 0) then b_ ", " else []) ++ gradeLevels jouyou grade r gradeCount
      else gradeLevels jouyou grade r gradeCount
  end.
(** KanjiData.cpp:402-426: the loop *)
Fixpoint gradeLoop (jouyou : list Kanji) (grades : list (N * bytes)) (all : N) : bytes * N :=
  match grades with
  | [] => ([], all)
  | (i, name) :: r =>
      let gradeCount := countIf (fun x => gradeNumber (kGrade x) =? i) jouyou in
      if negb (gradeCount =? 0) then
        let nf := countIf (fun x => (gradeNumber (kGrade x) =? i) && negb (hasFrequency x)) jouyou in
        let '(rest, all) := gradeLoop jouyou r (all + gradeCount) in
        (logText false ++ b_ "  Total for grade " ++ name ++ b_ ": " ++ to_string gradeCount ++ noFreq nf true
           ++ b_ " (" ++ gradeLevels jouyou i AllJlptLevels gradeCount ++ b_ ")" ++ [10] ++ rest, all)
      else gradeLoop jouyou r all
  end.
(** KanjiData.cpp:399-428 printGrades *)
Definition printGrades (d : Data) : bytes :=
  let '(lines, all) := gradeLoop (typeList d Jouyou) AllKanjiGrades 0 in
  logText false ++ b_ "Grade breakdown:" ++ [10] ++ lines
    ++ logText false ++ b_ "  Total for all grades: " ++ to_string all ++ [10].

(** * Levels and kyus *)

(** KanjiData.cpp:438-447: the counts for one value of the list *)
Fixpoint statCounts (F : Kanji -> N) (i : N) (l : list (KanjiTypes * list Kanji)) (counts : list (KanjiTypes * N)) (iTotal : N)
  : list (KanjiTypes * N) * N :=
  match l with
  | [] => (counts, iTotal)
  | (t, ks) :: r =>
      let c := countIf (fun x => F x =? i) ks in
      if negb (c =? 0) then statCounts F i r (counts ++ [(t, c)]) (iTotal + c) else statCounts F i r counts iTotal
  end.
(** KanjiData.cpp:451-459 *)
Fixpoint statItems (d : Data) (F : Kanji -> N) (showNoFreq : bool) (i : N) (counts : list (KanjiTypes * N)) (iTotal : N) : bytes :=
  match counts with
  | [] => []
  | (t, c) :: r =>
      let iTotal := sub64 iTotal c in
      typeToString t ++ b_ " " ++ to_string c
        ++ (if showNoFreq then noFreq (countIf (fun x => (F x =? i) && negb (hasFrequency x)) (typeList d t)) false else [])
        ++ (if negb (iTotal =? 0) then b_ ", " else []) ++ statItems d F showNoFreq i r iTotal
  end.
(** KanjiData.cpp:435-461: the loop *)
Fixpoint statLoop (d : Data) (F : Kanji -> N) (name : bytes) (showNoFreq : bool) (list : list (N * bytes)) (total : N) : bytes * N :=
  match list with
  | [] => ([], total)
  | (i, text) :: r =>
      let '(counts, iTotal) := statCounts F i (combine AllKanjiTypes (typeLists d)) [] 0 in
      if negb (iTotal =? 0) then
        let '(rest, total) := statLoop d F name showNoFreq r (total + iTotal) in
        (logText false ++ b_ "  Total for " ++ name ++ b_ " " ++ text ++ b_ ": " ++ to_string iTotal ++ b_ " ("
           ++ statItems d F showNoFreq i counts iTotal ++ b_ ")" ++ [10] ++ rest, total)
      else statLoop d F name showNoFreq r total
  end.
(** KanjiData.cpp:430-461 printListStats *)
Definition printListStats (d : Data) (F : Kanji -> N) (list : list (N * bytes)) (name : bytes) (showNoFreq : bool) : bytes :=
  let '(lines, total) := statLoop d F name showNoFreq list 0 in
  logText false ++ name ++ b_ " breakdown:" ++ [10] ++ lines
    ++ logText false ++ b_ "  Total for all " ++ name ++ b_ "s: " ++ to_string total ++ [10].

(** * Strokes *)

(** ListFile.cpp:25-35 print *)
Definition printNames (l : list bytes) (type group : bytes) : bytes :=
  match l with
  | [] => []
  | _ => b_ ">>> Found " ++ to_string (len l) ++ b_ " " ++ type
         ++ match group with [] => [] | _ => b_ " in " ++ group end ++ b_ ":" ++ flat_map (fun i => b_ " " ++ i) l ++ [10]
  end.
(** KanjiData.cpp:334-337 *)
Fixpoint strokeDiffs (ucd : UcdData) (l : list Kanji) : out (list bytes) :=
  match l with
  | [] => Val []
  | k :: r =>
      u <- ucdFind ucd (kName k) ;;
      rest <- strokeDiffs ucd r ;;
      Val (match u with
           | Some u => if negb (fst (kStrokes k) =? fst (ucdStrokes u)) then kName k :: rest else rest
           | None => rest
           end)
  end.
(** KanjiData.cpp:329-341 checkStrokes *)
Fixpoint strokesOf (d : Data) (ucd : UcdData) (types : list KanjiTypes) : out bytes :=
  match types with
  | [] => Val []
  | t :: r =>
      l <- strokeDiffs ucd (typeList d t) ;;
      rest <- strokesOf d ucd r ;;
      Val (printNames l (typeToString t ++ b_ " Kanji with different strokes") (b_ "_ucd") ++ rest)
  end.
Definition checkStrokes (d : Data) (ucd : UcdData) : out bytes := strokesOf d ucd AllKanjiTypes.

(** * Radicals *)

(** RadicalData.cpp:13: Count, a std::map from type to int: only lookups and the sum are observed *)
Fixpoint bump (t : N) (c : list (N * N)) : list (N * N) :=
  match c with
  | [] => [(t, 1)]
  | (x, n) :: r => if x =? t then (x, n + 1) :: r else (x, n) :: bump t r
  end.
Fixpoint countOf (t : N) (c : list (N * N)) : N :=
  match c with
  | [] => 0
  | (x, n) :: r => if x =? t then n else countOf t r
  end.
(** std::right << std::setfill(' ') << std::setw(4) *)
Definition four (n : N) : bytes := putSetw false 32 4 (to_string n).
(** RadicalData.cpp:19-27; isNextNone(i) holds for Ucd *)
Fixpoint typeColumns (summary first : bool) (types : list KanjiTypes) (c : list (N * N)) : bytes :=
  match types with
  | [] => []
  | t :: r =>
      let n := countOf (kanjiTypeNumber t) c in
      (if summary then (if first then [] else b_ " ") ++ to_string n else four n)
        ++ match r with
           | [NoType] => []
           | _ => typeColumns summary false r c
           end
  end.
(** RadicalData.cpp:15-29 printCounts *)
Definition printCounts (c : list (N * N)) (summary : bool) : bytes :=
  four (fold_left (fun x y => x + snd y) c 0) ++ b_ " (" ++ typeColumns summary true AllKanjiTypes c
    ++ (if summary then b_ ")" ++ [10] else b_ ") :").
(** Radical.cpp:20-23 operator<< *)
Definition radicalText (number : N) (name : bytes) : bytes := b_ "[" ++ putSetw false 48 3 (to_string number) ++ b_ "] " ++ name.
(** RadicalLists: std::map from Radical (ordered by number) to Kanji *)
Definition RadicalLists := list ((N * bytes) * list Kanji).
(** [radicals[k.radical()].emplace_back(k)] *)
Fixpoint addToRadical (k : Kanji) (m : RadicalLists) : RadicalLists :=
  match m with
  | [] => [((kRadicalNumber k, kRadicalName k), [k])]
  | ((n, s), l) :: r =>
      if kRadicalNumber k <? n then ((kRadicalNumber k, kRadicalName k), [k]) :: m
      else if kRadicalNumber k =? n then ((n, s), l ++ [k]) :: r
      else ((n, s), l) :: addToRadical k r
  end.
(** RadicalData.cpp:77-81 *)
Fixpoint collectRadicals (l : list (bytes * Kanji)) (m : RadicalLists) : out RadicalLists :=
  match l with
  | [] => Val m
  | (_, k) :: r => c <- isCommonKanji (kName k) true ;; collectRadicals r (if c : bool then addToRadical k m else m)
  end.
(** RadicalData.h:47 *)
Definition MaxExamples : nat := 12.
Section Radicals.
(** std::sort with KanjiData::OrderByStrokes *)
Variable sort : list Kanji -> list Kanji.
(** RadicalData.cpp:86-104: the loop *)
Fixpoint radicalLines (radicals : RadicalLists) (total : list (N * N)) : bytes * list (N * N) :=
  match radicals with
  | [] => ([], total)
  | ((n, s), l) :: r =>
      let l := sort l in
      let count := fold_left (fun c j => bump (kanjiTypeNumber (kType j)) c) l [] in
      let '(rest, total) := radicalLines r (fold_left (fun c j => bump (kanjiTypeNumber (kType j)) c) l total) in
      (radicalText n s ++ b_ ":" ++ printCounts count false ++ flat_map (fun j => b_ " " ++ kName j) (firstn MaxExamples l)
         ++ (if Nat.ltb MaxExamples (List.length l) then b_ " ..." else []) ++ [10] ++ rest, total)
  end.
(** RadicalData.cpp:84-107 printRadicalLists *)
Definition printRadicalLists (radicals : RadicalLists) : bytes :=
  let '(lines, total) := radicalLines radicals [] in
  lines ++ logText false ++ b_ "  Total for " ++ to_string (len radicals) ++ b_ " radicals: " ++ printCounts total true.
(** RadicalData.cpp:113-126 printMissingRadicals *)
Definition printMissingRadicals (rd : RadicalData) (radicals : RadicalLists) : bytes :=
  let missing := filter (fun i => negb (existsb (fun e => fst (fst e) =? radNumber i) radicals)) (radList rd) in
  match missing with
  | [] => []
  | _ => logText false ++ b_ "  Found " ++ to_string (len missing) ++ b_ " radical" ++ (if 1 <? len missing then b_ "s" else [])
         ++ b_ " with no Kanji:" ++ flat_map (fun i => b_ " " ++ radicalText (radNumber i) (radName i)) missing ++ [10]
  end.
(** RadicalData.cpp:71-75: the names of the types *)
Fixpoint typeTitles (types : list KanjiTypes) : bytes :=
  match types with
  | [] => []
  | t :: r => typeToString t ++ match r with
                                | [NoType] => []
                                | _ => b_ " " ++ typeTitles r
                                end
  end.
(** RadicalData.cpp:69-82 print *)
Definition printRadicals (rd : RadicalData) (d : Data) : out bytes :=
  radicals <- collectRadicals (dNames d) [] ;;
  Val (logText false ++ b_ "Common Kanji Radicals (" ++ typeTitles AllKanjiTypes ++ b_ "):" ++ [10]
         ++ printRadicalLists radicals ++ printMissingRadicals rd radicals).
End Radicals.

(** * Unicode data *)

(** UcdData.cpp:32-41: what [add] counts, in the order of the lines that print it (165-172) *)
Definition ucdLabels : list (bytes * (Ucd -> bool)) :=
  [(b_ "Total", fun _ => true);
   (b_ "Links", hasLinks);
   (b_ "VStrokes", fun k => hasVariantStrokes (ucdStrokes k));
   (b_ "Meanings", fun k => nonEmpty (ucdMeaning k));
   (b_ "On Readings", fun k => nonEmpty (ucdOn k));
   (b_ "Kun Readings", fun k => nonEmpty (ucdKun k));
   (b_ "Morohashi Ids", fun k => negb (fst (ucdMorohashi k) =? 0));
   (b_ "Nelson Ids", fun k => nonEmpty (ucdNelson k))].
(** PrintCount: the eight counters *)
Definition ucdAdd (k : Ucd) (c : list N) : list N :=
  map (fun '(n, (_, p)) => n + (if p k : bool then 1 else 0)) (combine c ucdLabels).
(** UcdData.cpp:146-152 *)
Fixpoint ucdCount (l : list (bytes * Ucd)) (j m o : list N) : list N * list N * list N :=
  match l with
  | [] => (j, m, o)
  | (_, k) :: r =>
      if joyo k then ucdCount r (ucdAdd k j) m o
      else if jinmei k then ucdCount r j (ucdAdd k m) o
      else ucdCount r j m (ucdAdd k o)
  end.
(** UcdData.cpp:140-144 and 153-160 *)
Fixpoint ucdLines (labels : list (bytes * (Ucd -> bool))) (j m o : list N) : bytes :=
  match labels, j, m, o with
  | (s, _) :: r, x :: j, y :: m, z :: o =>
      logText false ++ b_ "  " ++ s ++ b_ ": " ++ to_string (x + y + z) ++ b_ " (Jouyou " ++ to_string x ++ b_ ", Jinmei "
        ++ to_string y ++ b_ ", Other " ++ to_string z ++ b_ ")" ++ [10] ++ ucdLines r j m o
  | _, _, _, _ => []
  end.
(** UcdData.cpp:167-175: the lines of one list.  The name of the link type is that of Ucd.cpp *)
Fixpoint linkLines (ucd : UcdData) (l : list Kanji) : out bytes :=
  match l with
  | [] => Val []
  | i :: r =>
      t <- match mfind (kName i) (ucdMap ucd) with
           | Some j =>
               if hasLinks j then
                 a <- entryCodeAndName (ucdName j) ;;
                 b <- linkCodeAndNames j ;;
                 Val (b_ "  " ++ a ++ b_ " -> " ++ b ++ b_ " " ++ nth (N.to_nat (ucdLinkType j)) LinkTypeNames (b_ "None") ++ [10])
               else Val []
           | None => Val (b_ "  ERROR: " ++ kName i ++ b_ " not found in UCD" ++ [10])
           end ;;
      rest <- linkLines ucd r ;; Val (t ++ rest)
  end.
(** UcdData.cpp:161-176 pLinks *)
Definition printLinks (ucd : UcdData) (name : bytes) (l : list Kanji) : out bytes :=
  let count := countIf (fun i => match mfind (kName i) (ucdMap ucd) with Some j => hasLinks j | None => false end) l in
  t <- linkLines ucd l ;;
  Val (logText false ++ name ++ b_ " Kanji with links " ++ to_string count ++ b_ ":" ++ [10] ++ t).
(** UcdData.cpp:222-236 *)
Fixpoint selectorLines (ucd : UcdData) (l : list (bytes * Kanji)) (count : N) : out bytes :=
  match l with
  | [] => Val []
  | (_, k) :: r =>
      v <- variant k ;;
      if v : bool then
        let count := count + 1 in
        a <- toUnicode_string (kName k) Square ;;
        b <- nonVariantName k ;;
        u <- ucdFind ucd (kName k) ;;
        match u with
        | Some u =>
            c <- entryCodeAndName (ucdName u) ;;
            e <- (if hasLinks u then x <- linkCodeAndNames u ;; Val (b_ " variant of " ++ x) else Val []) ;;
            rest <- selectorLines ucd r count ;;
            Val (logText false ++ b_ "    " ++ putSetw true 32 3 (to_string count) ++ b_ "    " ++ a ++ b_ " " ++ kName k
                   ++ b_ " variant of " ++ b ++ b_ "    " ++ c ++ e ++ [10] ++ rest)
        | None => Throw DomainError
        end
      else selectorLines ucd r count
  end.
(** UcdData.cpp:215-221 *)
Definition printSelectors (ucd : UcdData) (d : Data) : out bytes :=
  t <- selectorLines ucd (dNames d) 0 ;;
  Val (logText false ++ b_ "  Standard Kanji with 'Variation Selectors' vs UCD Variants:" ++ [10]
       ++ logText false ++ b_ "    #      Standard Kanji with Selector    UCD Compatibility Kanji" ++ [10]
       ++ logText false ++ b_ "    -      ----------------------------    -----------------------" ++ [10] ++ t).
(** UcdData.cpp:138-180 print *)
Definition printUcd (ucd : UcdData) (d : Data) : out bytes :=
  let zero := map (fun _ => 0) ucdLabels in
  let '(j, m, o) := ucdCount (ucdMap ucd) zero zero zero in
  a <- printLinks ucd (b_ "Frequency") (typeList d FrequencyType) ;;
  b <- printLinks ucd (b_ "Extra") (typeList d Extra) ;;
  c <- printSelectors ucd d ;;
  Val (logText false ++ b_ "Kanji Loaded from Unicode 'ucd' file:" ++ [10] ++ ucdLines ucdLabels j m o ++ a ++ b ++ c).

(** * All reports *)

(** KanjiData.h:133-136 *)
Inductive DebugMode := DebugFull | DebugInfo | DebugNone.
(** KanjiData.cpp:156-171 finishedLoadingData, after the Kanji of the Unicode file are added; Val is the text *)
Definition finishedLoadingData (sort : list Kanji -> list Kanji) (mode : DebugMode) (e : Env) (d : Data) : out bytes :=
  match mode with
  | DebugNone => Val []
  | DebugInfo => c <- printCountsAndStats d false ;; Val (c ++ printGrades d)
  | DebugFull =>
      s <- checkStrokes d (envUcd e) ;;
      c <- printCountsAndStats d true ;;
      r <- printRadicals sort (envRadicals e) d ;;
      u <- printUcd (envUcd e) d ;;
      Val (s ++ logText true ++ b_ "Finished Loading Data" ++ [10] ++ b_ ">>>" ++ [10] ++ c ++ printGrades d
             ++ printListStats d (fun k => levelNumber (kLevel k)) AllJlptLevels (b_ "Level") true
             ++ printListStats d (fun k => kyuNumber (kKyu k)) AllKenteiKyus (b_ "Kyu") false ++ r ++ u)
  end.
