(** Model of how libs/quiz/src/QuizLauncher.cpp looks up the Kanji of a command line argument and of
    what it prints about a Kanji (lines 158-217, 291-296, 315-382, 395-443).  The result is the text
    printed.  Not modelled: the text of error messages.  A byte of 0x80 or more given to [isdigit] or
    [ishexnumber] (as a negative int where char is signed, which the C standard leaves undefined) is
    not a digit here. *)
From Verif Require Export LaunchModel LoadModel GroupLoadModel JukugoModel.
Open Scope N_scope.

(** KanjiEnums.h:24-26 and EnumList.h:308-316 *)
Definition typeToString (t : KanjiTypes) : bytes :=
  match t with
  | Jouyou => b_ "Jouyou" | Jinmei => b_ "Jinmei" | LinkedJinmei => b_ "LinkedJinmei" | LinkedOld => b_ "LinkedOld"
  | FrequencyType => b_ "Frequency" | Extra => b_ "Extra" | Kentei => b_ "Kentei" | UcdType => b_ "Ucd" | NoType => b_ "None"
  end.
(** OfficialKanji.cpp:9-11, 28-33, 59-62 and Kanji.h:112: extraTypeInfo *)
Definition extraTypeInfo (k : Kanji) (x : Details) : option bytes :=
  let number := b_ "#" ++ to_string (dNumber x) in
  let official := number ++ (if dYear x =? 0 then [] else b_ " " ++ to_string (dYear x)) in
  match kType k with
  | Jouyou => Some official
  | Jinmei => Some (official ++ b_ " [" ++ (match dReason x with Some r => nth (N.to_nat r) ReasonNames [] | None => b_ "None" end) ++ b_ "]")
  | Extra => Some number
  | _ => None
  end.
(** QuizLauncher.cpp:158-161 printExtraTypeInfo *)
Definition extraTypeText (k : Kanji) (x : Details) : bytes :=
  b_ ", " ++ typeToString (kType k) ++ match extraTypeInfo k x with Some i => b_ " (" ++ i ++ b_ ")" | None => [] end.
(** QuizLauncher.cpp:163-175 printLegend: the text (see printLegend in QuizModel) *)
Definition legendText (fields : N) : bytes :=
  let t := legendAdd (hasField fields Info_Level) (b_ " N[1-5]=JLPT Level") [] in
  let t := legendAdd (hasField fields Info_Kyu) (b_ " K[1-10]=Kentei Kyu") t in
  let t := legendAdd (hasField fields Info_Grade) (b_ " G[1-6]=Grade (S=Secondary School)") t in
  b_ ">>> Legend:
Fields:" ++ t ++ b_ "
Suffix: " ++ b_ ".=常用 '=JLPT ""=Freq ^=人名用 ~=LinkJ %=LinkO +=Extra @=検定 #=1級 *=Ucd" ++ b_ "
".
(** QuizLauncher.cpp:177-182 printMeaning with showMeaning set *)
Definition meaningText (meaning : bytes) (useNewLine : bool) : bytes :=
  (if nonEmpty meaning then (if useNewLine then b_ "
    Meaning: " else b_ " : ") ++ meaning else []) ++ b_ "
".

(** ** Jukugo *)

(** QuizLauncher.h:69 *)
Definition JukugoPerLine := 3.
Definition MaxJukugoSize := 30.
(** QuizLauncher.cpp:426-434: the widths of the columns, [i] is the position of the first of the list *)
Definition setWidth (c w : N) (ws : N * N * N) : N * N * N :=
  let '(a, b, d) := ws in if c =? 0 then (w, b, d) else if c =? 1 then (a, w, d) else (a, b, w).
Definition getWidth (c : N) (ws : N * N * N) : N :=
  let '(a, b, d) := ws in if c =? 0 then a else if c =? 1 then b else d.
Fixpoint colWidths (i : N) (l : list Jukugo) (ws : N * N * N) : out (N * N * N) :=
  match l with
  | [] => Val ws
  | j :: r =>
      let c := i mod JukugoPerLine in
      ws <- (if getWidth c ws <? MaxJukugoSize then
               n <- displaySize (nameAndReading j) ;;
               let size := u64 (n + 2) in
               Val (if getWidth c ws <? size then setWidth c (if size <? MaxJukugoSize then size else MaxJukugoSize) ws else ws)
             else Val ws) ;;
      colWidths (i + 1) r ws
  end.
(** QuizLauncher.cpp:435-440: the entries with padding *)
Fixpoint jukugoCells (i : N) (l : list Jukugo) (ws : N * N * N) : out bytes :=
  match l with
  | [] => Val []
  | j :: r =>
      let s := nameAndReading j in
      w <- wideSetw s (getWidth (i mod JukugoPerLine) ws) ;;
      rest <- jukugoCells (i + 1) r ws ;;
      Val ((if i mod JukugoPerLine =? 0 then [10] else []) ++ putSetw true 32 w s ++ rest)
  end.
(** QuizLauncher.cpp:419-443 printJukugoList *)
Definition jukugoList (name : bytes) (l : list Jukugo) : out bytes :=
  t <- (if len l <=? JukugoPerLine then Val (flat_map (fun j => [32] ++ nameAndReading j) l)
        else ws <- colWidths 0 l (0, 0, 0) ;; cells <- jukugoCells 0 l ws ;; Val ([32] ++ to_string (len l) ++ cells)) ;;
  Val (b_ "    " ++ name ++ b_ ":" ++ t ++ [10]).
(** QuizLauncher.cpp:395-417 printJukugo; the grade of a Jukugo is one more than the number of the enum *)
Definition jukugoText (jd : JukugoData) (k : Kanji) : out bytes :=
  let l := jFind jd (kName k) in
  t <- (match l with
        | [] => Val []
        | _ =>
            if hasGrade k && (JukugoPerLine <? len l) then
              let same := filter (fun j => gradeNumber (kGrade k) + 1 =? jGrade j) l in
              let other := filter (fun j => negb (gradeNumber (kGrade k) + 1 =? jGrade j)) l in
              match other with
              | [] => jukugoList (b_ " Jukugo") l
              | _ => a <- jukugoList (b_ "Same Grade Jukugo") same ;;
                     b <- jukugoList (b_ "Other Grade Jukugo") other ;; Val (a ++ b)
              end
            else jukugoList (b_ " Jukugo") l
        end) ;;
  Val (t ++ [10]).

(** ** Review details *)

Section Details.
(** std::sort with KanjiData::OrderByQualifiedName *)
Variable sort : list Kanji -> list Kanji.
Variable d : Data.
Variable ucd : UcdData.
Variable gd : GroupData.
Variable jd : JukugoData.

(** QuizLauncher.cpp:193-194 *)
Fixpoint similarNames (k : Kanji) (l : list Kanji) : out bytes :=
  match l with
  | [] => Val []
  | j :: r =>
      rest <- similarNames k r ;;
      if negb (kanjiEqual j k) then n <- qualifiedName j ;; Val ([32] ++ n ++ rest) else Val rest
  end.
(** QuizLauncher.cpp:186-196 *)
Definition similarText (k : Kanji) : out bytes :=
  match mfind (kName k) (patternMap gd) with
  | Some g =>
      match gPattern g with
      | Reading => Val []
      | _ => t <- similarNames k (sort (map qKanji (gMembers g))) ;; Val (b_ "    Similar:" ++ t ++ [10])
      end
  | None => Val []
  end.
(** QuizLauncher.cpp:197-204 *)
Definition idsText (k : Kanji) : bytes :=
  (if fst (kMorohashi k) =? 0 then [] else b_ "  Morohashi: " ++ morohashiToString (kMorohashi k) ++ [10])
  ++ match kNelson k with
     | [] => []
     | l => (if len l =? 1 then b_ "  Nelson ID:" else b_ " Nelson IDs:")
            ++ flat_map (fun i => [32] ++ to_string i) l ++ [10]
     end.
(** QuizLauncher.cpp:210-213: the categories, [first] for the first one *)
Fixpoint categoryNames (first : bool) (l : list Group) : bytes :=
  match l with
  | [] => []
  | g :: r => (if first then [] else b_ ", ") ++ b_ "[" ++ gName g ++ b_ "]" ++ categoryNames false r
  end.
(** QuizLauncher.cpp:205-215 *)
Definition categoryText (k : Kanji) : bytes :=
  match categories gd (kName k) with
  | [] => []
  | l => (if len l =? 1 then b_ "   Category: " else b_ " Categories: ") ++ categoryNames true l ++ [10]
  end.
(** QuizLauncher.cpp:184-217 printReviewDetails *)
Definition reviewText (k : Kanji) : out bytes :=
  s <- similarText k ;;
  j <- jukugoText jd k ;;
  Val (b_ "    Reading: " ++ dReading (kDetails k) ++ [10] ++ s ++ idsText k ++ categoryText k ++ j).

(** ** Details of a Kanji *)

(** QuizLauncher.cpp:359-382 printDetails *)
Definition printDetails (arg : bytes) (showLegend : bool) : out bytes :=
  code <- toUnicode_string arg Square ;;
  u <- ucdFind ucd arg ;;
  t <- match u with
       | Some u =>
           let src := match sources u with
                      | [] => []
                      | s => b_ ", Sources " ++ s ++ match ucdJSource u with [] => [] | js => b_ " (" ++ js ++ b_ ")" end
                      end in
           rest <- match findByName d arg with
                   | Some k =>
                       r <- reviewText k ;;
                       Val (extraTypeText k (kDetails k) ++ [10] ++ info k Info_All ++ meaningText (dMeaning (kDetails k)) true ++ r)
                   | None => Val (b_ " --- Kanji not loaded'
")
                   end ;;
           Val (b_ ", Blk " ++ ucdBlock u ++ b_ ", Ver " ++ ucdVersion u ++ src ++ rest)
       | None => Val (b_ " --- Not found in 'ucd.txt'
")
       end ;;
  Val ((if showLegend then legendText Info_All ++ b_ "Sources: G=China / Singapore, H=Hong Kong, J=Japan, K=Korea, T=Taiwan, V=Vietnam

" else []) ++ arg ++ [32] ++ code ++ t).
(** QuizLauncher.cpp:356 *)
Fixpoint printAll (l : list Kanji) (showLegend : bool) : out bytes :=
  match l with
  | [] => Val []
  | k :: r => a <- printDetails (kName k) showLegend ;; b <- printAll r showLegend ;; Val (a ++ b)
  end.
(** QuizLauncher.cpp:346-357 printDetails of a list *)
Definition printList (l : list Kanji) (name arg : bytes) : out bytes :=
  t <- printAll l (len l =? 1) ;;
  Val ((if len l =? 1 then []
        else (if 1 <? len l then legendText Info_All ++ [10] else [])
             ++ b_ "Found " ++ to_string (len l) ++ b_ " matches for " ++ name ++ b_ " ID " ++ arg
             ++ (match l with [] => [10] | _ => b_ ":

" end)) ++ t).

(** ** The argument *)

(** [::ishexnumber], and the value of such a digit *)
Definition ishexnumber (b : N) : bool := isdigit b || ((97 <=? b) && (b <=? 102)) || ((65 <=? b) && (b <=? 70)).
Definition hexValue (b : N) : N := if b <=? 57 then b - 48 else if b <=? 70 then b - 55 else b - 87.
(** [std::stoi(id, nullptr, 16)] of hex digits only *)
Definition stoiHex (s : bytes) : N := fold_left (fun a b => a * 16 + hexValue b) s 0.
(** QuizLauncher.cpp:291-296 getId *)
Definition getNumericId (arg : bytes) : out N := match readU16 arg with Some (v, _) => Val v | None => Throw DomainError end.
(** QuizLauncher.cpp:315-344 processKanjiArg *)
Definition processKanjiArg (arg : bytes) : out bytes :=
  if allDigits arg then
    f <- getNumericId arg ;;
    k <- findByFrequency d f ;;
    match k with Some k => printDetails (kName k) true | None => Throw DomainError end
  else if starts_with arg (b_ "m") then
    id <- newMorohashi (tl arg) ;; printList (findByMorohashiId d id) (b_ "Morohashi") (morohashiToString id)
  else if starts_with arg (b_ "n") then
    let id := tl arg in
    if (match id with [] => true | _ => false end) || negb (allDigits id) then Throw DomainError
    else n <- getNumericId id ;; printList (findByNelsonId d n) (b_ "Nelson") id
  else if starts_with arg (b_ "u") then
    let id := tl arg in
    if (len id <? 4) || (5 <? len id)
       || ((len id =? 5) && negb (hd 0 id =? 49) && negb (hd 0 id =? 50))
       || negb (forallb ishexnumber id) then Throw DomainError
    else s <- toUtf8_code (stoiHex id) ;; printDetails s true
  else
    k <- isKanji arg true ;; if k : bool then printDetails arg true else Throw DomainError.
End Details.
