(** Model of the classes in libs/kanji/include/kt_kanji/Kanji.h and OfficialKanji.h as they
    are seen through the methods of [Kanji]: every virtual method that returns a stored value
    is a field.  How the constructors fill the fields from files is not modelled here (see
    DataModel.v for the parts of KanjiData that create and store Kanji). *)
From Verif Require Export StringModel IdsModel Utf8CharModel MapModel.
Open Scope N_scope.

(** KanjiEnums.h:10-20 *)
Inductive KanjiTypes :=
  Jouyou | Jinmei | LinkedJinmei | LinkedOld | FrequencyType | Extra | Kentei | UcdType | NoType.
(** KanjiEnums.h:29-38 *)
Inductive KanjiGrades := G1 | G2 | G3 | G4 | G5 | G6 | GS | NoGrade.
(** KanjiEnums.h:47-54 *)
Inductive JlptLevels := N5 | N4 | N3 | N2 | N1 | NoLevel.
(** KanjiEnums.h:63-77 *)
Inductive KenteiKyus := K10 | K9 | K8 | K7 | K6 | K5 | K4 | K3 | KJ2 | K2 | KJ1 | K1 | NoKyu.

(** names given to the enum lists: KanjiEnums.h:42-43, 58-59, 81-82 *)
Definition gradeToString (g : KanjiGrades) : bytes :=
  match g with
  | G1 => b_ "G1" | G2 => b_ "G2" | G3 => b_ "G3" | G4 => b_ "G4" | G5 => b_ "G5" | G6 => b_ "G6"
  | GS => b_ "S" | NoGrade => b_ "None"
  end.
Definition levelToString (l : JlptLevels) : bytes :=
  match l with
  | N5 => b_ "N5" | N4 => b_ "N4" | N3 => b_ "N3" | N2 => b_ "N2" | N1 => b_ "N1" | NoLevel => b_ "None"
  end.
Definition kyuToString (k : KenteiKyus) : bytes :=
  match k with
  | K10 => b_ "K10" | K9 => b_ "K9" | K8 => b_ "K8" | K7 => b_ "K7" | K6 => b_ "K6" | K5 => b_ "K5"
  | K4 => b_ "K4" | K3 => b_ "K3" | KJ2 => b_ "KJ2" | K2 => b_ "K2" | KJ1 => b_ "KJ1" | K1 => b_ "K1"
  | NoKyu => b_ "None"
  end.

(** what the virtual methods of the classes return besides: the fields of a LoadedKanji (Kanji.h:313-314), NumberedKanji, OfficialKanji and
    JinmeiKanji (OfficialKanji.h:53-55, 77-79, 97) *)
Record Details := MkDetails {
  dMeaning : bytes; dReading : bytes; dNumber : N; dYear : N; dReason : option N }.

(** Kanji.h:51-150 and 277-288 *)
Record Kanji := MkKanji {
  kName : bytes;
  kCompatibility : option bytes;  (* _compatibilityName *)
  kRadicalName : bytes; kRadicalNumber : N;
  kStrokes : N * N;
  kPinyin : bytes;                (* empty: no pinyin *)
  kMorohashi : N * IdType;        (* (0, _): no id *)
  kNelson : list N;
  kType : KanjiTypes;
  kFrequency : N;                 (* uint16_t, 0: none *)
  kGrade : KanjiGrades;
  kKyu : KenteiKyus;
  kLevel : JlptLevels;
  kNewName : option bytes;
  kOldNames : list bytes;
  kLinkedReadings : bool;
  kDetails : Details
}.

(** Kanji.cpp:25-27: compatibilityName *)
Definition compatibilityName (k : Kanji) : bytes :=
  match kCompatibility k with Some s => s | None => kName k end.
(** Kanji.h:119 and Kanji.cpp:186-188: variant *)
Definition variant (k : Kanji) : out bool := isCharWithVariationSelector (kName k).
(** Kanji.h:122 and Kanji.cpp:190-192: nonVariantName *)
Definition nonVariantName (k : Kanji) : out bytes := noVariationSelector (kName k).
(** Kanji.cpp:29-32: frequencyOrDefault *)
Definition frequencyOrDefault (k : Kanji) (x : N) : N :=
  if kFrequency k =? 0 then x else kFrequency k.
(** Kanji.cpp:34-36: frequencyOrMax *)
Definition frequencyOrMax (k : Kanji) : N := frequencyOrDefault k 65535.
(** Kanji.cpp:39-41: hasGrade, hasKyu, hasLevel *)
Definition hasGrade (k : Kanji) : bool := match kGrade k with NoGrade => false | _ => true end.
Definition hasKyu (k : Kanji) : bool := match kKyu k with NoKyu => false | _ => true end.
Definition hasLevel (k : Kanji) : bool := match kLevel k with NoLevel => false | _ => true end.

(** Kanji.cpp:123-138: qualifiedNameRank *)
Definition qualifiedNameRank (k : Kanji) : N :=
  let is t := match kType k, t with
              | Jouyou, Jouyou | Jinmei, Jinmei | LinkedJinmei, LinkedJinmei | LinkedOld, LinkedOld
              | Extra, Extra | UcdType, UcdType => true
              | _, _ => false
              end in
  if is Jouyou then 0
  else if hasLevel k then 1
  else if negb (kFrequency k =? 0) then 2
  else if is Jinmei then 3
  else if is LinkedJinmei then 4
  else if is LinkedOld then 5
  else if is Extra then 6
  else if is UcdType then 9
  else match kKyu k with K1 => 8 | _ => 7 end.

(** Kanji.h:272-273: QualifiedNames *)
Definition QualifiedNames : bytes := b_ ".'""^~%+@#*".
(** Kanji.cpp:84-86: qualifiedName *)
Definition qualifiedName (k : Kanji) : out bytes :=
  match nth_error QualifiedNames (N.to_nat (qualifiedNameRank k)) with
  | Some c => Val (kName k ++ [c])
  | None => Ub
  end.

(** Kanji.cpp:93-100: orderByStrokes; && and || only evaluate what they need *)
Definition orderByStrokes (a b : Kanji) : out bool :=
  match strokesCompare (kStrokes a) (kStrokes b) with
  | Lt => Val true
  | Gt => Val false
  | Eq =>
      if frequencyOrMax a <? frequencyOrMax b then Val true
      else if frequencyOrMax a =? frequencyOrMax b then
        x <- toUnicode_string (compatibilityName a) NoBrackets ;;
        y <- toUnicode_string (compatibilityName b) NoBrackets ;;
        Val (blt x y)
      else Val false
  end.
(** Kanji.cpp:88-91: orderByQualifiedName *)
Definition orderByQualifiedName (a b : Kanji) : out bool :=
  if qualifiedNameRank a <? qualifiedNameRank b then Val true
  else if qualifiedNameRank a =? qualifiedNameRank b then orderByStrokes a b
  else Val false.
(** Kanji.cpp:102: operator== *)
Definition kanjiEqual (a b : Kanji) : bool := beq (kName a) (kName b).

(** Kanji.h:35-46: Info; a set of fields is a number *)
Definition Info_Radical := 1.
Definition Info_Strokes := 2.
Definition Info_Pinyin := 4.
Definition Info_Grade := 8.
Definition Info_Level := 16.
Definition Info_Freq := 32.
Definition Info_New := 64.
Definition Info_Old := 128.
Definition Info_Kyu := 256.
Definition Info_All := 511.
Definition hasField (fields f : N) : bool := negb (N.land fields f =? 0).

(** Kanji.cpp:51-54: the function add *)
Definition infoAdd (result x : bytes) : bytes :=
  (match result with [] => [] | _ => result ++ b_ ", " end) ++ x.
Definition infoIf (c : bool) (x result : bytes) : bytes := if c then infoAdd result x else result.
(** Kanji.cpp:71-77: the text of the old names *)
Fixpoint oldNamesText (linked : bool) (l : list bytes) (s : bytes) : bytes :=
  match l with
  | [] => s
  | i :: r => oldNamesText linked r
      (match s with [] => i ++ (if linked then b_ "*" else []) | _ => s ++ b_ "／" ++ i end)
  end.
Definition nonEmpty {A} (l : list A) : bool := match l with [] => false | _ => true end.
(** Kanji.cpp:46-82: info.  The assert of line 66 is only checked in debug builds and not
    modelled. *)
Definition info (k : Kanji) (fields : N) : bytes :=
  let r := [] in
  let r := infoIf (hasField fields Info_Radical)
             (b_ "Rad " ++ kRadicalName k ++ b_ "(" ++ to_string (kRadicalNumber k) ++ b_ ")") r in
  let r := infoIf (hasField fields Info_Strokes) (b_ "Strokes " ++ strokesToString (kStrokes k) false) r in
  let r := infoIf (hasField fields Info_Pinyin && nonEmpty (kPinyin k)) (kPinyin k) r in
  let r := infoIf (hasField fields Info_Grade && hasGrade k) (gradeToString (kGrade k)) r in
  let r := infoIf (hasField fields Info_Level && hasLevel k) (levelToString (kLevel k)) r in
  let r := infoIf (hasField fields Info_Freq && negb (kFrequency k =? 0))
             (b_ "Frq " ++ to_string (kFrequency k)) r in
  let r := match kNewName k with
           | Some n => infoIf (hasField fields Info_New)
                         (b_ "New " ++ n ++ (if kLinkedReadings k then b_ "*" else [])) r
           | None => infoIf (hasField fields Info_Old && nonEmpty (kOldNames k))
                       (b_ "Old " ++ oldNamesText (kLinkedReadings k) (kOldNames k) []) r
           end in
  infoIf (hasField fields Info_Kyu && hasKyu k) (kyuToString (kKyu k)) r.
