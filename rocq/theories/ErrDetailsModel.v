(** Model of the messages about ids, strokes and the Kanji argument: libs/kanji/src/MorohashiId.cpp, libs/kanji/src/Strokes.cpp and
    libs/quiz/src/QuizLauncher.cpp, the functions of IdsModel and DetailsModel with what() of what they throw (ErrDetailsProofs shows
    that they are the same otherwise). *)
From Verif Require Import DetailsModel.
From Verif Require Export ErrArgsModel.
From Verif Require Export ErrBase.
Open Scope N_scope.

(** ** MorohashiId *)
(** MorohashiId.cpp:48-50 *)
Definition idError {A} (s msg : bytes) : res A := Says DomainError (b_ "Morohashi ID '" ++ s ++ b_ "' " ++ msg).
(** MorohashiId.cpp:57-66 *)
Fixpoint validateLoopT (s cs : bytes) (leading : bool) (result : N) : res N :=
  match cs with
  | [] => Got result
  | c :: r =>
      if leading && (c =? 48) then validateLoopT s r true result
      else if (c <? 48) || (57 <? c) then idError s (b_ "is non-numeric")
      else let x := c - 48 in
           if MaxId / 10 <? result then idError s (b_ "exceeds max")
           else let result' := u16 (result * 10) in
                if MaxId - x <? result' then idError s (b_ "exceeds max")
                else validateLoopT s r false (u16 (result' + x))
  end.
(** MorohashiId.cpp:43-71 *)
Definition validateT (s : bytes) (prefixSize suffixSize : N) : res N :=
  if (len s =? 0) && (prefixSize =? 0) && (suffixSize =? 0) then Got 0
  else if len s <? prefixSize + suffixSize then Undefined
  else if len s - prefixSize - suffixSize =? 0 then idError s (b_ "is invalid")
  else
    r <~ validateLoopT s (firstn (N.to_nat (len s - suffixSize - prefixSize))
                           (skipn (N.to_nat prefixSize) s)) true 0 ;;
    if (negb (prefixSize =? 0) || negb (suffixSize =? 0)) && (r =? 0)
    then idError s (b_ "can't be zero") else Got r.
(** MorohashiId.cpp:29-34 *)
Definition getIdT (s : bytes) : res N :=
  if isDoublePrime s then validateT s 0 2
  else if isPrime s then validateT s 0 1
  else if isSupplemental s then validateT s 1 0
  else validateT s 0 0.
(** MorohashiId.cpp:26-27 *)
Definition newMorohashiT (s : bytes) : res (N * IdType) := i <~ getIdT s ;; Got (i, getIdType s).

(** ** Strokes *)
(** Strokes.cpp:8-11 *)
Definition rangeError {A} (value : N) (msg : bytes) : res A :=
  Says RangeError (msg ++ b_ "strokes '" ++ to_string value ++ b_ "' out of range").
(** Strokes.cpp:15-17 *)
Definition newStrokesT (value : N) : res (N * N) :=
  if (value =? 0) || (MaxStrokes <? value) then rangeError value [] else Got (value, 0).
(** Strokes.cpp:19-25 *)
Definition newStrokes2T (value variant : N) : res (N * N) :=
  if (value <? 2) || (MaxStrokes <? value) then rangeError value []
  else if (variant <? 3) || (MaxVariant <? variant) then rangeError variant (b_ "variant ")
  else if value =? variant then Says DomainError (b_ "strokes and variant strokes are the same '" ++ to_string value ++ b_ "'")
  else Got (value, variant).

(** ** The Kanji argument *)
(** QuizLauncher.cpp:291-296 *)
Definition getNumericIdT (msg arg : bytes) : res N :=
  match readU16 arg with Some (v, _) => Got v | None => Says DomainError (b_ "invalid " ++ msg ++ b_ " '" ++ arg ++ b_ "'") end.

Section Arg.
(** what() of exceptions thrown while details are printed *)
Variable stdWhat : exn -> bytes.
Variable sort : list Kanji -> list Kanji.
Variables (d : Data) (ucd : UcdData) (gd : GroupData) (jd : JukugoData).
(** QuizLauncher.cpp:315-344 *)
Definition processKanjiArgT (arg : bytes) : res bytes :=
  if allDigits arg then
    f <~ getNumericIdT (b_ "frequency") arg ;;
    k <~ withText stdWhat (findByFrequency d f) ;;
    match k with
    | Some k => withText stdWhat (printDetails sort d ucd gd jd (kName k) true)
    | None => Says DomainError (b_ "Kanji not found for frequency '" ++ arg ++ b_ "'")
    end
  else if starts_with arg (b_ "m") then
    id <~ newMorohashiT (tl arg) ;;
    withText stdWhat (printList sort d ucd gd jd (findByMorohashiId d id) (b_ "Morohashi") (morohashiToString id))
  else if starts_with arg (b_ "n") then
    let id := tl arg in
    if (match id with [] => true | _ => false end) || negb (allDigits id)
    then Says DomainError (b_ "Nelson ID '" ++ id ++ b_ "' is non-numeric")
    else n <~ getNumericIdT (b_ "Nelson ID") id ;; withText stdWhat (printList sort d ucd gd jd (findByNelsonId d n) (b_ "Nelson") id)
  else if starts_with arg (b_ "u") then
    let id := tl arg in
    if (len id <? 4) || (5 <? len id)
       || ((len id =? 5) && negb (hd 0 id =? 49) && negb (hd 0 id =? 50))
       || negb (forallb ishexnumber id) then Says DomainError (b_ "Unicode value '" ++ id ++ b_ "' is invalid")
    else s <~ withText stdWhat (toUtf8_code (stoiHex id)) ;; withText stdWhat (printDetails sort d ucd gd jd s true)
  else
    k <~ withText stdWhat (isKanji arg true) ;;
    if k : bool then withText stdWhat (printDetails sort d ucd gd jd arg true)
    else Says DomainError (b_ "unrecognized 'kanji' value '" ++ arg ++ b_ "', use -h for help").
End Arg.
