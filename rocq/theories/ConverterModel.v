(** Model of libs/kana/src/Converter.cpp and libs/kana/include/kt_kana/Converter.h.

    In [processKana(first) + processKanaMacron(second)] (Converter.cpp:262-263) both calls
    change [prevKana] and C++ leaves their order open; the parameter [ltr] says whether the
    left one runs first. *)
From Verif Require Export StringModel Utf8CharModel.
Open Scope N_scope.

(** ** Tokens *)
(** Converter.cpp:28-50 populateDelimLists *)
Definition Delims : list (N * bytes) := Eval vm_compute in
  [(32, b_ "　"); (33, b_ "！"); (34, b_ "”"); (35, b_ "＃"); (36, b_ "＄"); (37, b_ "％");
   (38, b_ "＆"); (40, b_ "（"); (41, b_ "）"); (42, b_ "＊"); (43, b_ "＋"); (44, b_ "、");
   (46, b_ "。"); (47, b_ "・"); (48, b_ "０"); (49, b_ "１"); (50, b_ "２"); (51, b_ "３");
   (52, b_ "４"); (53, b_ "５"); (54, b_ "６"); (55, b_ "７"); (56, b_ "８"); (57, b_ "９"); (58, b_ "：");
   (59, b_ "；"); (60, b_ "＜"); (61, b_ "＝"); (62, b_ "＞"); (63, b_ "？"); (64, b_ "＠");
   (91, b_ "「"); (92, b_ "￥"); (93, b_ "」"); (94, b_ "＾"); (95, b_ "＿"); (96, b_ "｀");
   (123, b_ "『"); (124, b_ "｜"); (125, b_ "』"); (126, b_ "〜")].
(** Converter.h:92 *)
Definition Apostrophe : N := 39.
Definition Dash : N := 45.
Definition narrowDelimList : list N := Apostrophe :: Dash :: map fst Delims.
(** the two maps: lookups *)
Fixpoint narrowFind (d : list (N * bytes)) (c : N) : option bytes :=
  match d with [] => None | (n, w) :: r => if n =? c then Some w else narrowFind r c end.
Fixpoint wideFind (d : list (N * bytes)) (s : bytes) : option N :=
  match d with [] => None | (n, w) :: r => if beq w s then Some n else wideFind r s end.

(** Converter.cpp:10-26, the sets filled by the constructor *)
Definition hiraKana : list KanaData := map (fun p => kd (snd p)) HiraganaMap.
Definition isAfterN (k : KanaData) : bool :=
  negb (startsWith (romaji k) (b_ "n"))
  && ((len (romaji k) =? 1) || beq (romaji k) (b_ "ya") || beq (romaji k) (b_ "yu") || beq (romaji k) (b_ "yo")).
Definition isSmallKana (k : KanaData) : bool :=
  negb (startsWith (romaji k) (b_ "n")) && negb (isAfterN k) && startsWith (romaji k) (b_ "l")
  && negb (kanaEq k SmallTsu) && negb (startsWith (romaji k) (b_ "lk")).
Definition isOtherKana (k : KanaData) : bool :=
  negb (startsWith (romaji k) (b_ "n")) && negb (isAfterN k) && negb (startsWith (romaji k) (b_ "l")).
Definition afterNHiragana : list bytes := Eval vm_compute in map hira (filter isAfterN hiraKana).
Definition afterNKatakana : list bytes := Eval vm_compute in map kata (filter isAfterN hiraKana).
Definition smallHiragana : list bytes := Eval vm_compute in map hira (filter isSmallKana hiraKana).
Definition smallKatakana : list bytes := Eval vm_compute in map kata (filter isSmallKana hiraKana).
Definition repeatingConsonants : list N := Eval vm_compute in
  nodup N.eq_dec (map (fun k => nth 0 (romaji k) 0) (filter isOtherKana hiraKana)).
(** Converter.h:103-108 *)
Definition afterN (t : CharType) : list bytes := if ctEqb t Hiragana then afterNHiragana else afterNKatakana.
Definition smallKana (t : CharType) : list bytes := if ctEqb t Hiragana then smallHiragana else smallKatakana.
Definition containsS (l : list bytes) (s : bytes) : bool := existsb (beq s) l.
Definition containsN (l : list N) (c : N) : bool := existsb (N.eqb c) l.

Section Converter.
(** Converter.h:196-197, the members *)
Variable target : CharType.
Variable flags : ConvertFlags.
Variable ltr : bool.

(** Converter.cpp:161-171 *)
Definition romajiTarget : bool := ctEqb target Romaji.
Definition hiraganaTarget : bool := ctEqb target Hiragana.
Definition cget (k : KanaData) : bytes := getKana k target flags.
Definition getN : bytes := cget KanaN.
Definition getSmallTsu : bytes := cget SmallTsu.
(** Converter.cpp:173 *)
Definition isN (x : bytes) : bool := beq x (b_ "n") || beq x (b_ "N").

(** Converter.cpp:278-295 processKanaMacron: the result and the new [prevKana] *)
Definition macronOf (c : N) : option bytes :=
  if c =? 97 then Some (b_ "ā") else if c =? 105 then Some (b_ "ī") else if c =? 117 then Some (b_ "ū")
  else if c =? 101 then Some (b_ "ē") else if c =? 111 then Some (b_ "ō") else None.
Definition processKanaMacron (prolong : bool) (prev : option Kana) (k : Kana) (sokuon : bool) : bytes * option Kana :=
  let result := if sokuon then getSokuonRomaji (kd k) flags else cget (kd k) in
  if prolong then
    if negb romajiTarget then (result ++ ProlongMark, prev)
    else match macronOf (List.last result 0) with
         | Some m => (removelast result ++ m, prev)
         | None => (result ++ ProlongMark, prev)
         end
  else (result, Some k).

(** Converter.cpp:247-276 processKana; [processKana1] is the recursive call on one Kana *)
Definition processKana1 (source : CharType) (group : bytes) : bytes * option Kana :=
  match mapFind (getMap source) group with
  | Some k => processKanaMacron false None k false
  | None => (group, None)
  end.
Definition processKana (source : CharType) (group : bytes) (prev : option Kana) (prolong : bool)
  : bytes * option Kana :=
  match group with
  | [] => (if prolong then ProlongMark else [], prev)
  | _ =>
      match mapFind (getMap source) group with
      | Some k => processKanaMacron prolong None k false
      | None =>
          if 3 <? len group then
            let firstKana := firstn 3 group in
            match mapFind (getMap source) (skipn 3 group) with
            | Some k =>
                if romajiTarget && containsKana SmallTsu firstKana
                   && containsN repeatingConsonants (nth 0 (romaji (kd k)) 0)
                then processKanaMacron prolong None k true
                else
                  if ltr then
                    let '(a, p1) := processKana1 source firstKana in
                    let '(b, p2) := processKanaMacron prolong p1 k false in
                    (a ++ b, p2)
                  else
                    let '(b, _) := processKanaMacron prolong None k false in
                    let '(a, p1) := processKana1 source firstKana in
                    (a ++ b, p1)
            | None =>
                let '(a, p1) := processKana1 source firstKana in
                (a ++ skipn 3 group, p1)
            end
          else (group, None)
      end
  end.

(** Converter.h:175 *)
Inductive FState := SNew | SSmallTsu | SDone.
(** the local variables of fromKana, Converter.cpp:175-178 *)
Record FK := { fkResult : bytes; fkGroup : bytes; fkState : FState; fkPrev : option Kana }.

(** Converter.cpp:182-191, the lambda [done]; [dt] is NewGroup, NewEmptyGroup or Prolong *)
Inductive DoneType := NewGroup | NewEmptyGroup | DProlong.
Definition doneKana (source : CharType) (st : FK) (kana : bytes) (dt : DoneType) (ns : FState) : FK :=
  let '(r, p) := processKana source (fkGroup st) (fkPrev st) (match dt with DProlong => true | _ => false end) in
  let apos := if romajiTarget && containsKana KanaN (fkGroup st) && containsS (afterN source) kana
              then [Apostrophe] else [] in
  {| fkResult := fkResult st ++ r ++ apos;
     fkGroup := match dt with NewGroup => kana | _ => [] end;
     fkState := ns; fkPrev := p |}.
Definition addResult (st : FK) (s : bytes) : FK :=
  {| fkResult := fkResult st ++ s; fkGroup := fkGroup st; fkState := fkState st; fkPrev := fkPrev st |}.
Definition addGroup (st : FK) (s : bytes) (ns : FState) : FK :=
  {| fkResult := fkResult st; fkGroup := fkGroup st ++ s; fkState := ns; fkPrev := fkPrev st |}.

(** Converter.cpp:218-245 processOneKana with the [kanaGroup += kana] of its caller (203) *)
Definition processOneKana (source : CharType) (st : FK) (kana : bytes) : FK :=
  if containsKana SmallTsu kana then doneKana source st kana NewGroup SSmallTsu
  else if containsKana KanaN kana then doneKana source st kana NewGroup SDone
  else
    match fkState st with
    | SDone => doneKana source st kana NewGroup SNew
    | s =>
        if containsS (smallKana source) kana then addGroup st kana SDone
        else if len (fkGroup st) <=? (match s with SSmallTsu => 3 | _ => 0 end) then addGroup st kana s
        else doneKana source st kana NewGroup SNew
    end.

(** Converter.cpp:193-214, the body of the loop *)
Definition fromKanaStep (source : CharType) (st : FK) (kana : bytes) : FK :=
  if beq kana ProlongMark then doneKana source st kana DProlong SNew
  else match findIterationMark source kana with
  | Some m =>
      let st' := doneKana source st kana NewEmptyGroup SNew in
      addResult st' (markGet m target flags (fkPrev st'))
  | None =>
      match mapFind (getMap source) kana with
      | Some _ => processOneKana source st kana
      | None =>
          let st' := doneKana source st kana NewEmptyGroup SNew in
          match (if romajiTarget then wideFind Delims kana else None) with
          | Some d => addResult st' [d]
          | None => addResult st' kana
          end
      end
  end.
Definition fkInit : FK := {| fkResult := []; fkGroup := []; fkState := SNew; fkPrev := None |}.
(** Converter.cpp:215 *)
Definition fkEnd (source : CharType) (st : FK) : bytes :=
  fkResult st ++ fst (processKana source (fkGroup st) (fkPrev st) false).
(** Converter.cpp:175-216 fromKana *)
Definition fromKana (input : bytes) (source : CharType) : out bytes :=
  '(ts, _) <- allChars input false ;;
  Val (fkEnd source (fold_left (fromKanaStep source) ts fkInit)).

(** Converter.cpp:330-350 processRomaji: what is added to [result], and the new [letters] *)
Definition firstOut (letters lower : bytes) : bytes :=
  if nth 0 lower 0 =? 110 then getN
  else if (nth 0 lower 0 =? nth 1 lower 0) || ((nth 0 lower 0 =? 116) && (nth 1 lower 0 =? 99)) then
    if containsN repeatingConsonants (nth 0 letters 0) then getSmallTsu else firstn 1 letters
  else firstn 1 letters.
Fixpoint processRomaji (letters : bytes) : bytes * bytes :=
  let lower := toLower letters in
  match mapFind RomajiMap lower with
  | Some k => (cget (kd k), [])
  | None =>
      match letters with
      | _ :: rest =>
          if len letters =? 3 then
            let '(r, l) := processRomaji rest in (firstOut letters lower ++ r, l)
          else ([], letters)
      | [] => ([], letters)
      end
  end.

(** Converter.cpp:352-379 processRomajiMacron *)
Definition Macrons : list (bytes * (N * bytes)) := Eval vm_compute in
  [(b_ "ā", (97, b_ "あ")); (b_ "ī", (105, b_ "い")); (b_ "ū", (117, b_ "う"));
   (b_ "ē", (101, b_ "え")); (b_ "ō", (111, b_ "お"))].
Fixpoint macronFind (m : list (bytes * (N * bytes))) (s : bytes) : option (N * bytes) :=
  match m with [] => None | (k, v) :: r => if beq k s then Some v else macronFind r s end.
(** letters and result: [Some (added, letters')] when [letter] is a vowel with a macron *)
Definition processRomajiMacron (letter letters : bytes) : option (bytes * bytes) :=
  match macronFind Macrons letter with
  | Some (v, kana) =>
      let '(r, l) := processRomaji (letters ++ [v]) in
      match l with
      | [] => Some (r ++ (if hiraganaTarget && hasFlag flags FlagNoProlongMark then kana else ProlongMark), [])
      | _ =>
          let '(r2, l2) := processRomaji [v] in
          Some (r ++ removelast l ++ r2, l2)
      end
  | None => None
  end.

(** Converter.cpp:297-317, one character of toKana: (result, letters) *)
Definition toKanaStep (st : bytes * bytes) (letter : bytes) : bytes * bytes :=
  let '(result, letters) := st in
  if isSingleByte letter true then
    if negb (isN letter) then
      let '(r, l) := processRomaji (letters ++ letter) in (result ++ r, l)
    else match letters with
         | [] => (result, letter)
         | _ => if isN letters then (result ++ getN, letters) else (result ++ letters, letter)
         end
  else match processRomajiMacron letter letters with
       | Some (r, l) => (result ++ r, l)
       | None => let '(r, l) := processRomaji letters in (result ++ r ++ letter, l)
       end.
(** Converter.cpp:318-326, the final loop *)
Fixpoint toKanaEnd (fuel : nat) (result letters : bytes) : out bytes :=
  match letters with
  | [] => Val result
  | x :: rest =>
      match fuel with
      | O => Fuel
      | S fuel' =>
          if isN letters then toKanaEnd fuel' (result ++ getN) []
          else
            let '(r, l) := processRomaji rest in
            toKanaEnd fuel' (result ++ [x] ++ r) l
      end
  end.
(** Converter.cpp:297-328 toKana *)
Definition toKana (input : bytes) : out bytes :=
  '(ts, _) <- allChars input false ;;
  let '(result, letters) := fold_left toKanaStep ts ([], []) in
  toKanaEnd (List.length letters) result letters.

(** Converter.cpp:122-138: input is cut at the narrow delimiters by a scan instead of
    repeated searches; [word] is the part since the last delimiter *)
Definition delimOut (d : N) : out bytes :=
  if negb (d =? Apostrophe) && negb (d =? Dash) && (negb (hasFlag flags FlagRemoveSpaces) || negb (d =? 32))
  then match narrowFind Delims d with Some w => Val w | None => Throw StdOutOfRange end
  else Val [].
Fixpoint fromRomaji (input word : bytes) : out bytes :=
  match input with
  | [] => toKana word
  | c :: rest =>
      if containsN narrowDelimList c then
        a <- toKana word ;;
        d <- delimOut c ;;
        b <- fromRomaji rest [] ;;
        Val (a ++ d ++ b)
      else fromRomaji rest (word ++ [c])
  end.
(** Converter.cpp:118-139 convert(CharType, const String&) *)
Definition convertFrom (source : CharType) (input : bytes) : out bytes :=
  if ctEqb source target then Val input
  else match source with
       | Romaji => fromRomaji input []
       | _ => fromKana input source
       end.
(** Converter.cpp:97-102 convert(const String&) *)
Definition convert (input : bytes) : out bytes :=
  a <- (if ctEqb target Hiragana then Val input else convertFrom Hiragana input) ;;
  b <- (if ctEqb target Katakana then Val a else convertFrom Katakana a) ;;
  (if ctEqb target Romaji then Val b else convertFrom Romaji b).
End Converter.

(** Converter.cpp:81-95 flagString *)
Definition flagString (flags : ConvertFlags) : bytes :=
  if flags =? FlagNone then b_ "None"
  else
    let add r f v := if hasFlag flags f then (match r with [] => [] | _ => r ++ b_ "|" end) ++ v else r in
    add (add (add (add [] FlagHepburn (b_ "Hepburn")) FlagKunrei (b_ "Kunrei"))
             FlagNoProlongMark (b_ "NoProlongMark")) FlagRemoveSpaces (b_ "RemoveSpaces").
