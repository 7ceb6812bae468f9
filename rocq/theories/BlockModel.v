(** Model of libs/utils/include/kt_utils/UnicodeBlock.h, libs/utils/src/UnicodeBlock.cpp,
    libs/utils/include/kt_utils/BlockRange.h and libs/utils/src/BlockRange.cpp.
    Versions and names of blocks are in NamedBlockModel. *)
From Verif Require Export Utf8Model.
Open Scope N_scope.

(** UnicodeBlock.h:21-106: first and last code point *)
Definition block := (N * N)%type.
(** UnicodeBlock.h:54-56 operator() *)
Definition inBlock (b : block) (x : N) : bool := (fst b <=? x) && (x <=? snd b).
(** UnicodeBlock.h:49-51 range *)
Definition blockRange (b : block) : N := snd b - fst b + 1.

(** UnicodeBlock.h:153-230 *)
Definition HiraganaBlocks : list block := [(0x3040, 0x309f)].
Definition KatakanaBlocks : list block := [(0x30a0, 0x30ff); (0x31f0, 0x31ff)].
Definition CommonKanaBlock : block := (0x3040, 0x30ff).
Definition CommonKanjiBlocks : list block :=
  [(0x3400, 0x4dbf); (0x4e00, 0x9fff); (0xf900, 0xfaff); (0x20000, 0x2a6df)].
Definition RareKanjiBlocks : list block :=
  [(0x2e80, 0x2eff); (0x2a700, 0x2ebef); (0x2f800, 0x2fa1f); (0x30000, 0x3134f)].
Definition PunctuationBlocks : list block :=
  [(0x2000, 0x206f); (0x3000, 0x303f); (0xfff0, 0xffff)].
Definition SymbolBlocks : list block :=
  [(0x2100, 0x214f); (0x2190, 0x21ff); (0x2200, 0x22ff); (0x2500, 0x257f); (0x25a0, 0x25ff);
   (0x2600, 0x26ff); (0x2ff0, 0x2fff); (0x3190, 0x319f); (0x31c0, 0x31ef)].
Definition LetterBlocks : list block :=
  [(0x0080, 0x00ff); (0x0100, 0x017f); (0x0180, 0x024f); (0x2150, 0x218f); (0x2460, 0x24ff);
   (0x2c60, 0x2c7f); (0xff00, 0xffef)].
Definition NonSpacingBlocks : list block := [(0xfe00, 0xfe0f)].

(** UnicodeBlock.h:236-244 inRange: the loop stops at the first block that starts
    after [c] *)
Fixpoint inRange1 (c : N) (t : list block) : bool :=
  match t with
  | [] => false
  | i :: r => if c <? fst i then false else if inBlock i c then true else inRange1 c r
  end.
(** UnicodeBlock.h:249-253 inRange with several arrays *)
Fixpoint inRange (c : N) (ts : list (list block)) : bool :=
  match ts with
  | [] => false
  | t :: r => inRange1 c t || inRange c r
  end.

(** Utf8.h:149-150 *)
Definition CombiningVoicedChar : N := 0x3099.
Definition CombiningSemiVoicedChar : N := 0x309a.
(** Utf8.h:145 *)
Definition MaxMBSize : N := 4.
(** UnicodeBlock.h:256-259 isNonSpacing *)
Definition isNonSpacing (c : N) : bool :=
  inRange1 c NonSpacingBlocks || (c =? CombiningVoicedChar) || (c =? CombiningSemiVoicedChar).

(** UnicodeBlock.h:264-282 inWCharRange(s, sizeOne, t...) *)
Definition inWCharRange (s : bytes) (sizeOne : bool) (ts : list (list block)) : out bool :=
  if 1 <? len s then
    if negb sizeOne then
      w <- fromUtf8 s 1 ;;
      Val (match w with [c] => inRange c ts | _ => false end)
    else if len s <=? MaxMBSize * 2 then
      w <- fromUtf8 s 3 ;;
      Val (match w with
           | [c] => inRange c ts
           | [c; d] => isNonSpacing d && inRange c ts
           | _ => false
           end)
    else Val false
  else Val false.

(** UnicodeBlock.h:285-296 inWCharRange(s, t...), the loop *)
Fixpoint allInRange (allowNonSpacing : bool) (w : list N) (ts : list (list block)) : bool :=
  match w with
  | [] => true
  | i :: r => if allowNonSpacing && isNonSpacing i then allInRange false r ts
              else if inRange i ts then allInRange true r ts
              else false
  end.
Definition inWCharRangeAll (s : bytes) (ts : list (list block)) : out bool :=
  w <- fromUtf8 s 0 ;; Val (allInRange false w ts).

(** UnicodeBlock.cpp:23-64 *)
Definition isKana s one := inWCharRange s one [HiraganaBlocks; KatakanaBlocks].
Definition isHiragana s one := inWCharRange s one [HiraganaBlocks].
Definition isKatakana s one := inWCharRange s one [KatakanaBlocks].
Definition isKanji s one := inWCharRange s one [CommonKanjiBlocks; RareKanjiBlocks].
Definition isCommonKanji s one := inWCharRange s one [CommonKanjiBlocks].
Definition isRareKanji s one := inWCharRange s one [RareKanjiBlocks].
Definition isMBSymbol s one := inWCharRange s one [SymbolBlocks].
Definition isMBLetter s one := inWCharRange s one [LetterBlocks].
Fixpoint startsWith (s p : bytes) : bool :=
  match p, s with
  | [], _ => true
  | x :: p', y :: s' => (x =? y) && startsWith s' p'
  | _, [] => false
  end.
Definition wideSpace : bytes := [0xE3; 0x80; 0x80].
Definition isMBPunctuation (s : bytes) (includeSpace one : bool) : out bool :=
  if startsWith s wideSpace then Val (includeSpace && ((len s <? 4) || negb one))
  else inWCharRange s one [PunctuationBlocks].
Definition RecognizedBlocks : list (list block) :=
  [HiraganaBlocks; CommonKanjiBlocks; RareKanjiBlocks; KatakanaBlocks; PunctuationBlocks;
   SymbolBlocks; LetterBlocks].
Definition isRecognizedUtf8 s one := inWCharRange s one RecognizedBlocks.

(** UnicodeBlock.cpp:68-99 *)
Definition isAllKana s := inWCharRangeAll s [HiraganaBlocks; KatakanaBlocks].
Definition isAllHiragana s := inWCharRangeAll s [HiraganaBlocks].
Definition isAllKatakana s := inWCharRangeAll s [KatakanaBlocks].
Definition isAllKanji s := inWCharRangeAll s [CommonKanjiBlocks; RareKanjiBlocks].
Definition isAllCommonKanji s := inWCharRangeAll s [CommonKanjiBlocks].
Definition isAllRareKanji s := inWCharRangeAll s [RareKanjiBlocks].
Definition isAllMBSymbol s := inWCharRangeAll s [SymbolBlocks].
Definition isAllMBLetter s := inWCharRangeAll s [LetterBlocks].
Definition isAllMBPunctuation s := inWCharRangeAll s [PunctuationBlocks].
Definition isAllRecognizedUtf8 s := inWCharRangeAll s RecognizedBlocks.

(** ** BlockRange: characters for a regex bracket expression *)

(** BlockRange.h:13-24 fill *)
Fixpoint fillRange (blocks : list block) : list N :=
  match blocks with
  | [] => []
  | b :: r => fst b :: 0x2D :: snd b :: fillRange r
  end.
(** BlockRange.h:63 the array, which ends with a NUL *)
Definition rangeArray (blocks : list block) : list N := fillRange blocks ++ [0].
(** BlockRange.h:58, 61 size *)
Definition rangeSize (blocks : list block) : N := len blocks * 3.
(** BlockRange.h:53-55 operator[] with BlockRange.cpp:6-12 checkIndex *)
Definition rangeAt (blocks : list block) (i : N) : out N :=
  if rangeSize blocks <? i then Throw RangeError
  else match nth_error (rangeArray blocks) (N.to_nat i) with Some c => Val c | None => Ub end.

(** BlockRange.h:76-91 *)
Definition blockAt (t : list block) (i : nat) : block := nth i t (0, 0).
Definition KanjiRange : list block :=
  [blockAt CommonKanjiBlocks 0; blockAt CommonKanjiBlocks 1; blockAt CommonKanjiBlocks 2;
   blockAt CommonKanjiBlocks 3; blockAt NonSpacingBlocks 0; blockAt RareKanjiBlocks 0;
   blockAt RareKanjiBlocks 1; blockAt RareKanjiBlocks 2; blockAt RareKanjiBlocks 3].
Definition WideLetterRange : list block := [blockAt LetterBlocks 6].
Definition HiraganaRange : list block := [blockAt HiraganaBlocks 0].
Definition KatakanaRange : list block := [blockAt KatakanaBlocks 0; blockAt KatakanaBlocks 1].
Definition KanaRange : list block := [CommonKanaBlock; blockAt KatakanaBlocks 1].
