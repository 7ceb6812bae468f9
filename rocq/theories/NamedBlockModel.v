(** Model of the names and versions of blocks in libs/utils/include/kt_utils/UnicodeBlock.h and of how
    blocks are written in libs/utils/src/UnicodeBlock.cpp. *)
From Verif Require Export BlockModel StringModel.
Open Scope N_scope.

(** UnicodeBlock.h:24-45: Version, the name, month and year *)
Record Version := MkVersion { vName : bytes; vMonth : N; vYear : N }.
(** UnicodeBlock.h:102-105: the members of a UnicodeBlock *)
Record NBlock := MkNBlock { nRange : block; nVersion : option Version; nName : bytes }.
(** UnicodeBlock.h:82-85 checkRange and 87-90 checkLess; [None] of the functions below is a failed static_assert *)
Definition checkRange (s e : N) : bool := (MaxAscii <? s) && (e <=? MaxUnicode).
Definition checkLess (s e : N) : bool := checkRange s e && (s <? e).
(** UnicodeBlock.h:115-118 makeBlock of one code; only the start is checked, [End] is the same by default *)
Definition makeOne (s : N) : option NBlock := if checkRange s s then Some (MkNBlock (s, s) None []) else None.
(** UnicodeBlock.h:127-130 *)
Definition makeUnofficial (s e : N) : option NBlock := if checkLess s e then Some (MkNBlock (s, e) None []) else None.
(** UnicodeBlock.h:134-143 *)
Definition makeOfficial (s e : N) (v : Version) (n : bytes) : option NBlock :=
  if checkLess s e && (s mod 16 =? 0) && (e mod 16 =? 15) then Some (MkNBlock (s, e) (Some v) n) else None.

(** UnicodeBlock.h:146-150 *)
Definition UVer1_0 := MkVersion (b_ "1.0") 10 1991.
Definition UVer1_1 := MkVersion (b_ "1.1") 6 1993.
Definition UVer2_0 := MkVersion (b_ "2.0") 7 1996.
Definition UVer3_0 := MkVersion (b_ "3.0") 9 1999.
Definition UVer3_1 := MkVersion (b_ "3.1") 3 2001.
Definition UVer3_2 := MkVersion (b_ "3.2") 3 2002.
Definition UVer4_1 := MkVersion (b_ "4.1") 3 2005.
Definition UVer5_0 := MkVersion (b_ "5.0") 7 2006.
Definition UVer5_2 := MkVersion (b_ "5.2") 10 2009.
Definition UVer13_0 := MkVersion (b_ "13.0") 3 2020.

(** UnicodeBlock.h:153-230: the arguments of makeBlock for each table *)
Definition args := (N * N * Version * bytes)%type.
Definition HiraganaArgs : list args :=
  [(0x3040, 0x309f, UVer1_1, b_ "Hiragana")].
Definition KatakanaArgs : list args :=
  [(0x30a0, 0x30ff, UVer1_1, b_ "Katakana");
   (0x31f0, 0x31ff, UVer3_2, b_ "Katakana Phonetic Extension")].
Definition CommonKanjiArgs : list args :=
  [(0x3400, 0x4dbf, UVer3_0, b_ "CJK Extension A");
   (0x4e00, 0x9fff, UVer1_1, b_ "CJK Unified Ideographs");
   (0xf900, 0xfaff, UVer1_1, b_ "CJK Compat. Ideographs");
   (0x20000, 0x2a6df, UVer3_1, b_ "CJK Extension B")].
Definition RareKanjiArgs : list args :=
  [(0x2e80, 0x2eff, UVer3_0, b_ "Radicals Supp.");
   (0x2a700, 0x2ebef, UVer5_2, b_ "CJK Extension C-F");
   (0x2f800, 0x2fa1f, UVer3_1, b_ "CJK Compat. Supp.");
   (0x30000, 0x3134f, UVer13_0, b_ "CJK Extension G")].
Definition PunctuationArgs : list args :=
  [(0x2000, 0x206f, UVer1_1, b_ "General Punctuation");
   (0x3000, 0x303f, UVer1_1, b_ "CJK Symbols and Punctuation");
   (0xfff0, 0xffff, UVer1_1, b_ "Specials")].
Definition SymbolArgs : list args :=
  [(0x2100, 0x214f, UVer1_1, b_ "Letter like Symbols");
   (0x2190, 0x21ff, UVer1_1, b_ "Arrows");
   (0x2200, 0x22ff, UVer1_1, b_ "Mathematical Operators");
   (0x2500, 0x257f, UVer1_1, b_ "Box Drawing");
   (0x25a0, 0x25ff, UVer1_1, b_ "Geometric Shapes");
   (0x2600, 0x26ff, UVer1_1, b_ "Miscellaneous Symbols");
   (0x2ff0, 0x2fff, UVer3_0, b_ "CJK Ideographic Desc. Chars");
   (0x3190, 0x319f, UVer1_1, b_ "Kanbun (Annotations)");
   (0x31c0, 0x31ef, UVer4_1, b_ "CJK Strokes")].
Definition LetterArgs : list args :=
  [(0x0080, 0x00ff, UVer1_1, b_ "Latin-1 Supplement");
   (0x0100, 0x017f, UVer1_1, b_ "Latin Extended-A");
   (0x0180, 0x024f, UVer1_1, b_ "Latin Extended-B");
   (0x2150, 0x218f, UVer1_1, b_ "Number Forms");
   (0x2460, 0x24ff, UVer1_1, b_ "Enclosed Alphanumerics");
   (0x2c60, 0x2c7f, UVer5_0, b_ "Latin Extended-C");
   (0xff00, 0xffef, UVer1_1, b_ "Halfwidth and Fullwidth Forms")].
Definition NonSpacingArgs : list args :=
  [(0xfe00, 0xfe0f, UVer3_2, b_ "Variation Selectors")].
Definition CommonKanaArgs : args := (0x3040, 0x30ff, UVer1_1, b_ "Kana").
Definition made (a : args) : option NBlock := let '(s, e, v, n) := a in makeOfficial s e v n.

(** UnicodeBlock.cpp:5-10 operator<< of a Version *)
Definition writeVersion (v : Version) : bytes := b_ "v" ++ vName v ++ b_ ": " ++ to_string (vMonth v) ++ b_ ", " ++ to_string (vYear v).
(** UnicodeBlock.cpp:12-19 operator<< of a block *)
Definition writeBlock (b : NBlock) : out bytes :=
  t <- match nName b with
       | [] => s <- toUnicode (fst (nRange b)) NoBrackets ;; e <- toUnicode (snd (nRange b)) NoBrackets ;; Val (b_ "start=" ++ s ++ b_ ", end=" ++ e)
       | n => Val n
       end ;;
  Val (t ++ match nVersion b with Some v => b_ " (" ++ writeVersion v ++ b_ ")" | None => [] end).
