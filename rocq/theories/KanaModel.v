(** Model of libs/kana/src/Kana.cpp, libs/kana/include/kt_kana/Kana.h and KanaEnums.h.
    Kana objects are plain data here: a pointer to a Kana is the Kana itself, and an
    object carries copies of the accented and plain Kana it is linked to. *)
From Verif Require Export BlockModel.
Open Scope N_scope.

(** KanaEnums.h:11-15 *)
Inductive CharType := Hiragana | Katakana | Romaji.
Definition ctEqb (a b : CharType) : bool :=
  match a, b with
  | Hiragana, Hiragana | Katakana, Katakana | Romaji, Romaji => true
  | _, _ => false
  end.
(** KanaEnums.h:60-66; Bitmask.h:28-30, 64-66 *)
Definition ConvertFlags := N.
Definition FlagNone : ConvertFlags := 0.
Definition FlagHepburn : ConvertFlags := 1.
Definition FlagKunrei : ConvertFlags := 2.
Definition FlagNoProlongMark : ConvertFlags := 4.
Definition FlagRemoveSpaces : ConvertFlags := 8.
Definition hasFlag (flags f : ConvertFlags) : bool := negb (N.land flags f =? 0).

(** Kana.h:61-97 RomajiVariants *)
Record RomajiVariants := V { vList : list bytes; vKunrei : bool }.
(** Kana.h:257-273, the data members of Kana *)
Record KanaData := {
  romaji : bytes; hira : bytes; kata : bytes;
  hepburn : option bytes; kunrei : option bytes; variants : RomajiVariants }.
(** Kana.cpp:379-415, the constructors *)
Definition K3 (r h k : bytes) : KanaData :=
  {| romaji := r; hira := h; kata := k; hepburn := None; kunrei := None; variants := V [] false |}.
Definition K5 (r h k hep kun : bytes) : KanaData :=
  {| romaji := r; hira := h; kata := k; hepburn := Some hep; kunrei := Some kun; variants := V [] false |}.
Definition KV (r h k : bytes) (v : RomajiVariants) : KanaData :=
  {| romaji := r; hira := h; kata := k; hepburn := None; kunrei := None; variants := v |}.

(** Kana.cpp:20-70 KanaList *)
Definition KanaList : list KanaData :=
  [ K3 (b_ "a") (b_ "あ") (b_ "ア")
  ; K3 (b_ "na") (b_ "な") (b_ "ナ")
  ; K3 (b_ "ma") (b_ "ま") (b_ "マ")
  ; K3 (b_ "ya") (b_ "や") (b_ "ヤ")
  ; K3 (b_ "ra") (b_ "ら") (b_ "ラ")
  ; K3 (b_ "wa") (b_ "わ") (b_ "ワ")
  ; K3 (b_ "qwa") (b_ "くゎ") (b_ "クヮ")
  ; K3 (b_ "swa") (b_ "すぁ") (b_ "スァ")
  ; K3 (b_ "tsa") (b_ "つぁ") (b_ "ツァ")
  ; K3 (b_ "nya") (b_ "にゃ") (b_ "ニャ")
  ; KV (b_ "fa") (b_ "ふぁ") (b_ "ファ") (V [b_ "fwa"; b_ "hwa"] false)
  ; K3 (b_ "fya") (b_ "ふゃ") (b_ "フャ")
  ; K3 (b_ "mya") (b_ "みゃ") (b_ "ミャ")
  ; K3 (b_ "rya") (b_ "りゃ") (b_ "リャ")
  ; K3 (b_ "i") (b_ "い") (b_ "イ")
  ; K3 (b_ "ni") (b_ "に") (b_ "ニ")
  ; K3 (b_ "mi") (b_ "み") (b_ "ミ")
  ; K3 (b_ "ri") (b_ "り") (b_ "リ")
  ; K5 (b_ "wyi") (b_ "ゐ") (b_ "ヰ") (b_ "i") (b_ "i")
  ; K3 (b_ "swi") (b_ "すぃ") (b_ "スィ")
  ; K3 (b_ "tsi") (b_ "つぃ") (b_ "ツィ")
  ; K3 (b_ "nyi") (b_ "にぃ") (b_ "ニィ")
  ; KV (b_ "fi") (b_ "ふぃ") (b_ "フィ") (V [b_ "fyi"; b_ "fwi"; b_ "hwi"] false)
  ; K3 (b_ "myi") (b_ "みぃ") (b_ "ミィ")
  ; K3 (b_ "ryi") (b_ "りぃ") (b_ "リィ")
  ; K3 (b_ "nu") (b_ "ぬ") (b_ "ヌ")
  ; K3 (b_ "mu") (b_ "む") (b_ "ム")
  ; K3 (b_ "yu") (b_ "ゆ") (b_ "ユ")
  ; K3 (b_ "ru") (b_ "る") (b_ "ル")
  ; K3 (b_ "swu") (b_ "すぅ") (b_ "スゥ")
  ; K3 (b_ "nyu") (b_ "にゅ") (b_ "ニュ")
  ; K3 (b_ "fwu") (b_ "ふぅ") (b_ "フゥ")
  ; K3 (b_ "fyu") (b_ "ふゅ") (b_ "フュ")
  ; K3 (b_ "myu") (b_ "みゅ") (b_ "ミュ")
  ; K3 (b_ "ryu") (b_ "りゅ") (b_ "リュ")
  ; K3 (b_ "e") (b_ "え") (b_ "エ")
  ; K3 (b_ "ne") (b_ "ね") (b_ "ネ")
  ; K3 (b_ "me") (b_ "め") (b_ "メ")
  ; K3 (b_ "re") (b_ "れ") (b_ "レ")
  ; K5 (b_ "wye") (b_ "ゑ") (b_ "ヱ") (b_ "e") (b_ "e")
  ; K3 (b_ "ye") (b_ "いぇ") (b_ "イェ")
  ; K3 (b_ "swe") (b_ "すぇ") (b_ "スェ")
  ; K3 (b_ "tse") (b_ "つぇ") (b_ "ツェ")
  ; K3 (b_ "nye") (b_ "にぇ") (b_ "ニェ")
  ; KV (b_ "fe") (b_ "ふぇ") (b_ "フェ") (V [b_ "fye"; b_ "fwe"; b_ "hwe"] false)
  ; K3 (b_ "mye") (b_ "みぇ") (b_ "ミェ")
  ; K3 (b_ "rye") (b_ "りぇ") (b_ "リェ")
  ; K3 (b_ "o") (b_ "お") (b_ "オ")
  ; K3 (b_ "no") (b_ "の") (b_ "ノ")
  ; K3 (b_ "mo") (b_ "も") (b_ "モ")
  ; K3 (b_ "yo") (b_ "よ") (b_ "ヨ")
  ; K3 (b_ "ro") (b_ "ろ") (b_ "ロ")
  ; K5 (b_ "wo") (b_ "を") (b_ "ヲ") (b_ "o") (b_ "o")
  ; K3 (b_ "swo") (b_ "すぉ") (b_ "スォ")
  ; K3 (b_ "tso") (b_ "つぉ") (b_ "ツォ")
  ; K3 (b_ "nyo") (b_ "にょ") (b_ "ニョ")
  ; KV (b_ "fo") (b_ "ふぉ") (b_ "フォ") (V [b_ "fwo"; b_ "hwo"] false)
  ; K3 (b_ "fyo") (b_ "ふょ") (b_ "フョ")
  ; K3 (b_ "myo") (b_ "みょ") (b_ "ミョ")
  ; K3 (b_ "ryo") (b_ "りょ") (b_ "リョ")
  ; K3 (b_ "va") (b_ "ゔぁ") (b_ "ヴァ")
  ; K3 (b_ "vo") (b_ "ゔぉ") (b_ "ヴォ")
  ; K3 (b_ "vya") (b_ "ゔゃ") (b_ "ヴャ")
  ; K3 (b_ "vyu") (b_ "ゔゅ") (b_ "ヴュ")
  ; K3 (b_ "vyo") (b_ "ゔょ") (b_ "ヴョ")
  ; KV (b_ "la") (b_ "ぁ") (b_ "ァ") (V [b_ "xa"] false)
  ; KV (b_ "li") (b_ "ぃ") (b_ "ィ") (V [b_ "xi"] false)
  ; KV (b_ "lu") (b_ "ぅ") (b_ "ゥ") (V [b_ "xu"] false)
  ; KV (b_ "le") (b_ "ぇ") (b_ "ェ") (V [b_ "xe"; b_ "lye"; b_ "xye"] false)
  ; KV (b_ "lo") (b_ "ぉ") (b_ "ォ") (V [b_ "xo"] false)
  ; KV (b_ "lka") (b_ "ゕ") (b_ "ヵ") (V [b_ "xka"] false)
  ; KV (b_ "lke") (b_ "ゖ") (b_ "ヶ") (V [b_ "xke"] false)
  ; KV (b_ "lya") (b_ "ゃ") (b_ "ャ") (V [b_ "xya"] false)
  ; KV (b_ "lyu") (b_ "ゅ") (b_ "ュ") (V [b_ "xyu"] false)
  ; KV (b_ "lyo") (b_ "ょ") (b_ "ョ") (V [b_ "xyo"] false)
  ; KV (b_ "lwa") (b_ "ゎ") (b_ "ヮ") (V [b_ "xwa"] false)
  ; KV (b_ "ltu") (b_ "っ") (b_ "ッ") (V [b_ "xtu"] false)
  ; K3 (b_ "n") (b_ "ん") (b_ "ン") ].

(** Kana.cpp:74-137 DakutenKanaList: the voiced version, then the plain one *)
Definition DakutenKanaList : list (KanaData * KanaData) :=
  [ (K3 (b_ "ga") (b_ "が") (b_ "ガ"), K3 (b_ "ka") (b_ "か") (b_ "カ"))
  ; (K3 (b_ "za") (b_ "ざ") (b_ "ザ"), K3 (b_ "sa") (b_ "さ") (b_ "サ"))
  ; (K3 (b_ "da") (b_ "だ") (b_ "ダ"), K3 (b_ "ta") (b_ "た") (b_ "タ"))
  ; (K3 (b_ "gya") (b_ "ぎゃ") (b_ "ギャ"), K3 (b_ "kya") (b_ "きゃ") (b_ "キャ"))
  ; (K3 (b_ "gwa") (b_ "ぐぁ") (b_ "グァ"), KV (b_ "qa") (b_ "くぁ") (b_ "クァ") (V [b_ "kwa"] false))
  ; (KV (b_ "ja") (b_ "じゃ") (b_ "ジャ") (V [b_ "zya"; b_ "jya"] true), KV (b_ "sha") (b_ "しゃ") (b_ "シャ") (V [b_ "sya"] true))
  ; (K5 (b_ "dya") (b_ "ぢゃ") (b_ "ヂャ") (b_ "ja") (b_ "zya"), KV (b_ "cha") (b_ "ちゃ") (b_ "チャ") (V [b_ "tya"] true))
  ; (K3 (b_ "dha") (b_ "でゃ") (b_ "デャ"), K3 (b_ "tha") (b_ "てゃ") (b_ "テャ"))
  ; (K3 (b_ "dwa") (b_ "どぁ") (b_ "ドァ"), K3 (b_ "twa") (b_ "とぁ") (b_ "トァ"))
  ; (K3 (b_ "gi") (b_ "ぎ") (b_ "ギ"), K3 (b_ "ki") (b_ "き") (b_ "キ"))
  ; (KV (b_ "ji") (b_ "じ") (b_ "ジ") (V [b_ "zi"] true), KV (b_ "shi") (b_ "し") (b_ "シ") (V [b_ "si"] true))
  ; (K5 (b_ "di") (b_ "ぢ") (b_ "ヂ") (b_ "ji") (b_ "zi"), KV (b_ "chi") (b_ "ち") (b_ "チ") (V [b_ "ti"] true))
  ; (K3 (b_ "vi") (b_ "ゔぃ") (b_ "ヴィ"), K3 (b_ "wi") (b_ "うぃ") (b_ "ウィ"))
  ; (K3 (b_ "gwi") (b_ "ぐぃ") (b_ "グィ"), KV (b_ "qi") (b_ "くぃ") (b_ "クィ") (V [b_ "kwi"; b_ "qwi"] false))
  ; (K3 (b_ "gyi") (b_ "ぎぃ") (b_ "ギィ"), K3 (b_ "kyi") (b_ "きぃ") (b_ "キィ"))
  ; (KV (b_ "jyi") (b_ "じぃ") (b_ "ジィ") (V [b_ "zyi"] false), K3 (b_ "syi") (b_ "しぃ") (b_ "シィ"))
  ; (K3 (b_ "dyi") (b_ "ぢぃ") (b_ "ヂィ"), K3 (b_ "tyi") (b_ "ちぃ") (b_ "チィ"))
  ; (K3 (b_ "dwi") (b_ "どぃ") (b_ "ドィ"), K3 (b_ "twi") (b_ "とぃ") (b_ "トィ"))
  ; (K3 (b_ "dhi") (b_ "でぃ") (b_ "ディ"), K3 (b_ "thi") (b_ "てぃ") (b_ "ティ"))
  ; (K3 (b_ "vu") (b_ "ゔ") (b_ "ヴ"), KV (b_ "u") (b_ "う") (b_ "ウ") (V [b_ "wu"] false))
  ; (K3 (b_ "gu") (b_ "ぐ") (b_ "グ"), K3 (b_ "ku") (b_ "く") (b_ "ク"))
  ; (K3 (b_ "zu") (b_ "ず") (b_ "ズ"), K3 (b_ "su") (b_ "す") (b_ "ス"))
  ; (K5 (b_ "du") (b_ "づ") (b_ "ヅ") (b_ "zu") (b_ "zu"), KV (b_ "tsu") (b_ "つ") (b_ "ツ") (V [b_ "tu"] true))
  ; (K3 (b_ "gyu") (b_ "ぎゅ") (b_ "ギュ"), K3 (b_ "kyu") (b_ "きゅ") (b_ "キュ"))
  ; (K3 (b_ "gwu") (b_ "ぐぅ") (b_ "グゥ"), KV (b_ "qu") (b_ "くぅ") (b_ "クゥ") (V [b_ "kwu"; b_ "qwu"] false))
  ; (KV (b_ "ju") (b_ "じゅ") (b_ "ジュ") (V [b_ "zyu"; b_ "jyu"] true), KV (b_ "shu") (b_ "しゅ") (b_ "シュ") (V [b_ "syu"] true))
  ; (K5 (b_ "dyu") (b_ "ぢゅ") (b_ "ヂュ") (b_ "ju") (b_ "zyu"), KV (b_ "chu") (b_ "ちゅ") (b_ "チュ") (V [b_ "tyu"] true))
  ; (K3 (b_ "dhu") (b_ "でゅ") (b_ "デュ"), K3 (b_ "thu") (b_ "てゅ") (b_ "テュ"))
  ; (K3 (b_ "dwu") (b_ "どぅ") (b_ "ドゥ"), K3 (b_ "twu") (b_ "とぅ") (b_ "トゥ"))
  ; (K3 (b_ "ge") (b_ "げ") (b_ "ゲ"), K3 (b_ "ke") (b_ "け") (b_ "ケ"))
  ; (K3 (b_ "gye") (b_ "ぎぇ") (b_ "ギェ"), K3 (b_ "kye") (b_ "きぇ") (b_ "キェ"))
  ; (K3 (b_ "ze") (b_ "ぜ") (b_ "ゼ"), K3 (b_ "se") (b_ "せ") (b_ "セ"))
  ; (K3 (b_ "de") (b_ "で") (b_ "デ"), K3 (b_ "te") (b_ "て") (b_ "テ"))
  ; (K3 (b_ "ve") (b_ "ゔぇ") (b_ "ヴェ"), K3 (b_ "we") (b_ "うぇ") (b_ "ウェ"))
  ; (K3 (b_ "gwe") (b_ "ぐぇ") (b_ "グェ"), KV (b_ "qe") (b_ "くぇ") (b_ "クェ") (V [b_ "kwe"; b_ "qwe"] false))
  ; (KV (b_ "je") (b_ "じぇ") (b_ "ジェ") (V [b_ "zye"; b_ "jye"] false), K3 (b_ "she") (b_ "しぇ") (b_ "シェ"))
  ; (K3 (b_ "dye") (b_ "ぢぇ") (b_ "ヂェ"), KV (b_ "che") (b_ "ちぇ") (b_ "チェ") (V [b_ "tye"] false))
  ; (K3 (b_ "dhe") (b_ "でぇ") (b_ "デェ"), K3 (b_ "the") (b_ "てぇ") (b_ "テェ"))
  ; (K3 (b_ "dwe") (b_ "どぇ") (b_ "ドェ"), K3 (b_ "twe") (b_ "とぇ") (b_ "トェ"))
  ; (K3 (b_ "go") (b_ "ご") (b_ "ゴ"), K3 (b_ "ko") (b_ "こ") (b_ "コ"))
  ; (K3 (b_ "zo") (b_ "ぞ") (b_ "ゾ"), K3 (b_ "so") (b_ "そ") (b_ "ソ"))
  ; (K3 (b_ "do") (b_ "ど") (b_ "ド"), K3 (b_ "to") (b_ "と") (b_ "ト"))
  ; (K3 (b_ "gyo") (b_ "ぎょ") (b_ "ギョ"), K3 (b_ "kyo") (b_ "きょ") (b_ "キョ"))
  ; (K3 (b_ "gwo") (b_ "ぐぉ") (b_ "グォ"), KV (b_ "qo") (b_ "くぉ") (b_ "クォ") (V [b_ "kwo"; b_ "qwo"] false))
  ; (KV (b_ "jo") (b_ "じょ") (b_ "ジョ") (V [b_ "zyo"; b_ "jyo"] true), KV (b_ "sho") (b_ "しょ") (b_ "ショ") (V [b_ "syo"] true))
  ; (K5 (b_ "dyo") (b_ "ぢょ") (b_ "ヂョ") (b_ "jo") (b_ "zyo"), KV (b_ "cho") (b_ "ちょ") (b_ "チョ") (V [b_ "tyo"] true))
  ; (K3 (b_ "dho") (b_ "でょ") (b_ "デョ"), K3 (b_ "tho") (b_ "てょ") (b_ "テョ"))
  ; (K3 (b_ "dwo") (b_ "どぉ") (b_ "ドォ"), K3 (b_ "two") (b_ "とぉ") (b_ "トォ")) ].

(** Kana.cpp:142-159 HanDakutenKanaList: semi-voiced, voiced, plain *)
Definition HanDakutenKanaList : list (KanaData * KanaData * KanaData) :=
  [ (K3 (b_ "pa") (b_ "ぱ") (b_ "パ"), K3 (b_ "ba") (b_ "ば") (b_ "バ"), K3 (b_ "ha") (b_ "は") (b_ "ハ"))
  ; (K3 (b_ "pi") (b_ "ぴ") (b_ "ピ"), K3 (b_ "bi") (b_ "び") (b_ "ビ"), K3 (b_ "hi") (b_ "ひ") (b_ "ヒ"))
  ; (K3 (b_ "pu") (b_ "ぷ") (b_ "プ"), K3 (b_ "bu") (b_ "ぶ") (b_ "ブ"), KV (b_ "fu") (b_ "ふ") (b_ "フ") (V [b_ "hu"] true))
  ; (K3 (b_ "pe") (b_ "ぺ") (b_ "ペ"), K3 (b_ "be") (b_ "べ") (b_ "ベ"), K3 (b_ "he") (b_ "へ") (b_ "ヘ"))
  ; (K3 (b_ "po") (b_ "ぽ") (b_ "ポ"), K3 (b_ "bo") (b_ "ぼ") (b_ "ボ"), K3 (b_ "ho") (b_ "ほ") (b_ "ホ"))
  ; (K3 (b_ "pya") (b_ "ぴゃ") (b_ "ピャ"), K3 (b_ "bya") (b_ "びゃ") (b_ "ビャ"), K3 (b_ "hya") (b_ "ひゃ") (b_ "ヒャ"))
  ; (K3 (b_ "pyi") (b_ "ぴぃ") (b_ "ピィ"), K3 (b_ "byi") (b_ "びぃ") (b_ "ビィ"), K3 (b_ "hyi") (b_ "ひぃ") (b_ "ヒィ"))
  ; (K3 (b_ "pyu") (b_ "ぴゅ") (b_ "ピュ"), K3 (b_ "byu") (b_ "びゅ") (b_ "ビュ"), K3 (b_ "hyu") (b_ "ひゅ") (b_ "ヒュ"))
  ; (K3 (b_ "pye") (b_ "ぴぇ") (b_ "ピェ"), K3 (b_ "bye") (b_ "びぇ") (b_ "ビェ"), K3 (b_ "hye") (b_ "ひぇ") (b_ "ヒェ"))
  ; (K3 (b_ "pyo") (b_ "ぴょ") (b_ "ピョ"), K3 (b_ "byo") (b_ "びょ") (b_ "ビョ"), K3 (b_ "hyo") (b_ "ひょ") (b_ "ヒョ")) ].

(** Kana.h:276-331: a Kana object with the Kana its dakuten(), hanDakuten() and plain()
    methods return (None is nullptr) *)
Record Kana := { kd : KanaData; kDakuten : option KanaData; kHanDakuten : option KanaData;
                 kPlain : option KanaData }.
Definition plainKana (k : KanaData) : Kana :=
  {| kd := k; kDakuten := None; kHanDakuten := None; kPlain := None |}.
Definition accentedKana (k p : KanaData) : Kana :=
  {| kd := k; kDakuten := None; kHanDakuten := None; kPlain := Some p |}.
(** all objects in the order of Kana.cpp:334-343 (populate) *)
Definition allKana : list Kana :=
  map plainKana KanaList
  ++ flat_map (fun '(d, k) =>
       [{| kd := k; kDakuten := Some d; kHanDakuten := None; kPlain := None |}; accentedKana d k])
     DakutenKanaList
  ++ flat_map (fun '(h, d, k) =>
       [{| kd := k; kDakuten := Some d; kHanDakuten := Some h; kPlain := None |};
        accentedKana d k; accentedKana h k])
     HanDakutenKanaList.

(** a [std::map] keyed by strings; only lookups matter *)
Definition KMap := list (bytes * Kana).
Fixpoint mapFind (m : KMap) (s : bytes) : option Kana :=
  match m with
  | [] => None
  | (k, v) :: r => if beq k s then Some v else mapFind r s
  end.
(** Kana.cpp:314-322 insert: an existing key is kept *)
Definition mapInsert (m : KMap) (k : bytes) (v : Kana) : KMap :=
  match mapFind m k with Some _ => m | None => m ++ [(k, v)] end.
(** Kana.cpp:323-332 processKana: the keys of an object *)
Definition kanaKeys (t : CharType) (k : Kana) : list bytes :=
  match t with
  | Romaji => romaji (kd k) :: vList (variants (kd k))
  | Hiragana => [hira (kd k)]
  | Katakana => [kata (kd k)]
  end.
(** Kana.cpp:311-346 populate *)
Definition populate (t : CharType) : KMap :=
  fold_left (fun m k => fold_left (fun m s => mapInsert m s k) (kanaKeys t k) m) allKana [].
(** Kana.cpp:168-170 *)
Definition RomajiMap : KMap := Eval vm_compute in populate Romaji.
Definition HiraganaMap : KMap := Eval vm_compute in populate Hiragana.
Definition KatakanaMap : KMap := Eval vm_compute in populate Katakana.
(** Kana.cpp:217-224 getMap *)
Definition getMap (t : CharType) : KMap :=
  match t with Romaji => RomajiMap | Hiragana => HiraganaMap | Katakana => KatakanaMap end.

(** Kana.cpp:175-176 *)
Definition SmallTsu : KanaData := Eval vm_compute in nth (List.length KanaList - 2) KanaList (K3 [] [] []).
Definition KanaN : KanaData := Eval vm_compute in nth (List.length KanaList - 1) KanaList (K3 [] [] []).
(** Kana.h:40 *)
Definition ProlongMark : bytes := Eval vm_compute in b_ "ー".

(** Kana.cpp:272-278 getRomaji; [variants[0]] of an empty list is undefined behaviour *)
Definition getRomaji (k : KanaData) (flags : ConvertFlags) : bytes :=
  match (if hasFlag flags FlagHepburn then hepburn k else None) with
  | Some h => h
  | None =>
      if hasFlag flags FlagKunrei && vKunrei (variants k) then nth 0 (vList (variants k)) []
      else match (if hasFlag flags FlagKunrei then kunrei k else None) with
           | Some x => x
           | None => romaji k
           end
  end.
(** Kana.cpp:280-283 getSokuonRomaji *)
Definition getSokuonRomaji (k : KanaData) (flags : ConvertFlags) : bytes :=
  let r := getRomaji k flags in
  let c := nth 0 r 0 in
  (if c =? 99 then 116 else c) :: r.
(** Kana.cpp:285-292 get *)
Definition getKana (k : KanaData) (t : CharType) (flags : ConvertFlags) : bytes :=
  match t with Romaji => getRomaji k flags | Hiragana => hira k | Katakana => kata k end.
(** Kana.cpp:246-254 dakuten(CharType), hanDakuten(CharType) *)
Definition dakutenOf (k : Kana) (t : CharType) : option bytes :=
  option_map (fun d => getKana d t FlagNone) (kDakuten k).
Definition hanDakutenOf (k : Kana) (t : CharType) : option bytes :=
  option_map (fun d => getKana d t FlagNone) (kHanDakuten k).
(** Kana.cpp:226-240 findDakuten, findHanDakuten *)
Definition findDakuten (s : bytes) : option bytes :=
  match mapFind HiraganaMap s with
  | Some k => dakutenOf k Hiragana
  | None => match mapFind KatakanaMap s with Some k => dakutenOf k Katakana | None => None end
  end.
Definition findHanDakuten (s : bytes) : option bytes :=
  match mapFind HiraganaMap s with
  | Some k => hanDakutenOf k Hiragana
  | None => match mapFind KatakanaMap s with Some k => hanDakutenOf k Katakana | None => None end
  end.
(** Kana.cpp:256-258 *)
Definition isSmall (k : KanaData) : bool := startsWith (romaji k) (b_ "l").
Definition isMonograph (k : KanaData) : bool := len (hira k) =? 3.
Definition isDigraph (k : KanaData) : bool := len (hira k) =? 6.
(** Kana.cpp:294-302 containsKana, operator== *)
Definition containsKana (k : KanaData) (s : bytes) : bool := beq s (hira k) || beq s (kata k).
Definition kanaEq (a b : KanaData) : bool := beq (romaji a) (romaji b).
(** Kana.cpp:260-270 isDakuten, isHanDakuten; pointers are compared by romaji *)
Definition optEq (o : option KanaData) (k : KanaData) : bool :=
  match o with Some x => kanaEq x k | None => false end.
Definition isDakuten (k : Kana) : bool :=
  match kPlain k with
  | Some p => match mapFind RomajiMap (romaji p) with Some q => optEq (kDakuten q) (kd k) | None => false end
  | None => startsWith (romaji (kd k)) (b_ "v")
  end.
Definition isHanDakuten (k : Kana) : bool :=
  match kPlain k with
  | Some p => match mapFind RomajiMap (romaji p) with Some q => optEq (kHanDakuten q) (kd k) | None => false end
  | None => false
  end.

(** Kana.h:100-140 IterationMark; Kana.cpp:172-173 *)
Record IterationMark := { imHira : bytes; imKata : bytes; imDakuten : bool }.
Definition RepeatPlain : IterationMark :=
  Eval vm_compute in {| imHira := b_ "ゝ"; imKata := b_ "ヽ"; imDakuten := false |}.
Definition RepeatAccented : IterationMark :=
  Eval vm_compute in {| imHira := b_ "ゞ"; imKata := b_ "ヾ"; imDakuten := true |}.
(** Kana.cpp:178-181 matches *)
Definition markMatches (m : IterationMark) (t : CharType) (s : bytes) : bool :=
  match t with Hiragana => beq (imHira m) s | Katakana => beq (imKata m) s | Romaji => false end.
(** Kana.cpp:210-215 findIterationMark *)
Definition findIterationMark (source : CharType) (s : bytes) : option IterationMark :=
  if markMatches RepeatPlain source s then Some RepeatPlain
  else if markMatches RepeatAccented source s then Some RepeatAccented
  else None.
(** Kana.cpp:183-197 get *)
Definition markGet (m : IterationMark) (target : CharType) (flags : ConvertFlags) (prev : option Kana) : bytes :=
  match target with
  | Hiragana => imHira m
  | Katakana => imKata m
  | Romaji =>
      match prev with
      | None => []
      | Some p =>
          let k := if imDakuten m
                   then match kDakuten p with Some d => d | None => kd p end
                   else match kPlain p with Some q => q | None => kd p end in
          getRomaji k flags
      end
  end.
