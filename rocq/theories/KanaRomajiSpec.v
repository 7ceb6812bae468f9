(** Romaji spellings by system, and the kinds of Kana, stated by character. *)
From Verif Require Export KanaSpec.
Open Scope N_scope.

(** the Kana whose spelling depends on the system: the project's own spelling (one per
    Kana), Hepburn's and Kunrei's; every other Kana has one spelling in all three *)
Definition systems : list (bytes * (bytes * bytes * bytes)) :=
  [ (b_ "し", (b_ "shi", b_ "shi", b_ "si"));       (b_ "じ", (b_ "ji", b_ "ji", b_ "zi"));
    (b_ "ち", (b_ "chi", b_ "chi", b_ "ti"));       (b_ "ぢ", (b_ "di", b_ "ji", b_ "zi"));
    (b_ "つ", (b_ "tsu", b_ "tsu", b_ "tu"));       (b_ "づ", (b_ "du", b_ "zu", b_ "zu"));
    (b_ "ふ", (b_ "fu", b_ "fu", b_ "hu"));         (b_ "を", (b_ "wo", b_ "o", b_ "o"));
    (b_ "ゐ", (b_ "wyi", b_ "i", b_ "i"));          (b_ "ゑ", (b_ "wye", b_ "e", b_ "e"));
    (b_ "しゃ", (b_ "sha", b_ "sha", b_ "sya"));    (b_ "しゅ", (b_ "shu", b_ "shu", b_ "syu"));
    (b_ "しょ", (b_ "sho", b_ "sho", b_ "syo"));
    (b_ "じゃ", (b_ "ja", b_ "ja", b_ "zya"));      (b_ "じゅ", (b_ "ju", b_ "ju", b_ "zyu"));
    (b_ "じょ", (b_ "jo", b_ "jo", b_ "zyo"));
    (b_ "ちゃ", (b_ "cha", b_ "cha", b_ "tya"));    (b_ "ちゅ", (b_ "chu", b_ "chu", b_ "tyu"));
    (b_ "ちょ", (b_ "cho", b_ "cho", b_ "tyo"));
    (b_ "ぢゃ", (b_ "dya", b_ "ja", b_ "zya"));     (b_ "ぢゅ", (b_ "dyu", b_ "ju", b_ "zyu"));
    (b_ "ぢょ", (b_ "dyo", b_ "jo", b_ "zyo")) ].

Definition spellings (hiragana : bytes) : option (bytes * bytes * bytes) :=
  option_map snd (find (fun p => beq (fst p) hiragana) systems).

(** a small tsu doubles the next consonant, as "tch" before "ch" *)
Definition doubled (r : bytes) : bytes :=
  match r with
  | [] => []
  | c :: _ => (if c =? 0x63 then 0x74 else c) :: r
  end.

(** Unicode's small Hiragana that stand for a sound of their own; small tsu is a sign that
    doubles a consonant, and is among them *)
Definition small_letters : list N :=
  [0x3041; 0x3043; 0x3045; 0x3047; 0x3049; 0x3063; 0x3083; 0x3085; 0x3087; 0x308E; 0x3095; 0x3096].
