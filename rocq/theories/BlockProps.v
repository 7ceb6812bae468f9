(** Property theorems about character categories. *)
From Verif Require Import BaseFacts BlockModel BlockSpec BlockProofs.

(** C14: no early exit skips a block; each table is the category it is named after *)
Theorem C14_tables_are_the_categories : forall c,
  (inRange1 c HiraganaBlocks = true <-> hiragana c)
  /\ (inRange1 c KatakanaBlocks = true <-> katakana c)
  /\ (inRange1 c CommonKanjiBlocks = true <-> common_kanji c)
  /\ (inRange1 c RareKanjiBlocks = true <-> rare_kanji c)
  /\ (inRange1 c PunctuationBlocks = true <-> punctuation c)
  /\ (inRange1 c SymbolBlocks = true <-> symbol c)
  /\ (inRange1 c LetterBlocks = true <-> letter c)
  /\ (isNonSpacing c = true <-> non_spacing c).
Proof.
  intro c. exact (conj (r_hiragana c) (conj (r_katakana c) (conj (r_common c) (conj (r_rare c)
    (conj (r_punct c) (conj (r_symbol c) (conj (r_letter c) (r_ns c)))))))).
Qed.
Print Assumptions C14_tables_are_the_categories.

(** C14: on any text, the tests for one character are true exactly for one character of
    the category (a non-spacing character may follow) *)
Theorem C14_one_character_tests :
  decides (fun s => isHiragana s true) (one_of hiragana)
  /\ decides (fun s => isKatakana s true) (one_of katakana)
  /\ decides (fun s => isKana s true) (one_of kana)
  /\ decides (fun s => isCommonKanji s true) (one_of common_kanji)
  /\ decides (fun s => isRareKanji s true) (one_of rare_kanji)
  /\ decides (fun s => isKanji s true) (one_of kanji)
  /\ decides (fun s => isMBSymbol s true) (one_of symbol)
  /\ decides (fun s => isMBLetter s true) (one_of letter)
  /\ decides (fun s => isRecognizedUtf8 s true) (one_of recognized).
Proof.
  repeat split; intros cs Hc; apply test_one;
    auto using t_hiragana, t_katakana, t_kana, t_common, t_rare, t_kanji, t_symbol, t_letter, t_recognized.
Qed.
Print Assumptions C14_one_character_tests.

(** C14: with sizeOne = false exactly the first character counts *)
Theorem C14_first_character_tests :
  decides (fun s => isHiragana s false) (starts_of hiragana)
  /\ decides (fun s => isKatakana s false) (starts_of katakana)
  /\ decides (fun s => isKana s false) (starts_of kana)
  /\ decides (fun s => isCommonKanji s false) (starts_of common_kanji)
  /\ decides (fun s => isRareKanji s false) (starts_of rare_kanji)
  /\ decides (fun s => isKanji s false) (starts_of kanji)
  /\ decides (fun s => isMBSymbol s false) (starts_of symbol)
  /\ decides (fun s => isMBLetter s false) (starts_of letter)
  /\ decides (fun s => isRecognizedUtf8 s false) (starts_of recognized).
Proof.
  repeat split; intros cs Hc; apply test_first;
    auto using t_hiragana, t_katakana, t_kana, t_common, t_rare, t_kanji, t_symbol, t_letter, t_recognized.
Qed.
Print Assumptions C14_first_character_tests.

(** C14: the tests on whole strings *)
Theorem C14_whole_string_tests :
  decides isAllHiragana (all_of hiragana)
  /\ decides isAllKatakana (all_of katakana)
  /\ decides isAllKana (all_of kana)
  /\ decides isAllCommonKanji (all_of common_kanji)
  /\ decides isAllRareKanji (all_of rare_kanji)
  /\ decides isAllKanji (all_of kanji)
  /\ decides isAllMBSymbol (all_of symbol)
  /\ decides isAllMBLetter (all_of letter)
  /\ decides isAllMBPunctuation (all_of punctuation)
  /\ decides isAllRecognizedUtf8 (all_of recognized).
Proof.
  repeat split; intros cs Hc; apply test_all;
    auto using t_hiragana, t_katakana, t_kana, t_common, t_rare, t_kanji, t_symbol, t_letter, t_recognized, t_punct.
Qed.
Print Assumptions C14_whole_string_tests.

(** C14: punctuation, where the wide space counts only on request *)
Theorem C14_punctuation_test : forall cs space one, chars cs ->
  exists b, isMBPunctuation (text cs) space one = Val b
    /\ (b = true <->
        (~ (exists r, cs = 0x3000 :: r) /\ (if one then one_of punctuation cs else starts_of punctuation cs))
        \/ (space = true /\ if one then cs = [0x3000] else exists r, cs = 0x3000 :: r)).
Proof. exact test_punct. Qed.
Print Assumptions C14_punctuation_test.

(** 漢 with a variation selector is one common Kanji; a malformed string counts as
    punctuation, since it decodes to U+FFFD; the empty string is nothing *)
Example C14_example :
  isCommonKanji (text [0x6F22; 0xFE00]) true = Val true /\ one_of common_kanji [0x6F22; 0xFE00]
  /\ isCommonKanji (text [0x6F22; 0x5B57]) true = Val false
  /\ isAllHiragana (text [0x3042; 0x3044]) = Val true
  /\ isMBPunctuation [0xC0; 0x80] false true = Val true
  /\ isKana [] true = Val false /\ isAllKana [] = Val true.
Proof.
  split; [vm_compute; reflexivity|]. split.
  - exists 0x6F22. unfold common_kanji, non_spacing, variation_selector, within. split; [lia|].
    right. exists 0xFE00. split; [lia|reflexivity].
  - vm_compute. auto.
Qed.

(** C15: the categories exclude each other, for every code point *)
Theorem C15_categories_are_disjoint : forall c i j P Q,
  nth_error [hiragana; katakana; common_kanji; rare_kanji; punctuation; symbol; letter] i = Some P ->
  nth_error [hiragana; katakana; common_kanji; rare_kanji; punctuation; symbol; letter] j = Some Q ->
  P c -> Q c -> i = j.
Proof.
  intros c i j P Q Hi Hj Hp Hq.
  destruct i as [|[|[|[|[|[|[|i]]]]]]]; try (destruct i; discriminate);
  destruct j as [|[|[|[|[|[|[|j]]]]]]]; try (destruct j; discriminate);
  cbn [nth_error] in Hi, Hj; inversion Hi; inversion Hj; subst P Q; clear Hi Hj; try reflexivity; exfalso;
  unfold hiragana, katakana, common_kanji, rare_kanji, punctuation, symbol, letter, within in *; lia.
Qed.
Print Assumptions C15_categories_are_disjoint.

(** C15: so no text passes two of the single character tests *)
Theorem C15_at_most_one_test_succeeds : forall cs i j f g, chars cs ->
  let tests := [(fun s => isHiragana s true); (fun s => isKatakana s true); (fun s => isCommonKanji s true);
    (fun s => isRareKanji s true); (fun s => isMBPunctuation s true true); (fun s => isMBSymbol s true);
    (fun s => isMBLetter s true)] in
  nth_error tests i = Some f -> nth_error tests j = Some g ->
  f (text cs) = Val true -> g (text cs) = Val true -> i = j.
Proof.
  intros cs i j f g Hc tests Hi Hj Hf Hg.
  assert (H : forall k h, nth_error tests k = Some h -> h (text cs) = Val true ->
    exists P c r, nth_error [hiragana; katakana; common_kanji; rare_kanji; punctuation; symbol; letter] k = Some P
      /\ cs = c :: r /\ P c).
  { assert (Hone : forall P, one_of P cs -> exists c r, cs = c :: r /\ P c).
    { intros P [c [Hp [->|[d [_ ->]]]]]; eauto. }
    assert (Hdec : forall h (P : N -> Prop), decides h (one_of P) -> h (text cs) = Val true ->
       exists c r, cs = c :: r /\ P c).
    { intros h P Hd Hv. destruct (Hd cs Hc) as [b [Hb Hi']]. rewrite Hv in Hb. inversion Hb; subst b.
      apply Hone. tauto. }
    destruct C14_one_character_tests as (D1 & D2 & _ & D3 & D4 & _ & D6 & D7 & _).
    intros k h Hk Hv.
    destruct k as [|[|[|[|[|[|[|k]]]]]]]; [.. |destruct k; discriminate];
      cbn [nth_error tests] in Hk; inversion Hk; subst h; clear Hk.
    - destruct (Hdec _ _ D1 Hv) as (c & r & E & Hp). exists hiragana, c, r. auto.
    - destruct (Hdec _ _ D2 Hv) as (c & r & E & Hp). exists katakana, c, r. auto.
    - destruct (Hdec _ _ D3 Hv) as (c & r & E & Hp). exists common_kanji, c, r. auto.
    - destruct (Hdec _ _ D4 Hv) as (c & r & E & Hp). exists rare_kanji, c, r. auto.
    - destruct (test_punct cs true true Hc) as [b [Hb Hi']]. rewrite Hv in Hb. inversion Hb; subst b.
      destruct Hi' as [Hi' _]. destruct (Hi' eq_refl) as [[_ H]|[_ ->]].
      + destruct (Hone _ H) as (c & r & E & Hp). exists punctuation, c, r. auto.
      + exists punctuation, 0x3000, []. split; [reflexivity|]. split; [reflexivity|]. unfold punctuation, within. lia.
    - destruct (Hdec _ _ D6 Hv) as (c & r & E & Hp). exists symbol, c, r. auto.
    - destruct (Hdec _ _ D7 Hv) as (c & r & E & Hp). exists letter, c, r. auto. }
  destruct (H i f Hi Hf) as (P & c & r & HP & E & Hp).
  destruct (H j g Hj Hg) as (Q & c' & r' & HQ & E' & Hq).
  rewrite E in E'. inversion E'; subst c' r'. exact (C15_categories_are_disjoint c i j P Q HP HQ Hp Hq).
Qed.
Print Assumptions C15_at_most_one_test_succeeds.

Example C15_example : isMBPunctuation (text [0x3000]) true true = Val true
  /\ isMBSymbol (text [0x2192]) true = Val true /\ isMBLetter (text [0x2192]) true = Val false.
Proof. vm_compute. auto. Qed.

(** C50: a regex bracket expression made from a range matches exactly the characters of
    the categories it is named after *)
Theorem C50_regex_ranges_match_the_categories : forall c,
  (bracket_matches (fillRange KanjiRange) c <-> kanji c \/ variation_selector c)
  /\ (bracket_matches (fillRange KanaRange) c <-> kana c)
  /\ (bracket_matches (fillRange HiraganaRange) c <-> hiragana c)
  /\ (bracket_matches (fillRange KatakanaRange) c <-> katakana c)
  /\ (bracket_matches (fillRange WideLetterRange) c <-> within 0xFF00 0xFFEF c).
Proof.
  intro c. rewrite !fill_matches.
  split; [|split; [|split; [|split]]]; split;
    unfold kana, kanji, hiragana, katakana, common_kanji, rare_kanji, variation_selector, within;
    try (intros [b [Hin Hb]]; cbn in Hin; unfold CommonKanaBlock in Hin;
     repeat (destruct Hin as [<-|Hin]; [cbn [fst snd] in Hb; lia|]); destruct Hin).
  - intro H. assert (K : forall b, In b KanjiRange -> fst b <= c <= snd b -> exists b, In b KanjiRange /\ fst b <= c <= snd b) by eauto.
    destruct H as [[H|H]|H].
    + destruct H as [H|[H|[H|H]]];
        [apply (K (0x3400, 0x4dbf))|apply (K (0x4e00, 0x9fff))|apply (K (0xf900, 0xfaff))|apply (K (0x20000, 0x2a6df))];
        cbn; tauto || lia.
    + destruct H as [H|[H|[H|H]]];
        [apply (K (0x2e80, 0x2eff))|apply (K (0x2a700, 0x2ebef))|apply (K (0x2f800, 0x2fa1f))|apply (K (0x30000, 0x3134f))];
        cbn; tauto || lia.
    + apply (K (0xfe00, 0xfe0f)); cbn; tauto || lia.
  - intro H. destruct H as [H|[H|H]]; [exists (0x3040, 0x30ff)|exists (0x3040, 0x30ff)|exists (0x31f0, 0x31ff)]; cbn; split; tauto || lia.
  - intro H. exists (0x3040, 0x309f). cbn. split; [tauto|lia].
  - intro H. destruct H as [H|H]; [exists (0x30a0, 0x30ff)|exists (0x31f0, 0x31ff)]; cbn; split; tauto || lia.
  - intro H. exists (0xff00, 0xffef). cbn. split; [tauto|lia].
Qed.
Print Assumptions C50_regex_ranges_match_the_categories.

(** C50: the array of a range has the three characters of each block in order and a NUL;
    reading past that throws *)
Theorem C50_range_index : forall bs i,
  (i < rangeSize bs -> exists c, rangeAt bs i = Val c /\ nth_error (fillRange bs) (N.to_nat i) = Some c)
  /\ (i = rangeSize bs -> rangeAt bs i = Val 0)
  /\ (rangeSize bs < i -> rangeAt bs i = Throw RangeError).
Proof. exact range_at. Qed.
Print Assumptions C50_range_index.
Theorem C50_range_layout : forall bs k b, nth_error bs k = Some b ->
  nth_error (fillRange bs) (3 * k) = Some (fst b)
  /\ nth_error (fillRange bs) (3 * k + 1) = Some 0x2D
  /\ nth_error (fillRange bs) (3 * k + 2) = Some (snd b).
Proof. exact fill_nth. Qed.
Print Assumptions C50_range_layout.

Example C50_example : bracket_matches (fillRange KanjiRange) 0x6F22 /\ rangeAt KanaRange 4 = Val 0x2D
  /\ rangeAt KanaRange 6 = Val 0 /\ rangeAt KanaRange 7 = Throw RangeError.
Proof. split; [cbn; unfold within; lia|]. vm_compute. auto. Qed.
