(** Property theorems about converting between Hiragana, Katakana and Romaji.

    A text is a list of displayed characters ([glyph]: a code point, with or without a
    variation selector), none of them a bare combining mark or selector. *)
From Verif Require Import BaseFacts ConverterModel ConverterSpec ConverterProofs ConverterKana ConverterRomaji
  ConverterTables ConverterTrip ConverterBack ConverterMore ConverterCase ConverterWhole.
Open Scope N_scope.

(** ** C19 *)
(** kana to kana: every text, every flag: exactly the characters 0x60 away, except that a
    broken combination is left alone and a prolong mark behind it dropped *)
Theorem C19_kana_exact : forall fl ltr t us, t <> Romaji -> Forall glyph_ok us ->
  convertFrom (other_kana t) fl ltr t (gtext us) = Val (gtext (shift_text t us)).
Proof. exact kana_to_kana. Qed.
Print Assumptions C19_kana_exact.
(** ... which without broken combinations is the character by character map *)
Theorem C19_kana_map_partial : forall fl ltr t us, t <> Romaji -> Forall glyph_ok us -> ~ has_broken t us ->
  convertFrom (other_kana t) fl ltr t (gtext us) = Val (gtext (map (shift_kana t) us)).
Proof.
  intros fl ltr t us Ht Hok Hb. rewrite kana_to_kana by assumption. unfold shift_text. rewrite walk_map by exact Hb. reflexivity.
Qed.
Print Assumptions C19_kana_map_partial.
(** there and back is the identity on texts without kana of the other type, unless a broken
    combination is followed by a prolong mark *)
Theorem C19_kana_round_trip_partial : forall t f1 f2 l1 l2 us, t <> Romaji -> Forall glyph_ok us ->
  Forall (fun u => of_type (other_kana t) u = false) us -> ~ has_broken_long t us ->
  exists r, convertFrom (other_kana t) f1 l1 t (gtext us) = Val r
    /\ convertFrom t f2 l2 (other_kana t) r = Val (gtext us).
Proof.
  intros t f1 f2 l1 l2 us Ht Hok Hs Hb. destruct (kana_and_back t Ht f1 f2 l1 l2 us Hok Hs) as [r [A B]].
  exists r. split; [exact A|]. rewrite drop_nothing in B by exact Hb. exact B.
Qed.
Print Assumptions C19_kana_round_trip_partial.
(** and in general the round trip loses exactly those prolong marks *)
Theorem C19_kana_round_trip_exact : forall t f1 f2 l1 l2 us, t <> Romaji -> Forall glyph_ok us ->
  Forall (fun u => of_type (other_kana t) u = false) us ->
  exists r, convertFrom (other_kana t) f1 l1 t (gtext us) = Val r
    /\ convertFrom t f2 l2 (other_kana t) r = Val (gtext (drop_long t us)).
Proof. intros t f1 f2 l1 l2 us Ht. exact (kana_and_back t Ht f1 f2 l1 l2 us). Qed.
Print Assumptions C19_kana_round_trip_exact.
Theorem C19_full_refuted : exists us r, Forall glyph_ok us /\ Forall (fun u => of_type Katakana u = false) us
  /\ convertFrom Katakana 0 true Hiragana (gtext us) = Val r
  /\ convertFrom Hiragana 0 true Katakana r <> Val (gtext us).
Proof.
  exists [G 0x3063; G 0x304F; G 0x3083; G 0x30FC]. eexists. split; [|split; [|split; [vm_compute; reflexivity|vm_compute; discriminate]]].
  - repeat (apply Forall_cons; [apply ok_G; [lia|reflexivity]|]). constructor.
  - repeat (apply Forall_cons; [reflexivity|]). constructor.
Qed.
Print Assumptions C19_full_refuted.
Example C19_case :
  convertFrom Katakana 0 true Hiragana (b_ "きゃっぷ、かゝがゞー漢k") = Val (b_ "キャップ、カヽガヾー漢k")
  /\ convertFrom Hiragana 0 true Katakana (b_ "キャップ、カヽガヾー漢k") = Val (b_ "きゃっぷ、かゝがゞー漢k").
Proof. split; vm_compute; reflexivity. Qed.

(** ** C20 *)
(** kana to Romaji (neither Hepburn nor Kunrei) and back; the text has no Ascii, no vowels
    with macrons and no iteration marks of the source type *)
Theorem C20_romaji_round_trip_partial : forall t f1 f2 l1 l2 us, t <> Romaji ->
  hasFlag f1 FlagHepburn = false -> hasFlag f1 FlagKunrei = false ->
  (hasFlag f2 FlagNoProlongMark = false \/ t = Katakana) -> hasFlag f2 FlagRemoveSpaces = false ->
  Forall glyph_ok us -> Forall (fun u => romaji_free t u = true) us -> ~ has_broken_long t us ->
  exists r, convertFrom Romaji f1 l1 t (gtext us) = Val r /\ convertFrom t f2 l2 Romaji r = Val (gtext us).
Proof.
  intros t f1 f2 l1 l2 us Ht H1 H2 H3 H4 Hok Hr Hb.
  destruct (there_and_back t f2 Ht H3 H4 f1 l1 l2 us H1 H2 Hok Hr) as [r [A B]].
  exists r. split; [exact A|]. rewrite drop_nothing in B by exact Hb. exact B.
Qed.
Print Assumptions C20_romaji_round_trip_partial.
(** in general the round trip loses exactly the prolong marks behind broken combinations *)
Theorem C20_romaji_round_trip_exact : forall t f1 f2 l1 l2 us, t <> Romaji ->
  hasFlag f1 FlagHepburn = false -> hasFlag f1 FlagKunrei = false ->
  (hasFlag f2 FlagNoProlongMark = false \/ t = Katakana) -> hasFlag f2 FlagRemoveSpaces = false ->
  Forall glyph_ok us -> Forall (fun u => romaji_free t u = true) us ->
  exists r, convertFrom Romaji f1 l1 t (gtext us) = Val r /\ convertFrom t f2 l2 Romaji r = Val (gtext (drop_long t us)).
Proof. intros t f1 f2 l1 l2 us Ht H1 H2 H3 H4. exact (there_and_back t f2 Ht H3 H4 f1 l1 l2 us H1 H2). Qed.
Print Assumptions C20_romaji_round_trip_exact.
Theorem C20_full_refuted : exists us r, Forall glyph_ok us /\ Forall (fun u => romaji_free Hiragana u = true) us
  /\ convertFrom Romaji 0 true Hiragana (gtext us) = Val r
  /\ convertFrom Hiragana 0 true Romaji r <> Val (gtext us).
Proof.
  exists [G 0x3063; G 0x304F; G 0x3083; G 0x30FC]. eexists. split; [|split; [|split; [vm_compute; reflexivity|vm_compute; discriminate]]].
  - repeat (apply Forall_cons; [apply ok_G; [lia|reflexivity]|]). constructor.
  - repeat (apply Forall_cons; [reflexivity|]). constructor.
Qed.
Print Assumptions C20_full_refuted.
Example C20_case :
  convertFrom Romaji 0 true Hiragana (b_ "しんあいな、きっと　おっちょこー漢") = Val (b_ "shin'aina,kitto otchokō漢")
  /\ convertFrom Hiragana 0 true Romaji (b_ "shin'aina,kitto otchokō漢") = Val (b_ "しんあいな、きっと　おっちょこー漢").
Proof. split; vm_compute; reflexivity. Qed.

(** ** C21 *)
Theorem C21_romaji_converts_all_partial : forall fl ltr t us, t <> Romaji -> Forall glyph_ok us -> ~ has_broken t us ->
  exists os, convertFrom Romaji fl ltr t (gtext us) = Val (gtext os) /\ Forall glyph_ok os
    /\ Forall (fun u => of_type t u = false) os.
Proof.
  intros fl ltr t us Ht Hok Hb. destruct (kana_to_romaji fl ltr t us Ht Hok) as [os [A [B [_ D]]]].
  exists os. split; [exact A|]. split; [exact B|]. apply D. exact Hb.
Qed.
Print Assumptions C21_romaji_converts_all_partial.
Theorem C21_kana_converts_all_partial : forall fl ltr t us, t <> Romaji -> Forall glyph_ok us -> ~ has_broken t us ->
  exists os, convertFrom (other_kana t) fl ltr t (gtext us) = Val (gtext os) /\ Forall glyph_ok os
    /\ Forall (fun u => of_type t u = false) os.
Proof.
  intros fl ltr t us Ht Hok Hb. exists (shift_text t us). split; [apply kana_to_kana; assumption|].
  split; [exact (walk_ok t Ht (List.length us) us (le_n _) Hok)|].
  unfold shift_text. rewrite walk_map by exact Hb. apply Forall_map. apply Forall_forall. intros [c|] _; [|reflexivity].
  cbn [shift_kana]. destruct (is_kana t c || is_repeat t c) eqn:E; [|exact E]. cbn [of_type].
  unfold is_kana, is_repeat in *. destruct t; [| |exfalso; apply Ht; reflexivity]; cbn [other_kana off] in *; lia.
Qed.
Print Assumptions C21_kana_converts_all_partial.
Theorem C21_full_refuted : exists us os, Forall glyph_ok us
  /\ convertFrom Katakana 0 true Hiragana (gtext us) = Val (gtext os) /\ existsb (of_type Hiragana) os = true.
Proof.
  exists [G 0x3063; G 0x304F; G 0x3083], [G 0x30C3; G 0x304F; G 0x3083].
  split; [|split; vm_compute; reflexivity]. repeat (apply Forall_cons; [apply ok_G; [lia|reflexivity]|]). constructor.
Qed.
Print Assumptions C21_full_refuted.
Example C21_case : ~ has_broken Hiragana [G 0x3063; G 0x304D; G 0x3083].
Proof.
  intros [p [a [x [s [q [E B]]]]]]. apply (f_equal (@List.length glyph)) in E as L. rewrite app_length in L. cbn [List.length] in L.
  destruct p as [|y p]; [|cbn [List.length] in L; lia]. cbn [app] in E. injection E as <- <- <- <-. vm_compute in B. discriminate.
Qed.

(** ** C22 *)
(** the result of a text and of its lower-cased form agree up to the case of letters that
    were left unconverted, unless an upper-case consonant is doubled (or T followed by c) *)
Theorem C22_case_insensitive_partial : forall t fl l1 l2 us, t <> Romaji -> Forall glyph_ok us ->
  quiet (ascii_codes us) = true ->
  exists a b, convert t fl l1 (gtext us) = Val a /\ convert t fl l2 (toLower (gtext us)) = Val b /\ toLower a = toLower b.
Proof. intros t fl l1 l2 us Ht. exact (convert_case t fl l1 l2 us Ht). Qed.
Print Assumptions C22_case_insensitive_partial.
(** the same for conversion from Romaji only *)
Theorem C22_from_romaji_partial : forall t fl l1 l2 us, t <> Romaji -> Forall glyph_ok us ->
  quiet (ascii_codes us) = true ->
  exists a b, convertFrom t fl l1 Romaji (gtext us) = Val a
    /\ convertFrom t fl l2 Romaji (toLower (gtext us)) = Val b /\ toLower a = toLower b.
Proof. intros t fl l1 l2 us Ht. exact (romaji_case t fl l1 l2 us Ht). Qed.
Print Assumptions C22_from_romaji_partial.
(** so the results are equal when both are all kana *)
Theorem C22_same_kana_partial : forall t fl l1 l2 us a b, t <> Romaji -> Forall glyph_ok us ->
  quiet (ascii_codes us) = true -> convert t fl l1 (gtext us) = Val a -> convert t fl l2 (toLower (gtext us)) = Val b ->
  existsb is_letter a = false -> existsb is_letter b = false -> a = b.
Proof.
  intros t fl l1 l2 us a b Ht Hok Q Ha Hb La Lb.
  destruct (convert_case t fl l1 l2 us Ht Hok Q) as [a' [b' [Ea [Eb E]]]]. rewrite Ha in Ea. rewrite Hb in Eb.
  injection Ea as <-. injection Eb as <-.
  assert (K : forall s, existsb is_letter s = false -> toLower s = s).
  { induction s as [|x s IH]; intro H; [reflexivity|]. cbn [existsb] in H. apply orb_false_iff in H. destruct H as [H1 H2].
    cbn [toLower map]. change (map c_tolower s) with (toLower s). rewrite (IH H2). f_equal.
    unfold is_letter in H1. apply orb_false_iff in H1. destruct H1 as [H1 _]. rewrite tolower_code. unfold lower_code. rewrite H1. reflexivity. }
  rewrite !K in E by assumption. exact E.
Qed.
Print Assumptions C22_same_kana_partial.
Theorem C22_full_refuted : convert Hiragana 0 true (b_ "MATTE") = Val (b_ "まTて")
  /\ convert Hiragana 0 true (b_ "matte") = Val (b_ "まって").
Proof. split; vm_compute; reflexivity. Qed.
Print Assumptions C22_full_refuted.
Example C22_case : quiet (b_ "KONNICHIWA, Toukyou!") = true
  /\ convert Hiragana 0 true (b_ "KONNICHIWA, Toukyou!") = convert Hiragana 0 true (b_ "konnichiwa, toukyou!").
Proof. split; vm_compute; reflexivity. Qed.

(** ** C23 *)
(** characters without a meaning for any conversion keep their order and none is added *)
Theorem C23_others_unchanged : forall tg fl ltr us, Forall glyph_ok us ->
  exists os, convert tg fl ltr (gtext us) = Val (gtext os) /\ Forall glyph_ok os
    /\ filter foreign_all os = filter foreign_all us.
Proof. exact convert_both. Qed.
Print Assumptions C23_others_unchanged.
(** for one source type only the kana of that type have a meaning *)
Theorem C23_from_kana : forall fl ltr t us, t <> Romaji -> Forall glyph_ok us ->
  exists os, convertFrom Romaji fl ltr t (gtext us) = Val (gtext os) /\ Forall glyph_ok os
    /\ filter (foreign t) os = filter (foreign t) us.
Proof.
  intros fl ltr t us Ht Hok. destruct (kana_to_romaji fl ltr t us Ht Hok) as [os [A [B [C _]]]]. exists os. auto.
Qed.
Print Assumptions C23_from_kana.
Theorem C23_from_romaji : forall fl ltr t us, t <> Romaji -> Forall glyph_ok us ->
  exists os, convertFrom t fl ltr Romaji (gtext us) = Val (gtext os) /\ Forall glyph_ok os
    /\ filter (foreign t) os = filter (foreign t) us.
Proof. intros fl ltr t us Ht. exact (romaji_foreign t fl Ht ltr us). Qed.
Print Assumptions C23_from_romaji.
(** the delimiters form a bijection: each narrow one on its own becomes its wide form, and
    each wide one its narrow form *)
Theorem C23_delimiters : NoDup (map fst wide_of) /\ NoDup (map snd wide_of)
  /\ forall n w, In (n, w) wide_of -> forall t ltr, t <> Romaji ->
     convert t 0 ltr [n] = Val (gb (G w)) /\ convert Romaji 0 ltr (gb (G w)) = Val [n].
Proof.
  split; [|split].
  - apply (NoDup_count_occ' N.eq_dec). apply Forall_forall.
    assert (K : forallb (fun x => Nat.eqb (count_occ N.eq_dec (map fst wide_of) x) 1) (map fst wide_of) = true) by (vm_compute; reflexivity).
    apply Forall_forall. intros x Hx. rewrite forallb_forall in K. specialize (K x Hx). apply PeanoNat.Nat.eqb_eq. exact K.
  - apply (NoDup_count_occ' N.eq_dec).
    assert (K : forallb (fun x => Nat.eqb (count_occ N.eq_dec (map snd wide_of) x) 1) (map snd wide_of) = true) by (vm_compute; reflexivity).
    intros x Hx. rewrite forallb_forall in K. specialize (K x Hx). apply PeanoNat.Nat.eqb_eq. exact K.
  - assert (K : forallb (fun p => forallb (fun ltr =>
        match convert Hiragana 0 ltr [fst p], convert Katakana 0 ltr [fst p], convert Romaji 0 ltr (gb (G (snd p))) with
        | Val a, Val b, Val c => beq a (gb (G (snd p))) && beq b (gb (G (snd p))) && beq c [fst p]
        | _, _, _ => false end) [true; false]) wide_of = true) by (vm_compute; reflexivity).
    intros n w Hin t ltr Ht. rewrite forallb_forall in K. specialize (K _ Hin). rewrite forallb_forall in K.
    assert (L : In ltr [true; false]) by (destruct ltr; cbn; auto). specialize (K _ L). cbn [fst snd] in K.
    destruct (convert Hiragana 0 ltr [n]) eqn:E1; try discriminate. destruct (convert Katakana 0 ltr [n]) eqn:E2; try discriminate.
    destruct (convert Romaji 0 ltr (gb (G w))) eqn:E3; try discriminate.
    rewrite !andb_true_iff in K. destruct K as [[K1 K2] K3]. apply beq_eq in K1, K2, K3. subst.
    split; [|reflexivity]. destruct t; [exact E1|exact E2|exfalso; apply Ht; reflexivity].
Qed.
Print Assumptions C23_delimiters.
(** but order relative to Romaji letters that wait for the rest of their syllable is lost *)
Theorem C23_full_refuted : convert Hiragana 0 true (b_ "k漢") = Val (b_ "漢k")
  /\ convert Hiragana 0 true (b_ "k漢a") = Val (b_ "漢か").
Proof. split; vm_compute; reflexivity. Qed.
Print Assumptions C23_full_refuted.
Example C23_case : convert Katakana 0 true (b_ "kana(漢字)わ") = Val (b_ "カナ（漢字）ワ").
Proof. vm_compute. reflexivity. Qed.

(** ** C52 *)
Theorem C52_kana_result_order_free : forall t fl us, t <> Romaji -> Forall glyph_ok us ->
  convert t fl true (gtext us) = convert t fl false (gtext us).
Proof. intros t fl us Ht. exact (convert_order t fl us Ht). Qed.
Print Assumptions C52_kana_result_order_free.
Theorem C52_no_marks_order_free_partial : forall tg fl t us, t <> Romaji -> Forall glyph_ok us ->
  Forall (fun u => match u with G c => is_repeat t c = false | _ => True end) us ->
  convertFrom tg fl true t (gtext us) = convertFrom tg fl false t (gtext us).
Proof. exact kana_order. Qed.
Print Assumptions C52_no_marks_order_free_partial.
Theorem C52_full_refuted : convertFrom Romaji 0 true Hiragana (b_ "っあゝ") = Val (b_ "ltuaa")
  /\ convertFrom Romaji 0 false Hiragana (b_ "っあゝ") = Val (b_ "ltualtu").
Proof. split; vm_compute; reflexivity. Qed.
Print Assumptions C52_full_refuted.

(** ** C53 *)
(** conversion never throws and never reads outside its input, whatever the bytes *)
Theorem C53_total : forall tg fl ltr s, bytes_ok s -> exists r, convert tg fl ltr s = Val r.
Proof. exact convert_total. Qed.
Print Assumptions C53_total.
Theorem C53_total_from : forall tg fl ltr src s, bytes_ok s -> exists r, convertFrom tg fl ltr src s = Val r.
Proof. intros tg fl ltr src s Hs. destruct (from_total tg fl ltr src s Hs) as [r [H _]]. exists r. exact H. Qed.
Print Assumptions C53_total_from.
Example C53_case : exists r, convert Hiragana 7 false (b_ "nnn'x" ++ [0xE3; 0x81; 0; 0xFF] ++ b_ "゛q") = Val r.
Proof. apply C53_total. vm_compute. repeat constructor. Qed.
