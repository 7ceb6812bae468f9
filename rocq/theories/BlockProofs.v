(** Lemmas about the character categories. *)
From Verif Require Import BaseFacts BlockModel BlockSpec Utf8Proofs.
From Coq Require Import Sorted.

Arguments N.ltb : simpl never.
Arguments N.leb : simpl never.
Arguments N.eqb : simpl never.

(** ** The early exit is harmless on sorted tables *)

Fixpoint sortedb (t : list block) : bool :=
  match t with
  | [] => true
  | a :: r => match r with [] => true | b :: _ => (fst a <=? fst b) && sortedb r end
  end.
Lemma sorted_after : forall t a b, sortedb (a :: t) = true -> In b t -> fst a <= fst b.
Proof.
  induction t as [|x t IH]; intros a b Hs Hin; [destruct Hin|].
  cbn [sortedb] in Hs; apply andb_true_iff in Hs; destruct Hs as [H1 H2].
  destruct Hin as [<-|Hin].
  - lia.
  - pose proof (IH x b H2 Hin). lia.
Qed.
Lemma inRange1_spec : forall t c, sortedb t = true ->
  (inRange1 c t = true <-> exists b, In b t /\ fst b <= c <= snd b).
Proof.
  induction t as [|a t IH]; intros c Hs; cbn [inRange1].
  - split; [discriminate|intros [b [[] _]]].
  - destruct (c <? fst a) eqn:E1.
    + split; [discriminate|]. intros [b [[<-|Hin] Hb]]; [lia|].
      pose proof (sorted_after _ _ _ Hs Hin). lia.
    + unfold inBlock. destruct ((fst a <=? c) && (c <=? snd a)) eqn:E2.
      * split; [|reflexivity]. intros _. exists a. split; [left; reflexivity|lia].
      * rewrite IH by (destruct t; [reflexivity|cbn [sortedb] in Hs; apply andb_true_iff in Hs; tauto]).
        split; intros [b [Hin Hb]].
        -- exists b. split; [right; exact Hin|exact Hb].
        -- destruct Hin as [<-|Hin]; [lia|]. exists b. auto.
Qed.

Ltac block_tac := intro c; rewrite inRange1_spec by reflexivity; split;
  [ intros [b [Hin Hb]]; cbn [In HiraganaBlocks KatakanaBlocks CommonKanjiBlocks RareKanjiBlocks
      PunctuationBlocks SymbolBlocks LetterBlocks NonSpacingBlocks] in Hin;
    repeat (destruct Hin as [<-|Hin]; [cbn [fst snd] in Hb;
      unfold hiragana, katakana, common_kanji, rare_kanji, punctuation, symbol, letter, variation_selector, within; lia|]);
    destruct Hin
  | unfold hiragana, katakana, common_kanji, rare_kanji, punctuation, symbol, letter, variation_selector, within; intro H ].
Ltac pick b := exists b; split; [cbn; tauto|cbn [fst snd]; lia].

Lemma r_hiragana : forall c, inRange1 c HiraganaBlocks = true <-> hiragana c.
Proof. block_tac. pick (0x3040, 0x309f). Qed.
Lemma r_katakana : forall c, inRange1 c KatakanaBlocks = true <-> katakana c.
Proof. block_tac. destruct H; [pick (0x30a0, 0x30ff)|pick (0x31f0, 0x31ff)]. Qed.
Lemma r_common : forall c, inRange1 c CommonKanjiBlocks = true <-> common_kanji c.
Proof.
  block_tac. destruct H as [H|[H|[H|H]]];
    [pick (0x3400, 0x4dbf)|pick (0x4e00, 0x9fff)|pick (0xf900, 0xfaff)|pick (0x20000, 0x2a6df)].
Qed.
Lemma r_rare : forall c, inRange1 c RareKanjiBlocks = true <-> rare_kanji c.
Proof.
  block_tac. destruct H as [H|[H|[H|H]]];
    [pick (0x2e80, 0x2eff)|pick (0x2a700, 0x2ebef)|pick (0x2f800, 0x2fa1f)|pick (0x30000, 0x3134f)].
Qed.
Lemma r_punct : forall c, inRange1 c PunctuationBlocks = true <-> punctuation c.
Proof. block_tac. destruct H as [H|[H|H]]; [pick (0x2000, 0x206f)|pick (0x3000, 0x303f)|pick (0xfff0, 0xffff)]. Qed.
Lemma r_symbol : forall c, inRange1 c SymbolBlocks = true <-> symbol c.
Proof.
  block_tac. destruct H as [H|[H|[H|[H|[H|[H|H]]]]]].
  - pick (0x2100, 0x214f).
  - destruct (c <? 0x2200) eqn:E; [pick (0x2190, 0x21ff)|pick (0x2200, 0x22ff)].
  - pick (0x2500, 0x257f).
  - destruct (c <? 0x2600) eqn:E; [pick (0x25a0, 0x25ff)|pick (0x2600, 0x26ff)].
  - pick (0x2ff0, 0x2fff).
  - pick (0x3190, 0x319f).
  - pick (0x31c0, 0x31ef).
Qed.
Lemma r_letter : forall c, inRange1 c LetterBlocks = true <-> letter c.
Proof.
  block_tac. destruct H as [H|[H|[H|[H|H]]]].
  - destruct (c <? 0x100) eqn:E; [pick (0x80, 0xff)|]. destruct (c <? 0x180) eqn:E2; [pick (0x100, 0x17f)|pick (0x180, 0x24f)].
  - pick (0x2150, 0x218f).
  - pick (0x2460, 0x24ff).
  - pick (0x2c60, 0x2c7f).
  - pick (0xff00, 0xffef).
Qed.
Lemma r_vs : forall c, inRange1 c NonSpacingBlocks = true <-> variation_selector c.
Proof. block_tac. pick (0xfe00, 0xfe0f). Qed.
Lemma r_ns : forall c, isNonSpacing c = true <-> non_spacing c.
Proof.
  intro c. unfold isNonSpacing, non_spacing, CombiningVoicedChar, CombiningSemiVoicedChar.
  rewrite !orb_true_iff, r_vs, !N.eqb_eq. tauto.
Qed.

(** what list of tables stands for what category *)
Definition table_of (ts : list (list block)) (P : N -> Prop) : Prop :=
  (forall c, inRange c ts = true <-> P c) /\ (forall c, P c -> 0x80 <= c).

Ltac table_tac := split; [intro c; cbn [inRange]; rewrite ?orb_true_iff, ?orb_false_r;
    rewrite ?r_hiragana, ?r_katakana, ?r_common, ?r_rare, ?r_punct, ?r_symbol, ?r_letter;
    unfold kana, kanji, recognized; intuition discriminate
  | intro c; unfold kana, kanji, recognized, hiragana, katakana, common_kanji, rare_kanji, punctuation, symbol, letter, within; lia ].
Lemma t_kana : table_of [HiraganaBlocks; KatakanaBlocks] kana. Proof. table_tac. Qed.
Lemma t_hiragana : table_of [HiraganaBlocks] hiragana. Proof. table_tac. Qed.
Lemma t_katakana : table_of [KatakanaBlocks] katakana. Proof. table_tac. Qed.
Lemma t_kanji : table_of [CommonKanjiBlocks; RareKanjiBlocks] kanji. Proof. table_tac. Qed.
Lemma t_common : table_of [CommonKanjiBlocks] common_kanji. Proof. table_tac. Qed.
Lemma t_rare : table_of [RareKanjiBlocks] rare_kanji. Proof. table_tac. Qed.
Lemma t_punct : table_of [PunctuationBlocks] punctuation. Proof. table_tac. Qed.
Lemma t_symbol : table_of [SymbolBlocks] symbol. Proof. table_tac. Qed.
Lemma t_letter : table_of [LetterBlocks] letter. Proof. table_tac. Qed.
Lemma t_recognized : table_of RecognizedBlocks recognized.
Proof. unfold RecognizedBlocks. table_tac. Qed.

(** ** Strings *)

Lemma chars_scalar : forall cs, chars cs -> Forall scalar cs.
Proof. intros cs H. eapply Forall_impl; [|exact H]. cbn. tauto. Qed.
Lemma chars_nonzero : forall cs, chars cs -> Forall (fun c => c <> 0) cs.
Proof. intros cs H. eapply Forall_impl; [|exact H]. cbn. tauto. Qed.
Lemma text_ok : forall cs, chars cs -> bytes_ok (text cs).
Proof. intros cs H. apply encs_bytes. apply chars_scalar. exact H. Qed.
Lemma text_no_nul : forall cs, chars cs -> no_nul (text cs).
Proof. intros cs H. apply encs_no_nul. apply chars_nonzero. exact H. Qed.
Lemma text_decode : forall cs n, chars cs ->
  fromUtf8 (text cs) n = Val (if n =? 0 then cs else firstn (N.to_nat n) cs).
Proof.
  intros cs n H. rewrite fromUtf8_decode by (apply text_ok; exact H).
  rewrite upto_nul_id by (apply text_no_nul; exact H).
  replace (decode (text cs)) with cs; [reflexivity|].
  symmetry. apply decode_encs. apply chars_scalar. exact H.
Qed.
Lemma text_nil : text [] = []. Proof. reflexivity. Qed.
Lemma text_cons : forall c r, text (c :: r) = enc c ++ text r. Proof. reflexivity. Qed.
Lemma enc_len : forall c, 1 <= len (enc c) <= 4.
Proof.
  intro c. unfold enc. destruct (c <? 128); [cbn; lia|]. destruct (c <? 2048); [cbn; lia|].
  destruct (c <? 65536); cbn; lia.
Qed.
Lemma enc_len_mb : forall c, 0x80 <= c -> 2 <= len (enc c).
Proof.
  intros c H. unfold enc. replace (c <? 128) with false by lia. destruct (c <? 2048); [cbn; lia|].
  destruct (c <? 65536); cbn; lia.
Qed.

Lemma starts_nil : forall P, ~ starts_of P [].
Proof. intros P [c [r [H _]]]. discriminate. Qed.

(** the character tests on one character *)
Lemma test_one : forall ts P cs, table_of ts P -> chars cs ->
  exists b, inWCharRange (text cs) true ts = Val b /\ (b = true <-> one_of P cs).
Proof.
  intros ts P cs [Ht Hp] Hc. unfold inWCharRange. cbn [negb].
  assert (Hsmall : one_of P cs -> 1 < len (text cs) /\ len (text cs) <= 8).
  { intros [c [Hc1 [->|[d [Hd ->]]]]]; rewrite ?text_cons, text_nil, ?len_app, len_nil;
      pose proof (enc_len c); pose proof (enc_len_mb c (Hp c Hc1)); [|pose proof (enc_len d)]; lia. }
  destruct (1 <? len (text cs)) eqn:E1.
  - unfold MaxMBSize. destruct (len (text cs) <=? 4 * 2) eqn:E2.
    + rewrite text_decode by exact Hc. cbn [obind]. replace (3 =? 0) with false by reflexivity.
      change (N.to_nat 3) with 3%nat. eexists. split; [reflexivity|].
      destruct cs as [|c [|d [|e r]]]; cbn [firstn].
      * split; [discriminate|]. intros [c [_ [H|[d [_ H]]]]]; discriminate.
      * rewrite Ht. split.
        -- intro H. exists c. auto.
        -- intros [x [Hx [H|[y [_ H]]]]]; inversion H; subst; exact Hx.
      * rewrite andb_true_iff, r_ns, Ht. split.
        -- intros [H1 H2]. exists c. split; [exact H2|]. right. exists d. auto.
        -- intros [x [Hx [H|[y [Hy H]]]]]; inversion H; subst; auto.
      * split; [discriminate|]. intros [x [_ [H|[y [_ H]]]]]; discriminate.
    + eexists. split; [reflexivity|]. split; [discriminate|]. intro H. apply Hsmall in H. lia.
  - eexists. split; [reflexivity|]. split; [discriminate|]. intro H. apply Hsmall in H. lia.
Qed.

Lemma test_first : forall ts P cs, table_of ts P -> chars cs ->
  exists b, inWCharRange (text cs) false ts = Val b /\ (b = true <-> starts_of P cs).
Proof.
  intros ts P cs [Ht Hp] Hc. unfold inWCharRange. cbn [negb].
  assert (Hsmall : starts_of P cs -> 1 < len (text cs)).
  { intros [c [r [-> Hc1]]]. rewrite text_cons, len_app. pose proof (enc_len_mb c (Hp c Hc1)). lia. }
  destruct (1 <? len (text cs)) eqn:E1.
  - rewrite text_decode by exact Hc. cbn [obind]. replace (1 =? 0) with false by reflexivity.
    change (N.to_nat 1) with 1%nat. eexists. split; [reflexivity|].
    destruct cs as [|c r]; cbn [firstn].
    + split; [discriminate|]. intro H. destruct (starts_nil P H).
    + rewrite Ht. split.
      * intro H. exists c, r. auto.
      * intros [x [q [H Hx]]]. inversion H; subst. exact Hx.
  - eexists. split; [reflexivity|]. split; [discriminate|]. intro H. apply Hsmall in H. lia.
Qed.

Lemma all_loop : forall ts P, table_of ts P -> forall cs,
  (allInRange false cs ts = true <-> all_of P cs)
  /\ (allInRange true cs ts = true <->
        all_of P cs /\ ~ (exists d q, cs = d :: q /\ non_spacing d)
        \/ exists d q, cs = d :: q /\ non_spacing d /\ all_of P q).
Proof.
  intros ts P [Ht _]. induction cs as [|c r [IH1 IH2]]; cbn [allInRange].
  - split.
    + split; [constructor|reflexivity].
    + split; [|reflexivity]. intros _. left. split; [constructor|]. intros [d [q [H _]]]. discriminate.
  - assert (Hfalse : (if inRange c ts then allInRange true r ts else false) = true <-> all_of P (c :: r)).
    { destruct (inRange c ts) eqn:E.
      - rewrite IH2. apply Ht in E. split.
        + intros [[H1 H2]|[d [q [-> [Hd Hq]]]]].
          * apply all_single; assumption.
          * apply all_pair; assumption.
        + intro H. inversion H; subst.
          * right. eauto 6.
          * left. auto.
      - split; [discriminate|]. intro H.
        assert (Hc : P c) by (inversion H; assumption). apply Ht in Hc. congruence. }
    split; [exact Hfalse|]. cbn [andb]. destruct (isNonSpacing c) eqn:En.
    + rewrite IH1. apply r_ns in En. split.
      * intro H. right. eauto.
      * intros [[_ H]|[d [q [H [_ Hq]]]]]; [exfalso; apply H; eauto|]. inversion H; subst. exact Hq.
    + rewrite Hfalse. split.
      * intro H. left. split; [exact H|]. intros [d [q [E Hd]]]. inversion E; subst.
        apply r_ns in Hd. congruence.
      * intros [[H _]|[d [q [E [Hd _]]]]]; [exact H|]. inversion E; subst. apply r_ns in Hd. congruence.
Qed.

Lemma test_all : forall ts P cs, table_of ts P -> chars cs ->
  exists b, inWCharRangeAll (text cs) ts = Val b /\ (b = true <-> all_of P cs).
Proof.
  intros ts P cs Ht Hc. unfold inWCharRangeAll. rewrite text_decode by exact Hc.
  cbn [obind]. eexists. split; [reflexivity|]. apply all_loop. exact Ht.
Qed.

(** ** Punctuation treats the wide space apart *)

Lemma startsWith_app : forall p q, startsWith (p ++ q) p = true.
Proof. induction p as [|x p IH]; intro q; [destruct q; reflexivity|]. cbn. rewrite N.eqb_refl. apply IH. Qed.
Lemma startsWith_iff : forall p s, startsWith s p = true <-> exists q, s = p ++ q.
Proof.
  induction p as [|x p IH]; intro s.
  - cbn. split; [exists s; reflexivity|destruct s; reflexivity].
  - destruct s as [|y s]; cbn [startsWith].
    + split; [discriminate|intros [q H]; discriminate].
    + rewrite andb_true_iff, N.eqb_eq, IH. split.
      * intros [-> [q ->]]. exists q. reflexivity.
      * intros [q H]. inversion H; subst. eauto.
Qed.
Lemma wide_space_first : forall cs, chars cs ->
  (startsWith (text cs) wideSpace = true <-> exists r, cs = 0x3000 :: r).
Proof.
  intros cs H. rewrite startsWith_iff. split.
  - intros [q Hq]. assert (E : decode (text cs) = 0x3000 :: decode q).
    { rewrite Hq. change wideSpace with (enc 0x3000). apply decode_enc. left. lia. }
    unfold text in E. rewrite decode_encs in E by (apply chars_scalar; exact H). eauto.
  - intros [r ->]. exists (text r). reflexivity.
Qed.
Lemma text_len_one : forall c r, chars (c :: r) -> 3 <= len (enc c) -> (len (text (c :: r)) < 4 <-> r = [] /\ len (enc c) = 3).
Proof.
  intros c r Hc H. rewrite text_cons, len_app. split.
  - intro Hl. destruct r as [|d r]; [split; [reflexivity|cbn in *; lia]|].
    rewrite text_cons, len_app in Hl. pose proof (enc_len d). lia.
  - intros [-> ->]. cbn. lia.
Qed.
(** categories other than wide space *)
Lemma test_punct : forall cs space one, chars cs ->
  exists b, isMBPunctuation (text cs) space one = Val b
    /\ (b = true <->
        (~ (exists r, cs = 0x3000 :: r) /\ (if one then one_of punctuation cs else starts_of punctuation cs))
        \/ (space = true /\ if one then cs = [0x3000] else exists r, cs = 0x3000 :: r)).
Proof.
  intros cs space one Hc. unfold isMBPunctuation.
  destruct (startsWith (text cs) wideSpace) eqn:E.
  - apply wide_space_first in E; [|exact Hc]. destruct E as [r ->].
    eexists. split; [reflexivity|]. rewrite andb_true_iff, orb_true_iff, N.ltb_lt.
    assert (H3 : len (enc 0x3000) = 3) by reflexivity.
    rewrite (text_len_one 0x3000 r Hc) by (rewrite H3; lia). rewrite H3. destruct one; cbn [negb].
    + split.
      * intros [H1 [[-> _]|H2]]; [right; auto|discriminate].
      * intros [[H _]|[H1 H2]]; [exfalso; apply H; eauto|]. inversion H2; subst. auto.
    + split.
      * intros [H1 _]. right. eauto.
      * intros [[H _]|[H1 H2]]; [exfalso; apply H; eauto|]. auto.
  - assert (En : ~ exists r, cs = 0x3000 :: r).
    { intro H. apply wide_space_first in H; [congruence|exact Hc]. }
    destruct one.
    + destruct (test_one _ _ cs t_punct Hc) as [b [Hb Hi]]. exists b. split; [exact Hb|]. rewrite Hi. split.
      * intro H. left. auto.
      * intros [[_ H]|[_ ->]]; [exact H|]. exfalso. apply En. eauto.
    + destruct (test_first _ _ cs t_punct Hc) as [b [Hb Hi]]. exists b. split; [exact Hb|]. rewrite Hi. split.
      * intro H. left. auto.
      * intros [[_ H]|[_ H]]; [exact H|]. contradiction.
Qed.

(** ** Regex ranges *)

Lemma fill_len : forall bs, len (fillRange bs) = len bs * 3.
Proof. induction bs as [|b r IH]; [reflexivity|]. cbn [fillRange]. rewrite !len_cons, IH. lia. Qed.
Lemma fill_matches : forall bs c, bracket_matches (fillRange bs) c <-> exists b, In b bs /\ fst b <= c <= snd b.
Proof.
  induction bs as [|b r IH]; intro c.
  - cbn. split; [tauto|intros [b [[] _]]].
  - cbn [fillRange bracket_matches]. rewrite IH. unfold within. split.
    + intros [H|[x [Hx H]]]; [exists b; split; [left; reflexivity|exact H]|exists x; split; [right; exact Hx|exact H]].
    + intros [x [[<-|Hx] H]]; [left; exact H|right; eauto].
Qed.
Lemma range_at : forall bs i,
  (i < rangeSize bs -> exists c, rangeAt bs i = Val c /\ nth_error (fillRange bs) (N.to_nat i) = Some c)
  /\ (i = rangeSize bs -> rangeAt bs i = Val 0)
  /\ (rangeSize bs < i -> rangeAt bs i = Throw RangeError).
Proof.
  intros bs i. unfold rangeAt, rangeArray. pose proof (fill_len bs) as Hl. unfold rangeSize, len in *.
  split; [|split]; intro H.
  - replace (N.of_nat (List.length bs) * 3 <? i) with false by lia.
    rewrite nth_error_app1 by lia. destruct (nth_error (fillRange bs) (N.to_nat i)) as [c|] eqn:E; [eauto|].
    apply nth_error_None in E. lia.
  - subst i. rewrite N.ltb_irrefl. rewrite nth_error_app2 by lia.
    replace (N.to_nat (N.of_nat (List.length bs) * 3) - List.length (fillRange bs))%nat with 0%nat by lia. reflexivity.
  - replace (N.of_nat (List.length bs) * 3 <? i) with true by lia. reflexivity.
Qed.
Lemma fill_nth : forall bs k b, nth_error bs k = Some b ->
  nth_error (fillRange bs) (3 * k) = Some (fst b)
  /\ nth_error (fillRange bs) (3 * k + 1) = Some 0x2D
  /\ nth_error (fillRange bs) (3 * k + 2) = Some (snd b).
Proof.
  induction bs as [|a r IH]; intros [|k] b H; cbn [nth_error] in H; try discriminate.
  - inversion H; subst. repeat split.
  - specialize (IH k b H). replace (3 * S k)%nat with (S (S (S (3 * k)))) by lia. exact IH.
Qed.
