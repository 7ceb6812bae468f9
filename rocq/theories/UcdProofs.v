(** Lemmas about the Unicode data. *)
From Coq Require Import ListDec Permutation Sorted.
From Verif Require Import BaseFacts Utf8Proofs Utf8Lemmas BlockProofs ColumnFileProofs ColumnFileLemmas ListProofs StringProofs IdsProofs EnumProofs MapProofs Utf8CharSpec Utf8CharLemmas.
From Verif Require Import EnumSpec.
From Verif Require Export UcdSpec.
Open Scope N_scope.
Arguments N.mul : simpl never.
Arguments N.add : simpl never.
Arguments N.sub : simpl never.
Arguments N.div : simpl never.
Arguments N.modulo : simpl never.
Arguments N.land : simpl never.
Arguments N.lor : simpl never.
Arguments N.pow : simpl never.

(** ** Letters of sources *)
Lemma land_pow : forall r i, (N.land r (2^i) =? 0) = negb (N.testbit r i).
Proof.
  intros r i. destruct (N.testbit r i) eqn:E; cbn [negb].
  - apply N.eqb_neq. intro H.
    assert (T : N.testbit (N.land r (2^i)) i = true) by (rewrite N.land_spec, E, N.pow2_bits_true; reflexivity).
    rewrite H, N.bits_0 in T. discriminate.
  - apply N.eqb_eq. apply N.bits_inj. intro j. rewrite N.land_spec, N.bits_0, N.pow2_bits_eqb.
    destruct (N.eqb_spec i j) as [<-|]; [rewrite E|]; [reflexivity|apply andb_false_r].
Qed.
Lemma lor_pow : forall r i j, N.testbit (N.lor r (2^i)) j = N.testbit r j || (i =? j).
Proof. intros. rewrite N.lor_spec, N.pow2_bits_eqb. reflexivity. Qed.

(** number of a letter *)
Definition letterIndex (c : N) : option N :=
  if 71 =? c then Some 0 else if 72 =? c then Some 1 else if 74 =? c then Some 2
  else if 75 =? c then Some 3 else if 84 =? c then Some 4 else if 86 =? c then Some 5 else None.
Lemma letterBit_index : forall c, letterBit SourceLetterMap c = option_map (fun i => 2^i) (letterIndex c).
Proof.
  intro c. unfold letterIndex, SourceLetterMap. cbn [letterBit].
  repeat (match goal with |- context [?a =? c] => destruct (a =? c) end; [reflexivity|]). reflexivity.
Qed.
Lemma letter_In : forall c, In c source_letters <-> letterIndex c <> None.
Proof.
  intro c. change source_letters with [71; 72; 74; 75; 84; 86]. unfold letterIndex. cbn [In].
  repeat (match goal with |- context [?a =? c] => destruct (N.eqb_spec a c) end; [split; [discriminate|intro; tauto]|]).
  split; [intros H; exfalso; tauto|congruence].
Qed.
Lemma letterIndex_inj : forall a b i, letterIndex a = Some i -> letterIndex b = Some i -> a = b.
Proof.
  intros a b i. unfold letterIndex.
  repeat (match goal with |- context [?x =? a] => destruct (N.eqb_spec x a) end); subst; try discriminate;
  repeat (match goal with |- context [?x =? b] => destruct (N.eqb_spec x b) end); subst; congruence.
Qed.
Lemma letterIndex_lt : forall c i, letterIndex c = Some i -> i < 6.
Proof.
  intros c i. unfold letterIndex.
  repeat (match goal with |- context [?x =? c] => destruct (N.eqb_spec x c) end); intro H; try discriminate; injection H as <-; lia.
Qed.

(** the bits of a list of letters *)
Definition letterBits (s : bytes) (j : N) : bool :=
  existsb (fun c => match letterIndex c with Some i => i =? j | None => false end) s.

Lemma sourcesLoop_spec : forall s r,
  (forall c, In c s -> In c source_letters) -> NoDup s ->
  (forall c i, In c s -> letterIndex c = Some i -> N.testbit r i = false) ->
  exists r', sourcesLoop s r = Val r' /\ forall j, N.testbit r' j = N.testbit r j || letterBits s j.
Proof.
  induction s as [|c s IH]; intros r Hl Hn Hr.
  - exists r. split; [reflexivity|]. intro j. cbn [letterBits existsb]. rewrite orb_false_r. reflexivity.
  - cbn [sourcesLoop]. rewrite letterBit_index.
    destruct (letterIndex c) as [i|] eqn:E.
    + cbn [option_map]. rewrite land_pow, (Hr c i (or_introl eq_refl) E). cbn [negb].
      apply NoDup_cons_iff in Hn. destruct Hn as [Hc Hn].
      destruct (IH (N.lor r (2^i))) as [r' [E' H]].
      * intros x Hx. apply Hl. right. exact Hx.
      * exact Hn.
      * intros x k Hx Hk. rewrite lor_pow, (Hr x k (or_intror Hx) Hk). cbn [orb].
        apply N.eqb_neq. intros ->. apply Hc. rewrite (letterIndex_inj c x k E Hk). exact Hx.
      * exists r'. split; [exact E'|]. intro j. rewrite H, lor_pow. cbn [letterBits existsb]. rewrite E.
        rewrite orb_assoc. reflexivity.
    + exfalso. apply (proj1 (letter_In c) (Hl c (or_introl eq_refl))). exact E.
Qed.
Lemma sourcesLoop_bad : forall s r,
  ~ ((forall c, In c s -> In c source_letters) /\ NoDup s /\
     (forall c i, In c s -> letterIndex c = Some i -> N.testbit r i = false)) ->
  sourcesLoop s r = Throw DomainError.
Proof.
  induction s as [|c s IH]; intros r H.
  - exfalso. apply H. split; [intros x []|]. split; [constructor|intros x i []].
  - cbn [sourcesLoop]. rewrite letterBit_index. destruct (letterIndex c) as [i|] eqn:E; [|reflexivity].
    cbn [option_map]. rewrite land_pow. destruct (N.testbit r i) eqn:B; cbn [negb]; [reflexivity|].
    apply IH. intros [H1 [H2 H3]]. apply H. split; [|split].
    + intros x [<-|Hx]; [|apply H1; exact Hx]. apply letter_In. rewrite E. discriminate.
    + constructor; [|exact H2]. intro Hc. specialize (H3 c i Hc E). rewrite lor_pow, N.eqb_refl, orb_true_r in H3. discriminate.
    + intros x k [<-|Hx] Hk; [congruence|]. specialize (H3 x k Hx Hk). rewrite lor_pow in H3.
      apply orb_false_iff in H3. tauto.
Qed.
Lemma sourcesLoop_total : forall s r, (exists r', sourcesLoop s r = Val r') \/ sourcesLoop s r = Throw DomainError.
Proof.
  induction s as [|c s IH]; intro r; [left; eexists; reflexivity|].
  cbn [sourcesLoop]. destruct (letterBit SourceLetterMap c); [|right; reflexivity].
  destruct (negb (N.land r n =? 0)); [right; reflexivity|apply IH].
Qed.

Lemma good_len : forall s, good_sources s -> len s <= 6.
Proof.
  intros s [H1 H2]. pose proof (NoDup_incl_length H1 H2) as H.
  change (List.length source_letters) with 6%nat in H. unfold len. lia.
Qed.

(** the flags and letters of the bits *)
Definition bitsOf (s : bytes) (j n : bool) (i : N) : bool :=
  letterBits s i || (j && (6 =? i)) || (n && (7 =? i)).
Lemma letterBits_high : forall s j, 6 <= j -> letterBits s j = false.
Proof.
  induction s as [|c s IH]; intros j H; [reflexivity|]. cbn [letterBits existsb].
  destruct (letterIndex c) as [i|] eqn:E; [|apply IH; exact H].
  apply letterIndex_lt in E. replace (i =? j) with false by lia. apply IH. exact H.
Qed.
Lemma getSources_spec : forall s j n, good_sources s ->
  exists b, getSources s j n = Val b /\ forall i, N.testbit b i = bitsOf s j n i.
Proof.
  intros s j n H. pose proof (good_len s H) as Hl. destruct H as [Hn Hi].
  unfold getSources. change (len SourceLetterMap) with 6. replace (6 <? len s) with false by lia.
  destruct (sourcesLoop_spec s 0 Hi Hn) as [r [E Hr]]; [intros; apply N.bits_0|].
  rewrite E. cbn [obind]. eexists. split; [reflexivity|]. intro i. unfold bitsOf.
  change Joyo_bit with (2^6). change Jinmei_bit with (2^7).
  destruct j, n; rewrite ?lor_pow, Hr, N.bits_0; cbn [orb andb]; rewrite ?orb_false_r; reflexivity.
Qed.
Lemma getSources_bad : forall s j n, ~ good_sources s -> getSources s j n = Throw DomainError.
Proof.
  intros s j n H. unfold getSources. destruct (len SourceLetterMap <? len s); [reflexivity|].
  rewrite sourcesLoop_bad; [reflexivity|]. intros [H1 [H2 _]]. apply H. split; assumption.
Qed.
Lemma good_sources_dec : forall s, good_sources s \/ ~ good_sources s.
Proof.
  intro s. destruct (sourcesLoop_total s 0) as [[r E]|E].
  - left. split.
    + destruct (ListDec.NoDup_dec N.eq_dec s) as [|H]; [assumption|]. exfalso.
      rewrite sourcesLoop_bad in E; [discriminate|]. tauto.
    + destruct (ListDec.incl_dec N.eq_dec s source_letters) as [|H]; [assumption|]. exfalso.
      rewrite sourcesLoop_bad in E; [discriminate|]. intros [H1 _]. apply H. exact H1.
  - right. intros H. destruct (sourcesLoop_spec s 0) as [r [E' _]]; [exact (proj2 H)|exact (proj1 H)|intros; apply N.bits_0|congruence].
Qed.

Lemma flag_bit : forall b i, negb (N.land b (2^i) =? 0) = N.testbit b i.
Proof. intros. rewrite land_pow. apply negb_involutive. Qed.
Lemma letterBits_In : forall s c i, letterIndex c = Some i -> letterBits s i = existsb (N.eqb c) s.
Proof.
  induction s as [|x s IH]; intros c i E; [reflexivity|]. cbn [letterBits existsb]. fold (letterBits s i).
  rewrite (IH c i E). f_equal. destruct (N.eqb_spec c x) as [<-|Hx].
  - rewrite E. apply N.eqb_refl.
  - destruct (letterIndex x) as [k|] eqn:F; [|reflexivity]. apply N.eqb_neq. intros ->. apply Hx. exact (letterIndex_inj c x i E F).
Qed.
Lemma sources_text : forall u s j n, (forall i, N.testbit (ucdBits u) i = bitsOf s j n i) ->
  sources u = filter (fun c => existsb (N.eqb c) s) source_letters /\ joyo u = j /\ jinmei u = n
  /\ ucdBits u < 256.
Proof.
  intros u s j n H. split; [|split; [|split]].
  - unfold sources, SourceLetterMap. cbn [flat_map].
    change source_letters with [71; 72; 74; 75; 84; 86]. cbn [filter].
    change 1 with (2^0). change 2 with (2^1). change 4 with (2^2). change 8 with (2^3) at 1. change 16 with (2^4). change 32 with (2^5).
    rewrite !land_pow, !H. unfold bitsOf.
    rewrite (letterBits_In s 71 0), (letterBits_In s 72 1), (letterBits_In s 74 2), (letterBits_In s 75 3), (letterBits_In s 84 4), (letterBits_In s 86 5) by reflexivity.
    repeat match goal with |- context [existsb ?p s] => destruct (existsb p s) end; destruct j, n; reflexivity.
  - unfold joyo. change Joyo_bit with (2^6). rewrite flag_bit, H. unfold bitsOf. rewrite letterBits_high by lia. destruct j, n; reflexivity.
  - unfold jinmei. change Jinmei_bit with (2^7). rewrite flag_bit, H. unfold bitsOf. rewrite letterBits_high by lia. destruct j, n; reflexivity.
  - change 256 with (2^8). destruct (N.lt_ge_cases (ucdBits u) (2^8)) as [L|L]; [exact L|]. exfalso.
    assert (Hl : 8 <= N.log2 (ucdBits u)).
    { replace 8 with (N.log2 (2^8)) by (apply N.log2_pow2; lia). apply N.log2_le_mono. exact L. }
    assert (B : N.testbit (ucdBits u) (N.log2 (ucdBits u)) = true) by (apply N.bit_log2; intro Z; rewrite Z in L; vm_compute in L; lia).
    rewrite H in B. unfold bitsOf in B. rewrite letterBits_high in B by lia.
    replace (6 =? N.log2 (ucdBits u)) with false in B by lia. replace (7 =? N.log2 (ucdBits u)) with false in B by lia.
    rewrite !andb_false_r in B. discriminate.
Qed.

(** ** Names of Kanji *)
Lemma dec1_exact : forall b r c r', bytes_ok (b :: r) -> dec1 b r = (c, r') -> c <> 0xfffd -> b :: r = enc c ++ r'.
Proof.
  intros b r c r' Hok E Hc. unfold dec1 in E.
  destruct (b <? 128) eqn:E1.
  { injection E as <- <-. unfold enc. rewrite E1. reflexivity. }
  destruct ((b <? 192) || (248 <=? b)) eqn:E2; [injection E as <- <-; congruence|].
  apply orb_false_iff in E2. destruct E2 as [E2 E2'].
  destruct r as [|b2 r]; [injection E as <- <-; congruence|].
  destruct (is_cont b2) eqn:C2; cbn [negb] in E; [|injection E as <- <-; congruence].
  apply cont_bounds in C2.
  destruct (b <? 224) eqn:E3.
  { destruct (194 <=? b) eqn:E4; [|injection E as <- <-; congruence]. injection E as <- <-. unfold enc.
    set (t := (b - 192) * 64 + (b2 - 128)) in *.
    replace (t <? 128) with false by (unfold t; lia). replace (t <? 2048) with true by (unfold t; lia).
    cbn [app]. repeat f_equal; unfold t; lia. }
  destruct r as [|b3 r]; [injection E as <- <-; congruence|].
  destruct (is_cont b3) eqn:C3; cbn [negb] in E; [|injection E as <- <-; congruence].
  apply cont_bounds in C3.
  destruct (b <? 240) eqn:E5.
  { cbv zeta in E. set (t := (b - 224) * 4096 + ((b2 - 128) * 64 + (b3 - 128))) in *.
    destruct ((2047 <? t) && ((t <? 55296) || (57343 <? t))) eqn:E4; [|injection E as <- <-; congruence].
    injection E as <- <-. unfold enc.
    replace (t <? 128) with false by lia. replace (t <? 2048) with false by lia.
    replace (t <? 65536) with true by (unfold t; lia).
    cbn [app]. repeat f_equal; unfold t; lia. }
  destruct r as [|b4 r]; [injection E as <- <-; congruence|].
  destruct (is_cont b4) eqn:C4; cbn [negb] in E; [|injection E as <- <-; congruence].
  apply cont_bounds in C4.
  cbv zeta in E. set (t := (b - 240) * 262144 + ((b2 - 128) * 4096 + ((b3 - 128) * 64 + (b4 - 128)))) in *.
  destruct ((65535 <? t) && (t <=? 1114111)) eqn:E4; [|injection E as <- <-; congruence].
  injection E as <- <-. unfold enc.
  replace (t <? 128) with false by lia. replace (t <? 2048) with false by lia.
  replace (t <? 65536) with false by lia.
  cbn [app]. repeat f_equal; unfold t; lia.
Qed.

Lemma decode_one : forall s c, bytes_ok s -> c <> 0xfffd -> decode s = [c] -> s = enc c.
Proof.
  intros [|b r] c Hok Hc E; [discriminate|]. rewrite decode_cons in E. destruct (dec1 b r) as [x r'] eqn:D. cbn [fst snd] in E.
  injection E as -> E. pose proof (dec1_exact b r c r' Hok D Hc) as H. rewrite H.
  destruct r' as [|b' r'']; [apply app_nil_r|]. rewrite decode_cons in E. discriminate.
Qed.
Lemma decode_two : forall s c d, bytes_ok s -> c <> 0xfffd -> d <> 0xfffd -> decode s = [c; d] -> s = enc c ++ enc d.
Proof.
  intros [|b r] c d Hok Hc Hd E; [discriminate|]. rewrite decode_cons in E. destruct (dec1 b r) as [x r'] eqn:D. cbn [fst snd] in E.
  injection E as -> E. pose proof (dec1_exact b r c r' Hok D Hc) as H. rewrite H. f_equal.
  apply decode_one; [|exact Hd|exact E]. apply Forall_cons_iff in Hok. pose proof (dec1_ok b r (proj2 Hok)) as K. rewrite D in K. exact K.
Qed.
Lemma kanji_scalar : forall c, kanji c -> scalar c /\ 0x80 <= c /\ c <> 0xfffd.
Proof. intros c H. unfold kanji, common_kanji, rare_kanji, within, scalar in *. lia. Qed.
Lemma ns_scalar : forall c, non_spacing c -> scalar c /\ c <> 0xfffd.
Proof. intros c H. unfold non_spacing, variation_selector, within, scalar in *. lia. Qed.

Lemma len_upto : forall s, len (upto_nul s) <= len s.
Proof.
  induction s as [|b r IH]; [cbn; lia|]. cbn [upto_nul]. destruct (b =? 0); rewrite ?len_cons, ?len_nil; lia.
Qed.
Lemma newEntry_spec : forall code s, bytes_ok s ->
  (kanji_name s code -> newEntry code s = Val s) /\ (~ kanji_name s code -> newEntry code s = Throw DomainError).
Proof.
  intros code s Hok. pose proof (upto_nul_ok s Hok) as Hu.
  assert (Hk : forall c, kanji_name s c -> isKanji s true = Val true /\ getCode s = Val c).
  { intros c [Hk [Hl Hc]]. destruct (kanji_scalar c Hk) as [Hs [H80 Hf]].
    assert (D : decode (upto_nul s) = [c] \/ exists d, isNonSpacing d = true /\ decode (upto_nul s) = [c; d]).
    { destruct Hc as [->|[d [Hd ->]]].
      - left. pose proof (decode_encs [c]) as K. cbn [flat_map] in K. rewrite app_nil_r in K. apply K. constructor; [exact Hs|constructor].
      - right. exists d. split; [apply r_ns; exact Hd|].
        pose proof (decode_encs [c; d]) as K. cbn [flat_map] in K. rewrite app_nil_r in K. apply K.
        destruct (ns_scalar d Hd). constructor; [exact Hs|]. constructor; [assumption|constructor]. }
    split.
    - unfold isKanji, inWCharRange. pose proof (enc_len_mb c H80) as L. pose proof (len_upto s) as L2.
      replace (1 <? len s) with true.
      2:{ symmetry. apply N.ltb_lt. destruct Hc as [Hc|[d [_ Hc]]]; rewrite Hc in L2; rewrite ?len_app in L2; lia. }
      cbn [negb]. unfold MaxMBSize. replace (len s <=? 4 * 2) with true by lia.
      rewrite fromUtf8_decode by exact Hok. cbn [obind]. replace (3 =? 0) with false by reflexivity.
      change (N.to_nat 3) with 3%nat.
      destruct D as [->|[d [Hd ->]]]; cbn [firstn]; rewrite ?Hd; cbn [andb];
      rewrite (proj2 (proj1 t_kanji c) Hk); reflexivity.
    - rewrite getCode_decode by exact Hok. destruct D as [->|[d [_ ->]]]; reflexivity. }
  split.
  - intro H. unfold newEntry. destruct (Hk code H) as [-> ->]. cbn [obind negb]. rewrite N.eqb_refl. reflexivity.
  - intro H. unfold newEntry.
    assert (Hb : (exists b, isKanji s true = Val b /\ (b = true -> exists c, kanji_name s c))).
    { unfold isKanji, inWCharRange. destruct (1 <? len s) eqn:L1; [|exists false; split; [reflexivity|discriminate]].
      cbn [negb]. unfold MaxMBSize. destruct (len s <=? 4 * 2) eqn:L2; [|exists false; split; [reflexivity|discriminate]].
      rewrite fromUtf8_decode by exact Hok. cbn [obind]. replace (3 =? 0) with false by reflexivity.
      change (N.to_nat 3) with 3%nat. eexists. split; [reflexivity|].
      destruct (decode (upto_nul s)) as [|c [|d [|e r]]] eqn:D; cbn [firstn]; try discriminate.
      - intro K. apply (proj1 t_kanji) in K. exists c. split; [exact K|]. split; [lia|]. left.
        destruct (kanji_scalar c K) as [_ [_ Kf]]. apply decode_one; assumption.
      - intro K. apply andb_true_iff in K. destruct K as [K1 K]. apply (proj1 t_kanji) in K. apply r_ns in K1.
        exists c. split; [exact K|]. split; [lia|]. right. exists d. split; [exact K1|].
        destruct (kanji_scalar c K) as [_ [_ Kf]]. destruct (ns_scalar d K1). apply decode_two; assumption. }
    destruct Hb as [[|] [E B]]; rewrite E; cbn [obind negb]; [|reflexivity].
    destruct (B eq_refl) as [c Hc]. destruct (Hk c Hc) as [_ ->]. cbn [obind].
    destruct (N.eqb_spec code c) as [->|]; [contradiction|reflexivity].
Qed.
Lemma kanji_name_dec : forall s c, bytes_ok s -> kanji_name s c \/ ~ kanji_name s c.
Proof.
  intros s c Hok. destruct (newEntry_spec c s Hok) as [H1 H2].
  assert (D : newEntry c s = Val s \/ newEntry c s <> Val s) by (destruct (newEntry c s) as [x|e| |]; [destruct (bytes_eq_dec x s); [left|right]; congruence|right; discriminate..]).
  destruct D as [D|D]; [left|right; intro K; apply D; apply H1; exact K].
  unfold newEntry in D.
  unfold isKanji, inWCharRange in D. destruct (1 <? len s) eqn:L1; [|discriminate].
  cbn [negb] in D. unfold MaxMBSize in D. destruct (len s <=? 4 * 2) eqn:L2; [|discriminate].
  rewrite fromUtf8_decode in D by exact Hok. cbn [obind] in D. replace (3 =? 0) with false in D by reflexivity.
  change (N.to_nat 3) with 3%nat in D. rewrite getCode_decode in D by exact Hok. pose proof (upto_nul_ok s Hok) as Hu.
  destruct (decode (upto_nul s)) as [|x [|d [|e r]]] eqn:Ds; cbn [firstn obind hd] in D; try discriminate.
  - destruct (inRange x [CommonKanjiBlocks; RareKanjiBlocks]) eqn:K; cbn [negb] in D; [|discriminate].
    destruct (N.eqb_spec c x) as [->|]; [|discriminate]. apply (proj1 t_kanji) in K.
    split; [exact K|]. split; [lia|]. left. destruct (kanji_scalar x K) as [_ [_ Kf]]. apply decode_one; assumption.
  - destruct (isNonSpacing d) eqn:K1; cbn [andb negb] in D; [|discriminate].
    destruct (inRange x [CommonKanjiBlocks; RareKanjiBlocks]) eqn:K; cbn [negb] in D; [|discriminate].
    destruct (N.eqb_spec c x) as [->|]; [|discriminate]. apply (proj1 t_kanji) in K. apply r_ns in K1.
    split; [exact K|]. split; [lia|]. right. exists d. split; [exact K1|].
    destruct (kanji_scalar x K) as [_ [_ Kf]]. destruct (ns_scalar d K1). apply decode_two; assumption.
Qed.

(** ** One row *)

(** [x] returns exactly the values satisfying [P], and throws otherwise *)
Definition exact_ {A} (x : out A) (P : A -> Prop) : Prop :=
  (forall v, x = Val v <-> P v) /\ ((exists v, x = Val v) \/ exists e, x = Throw e).
Lemma exact_u64 : forall s m, exact_ (processU64 s m) (fun v => loose_number s v /\ (m = 0 \/ v <= m)).
Proof.
  intros s m. destruct (processU64_iff s m) as [H1 H2]. split; [exact H1|].
  destruct (processU64 s m) as [v|e| |] eqn:E; [left; eexists; reflexivity|right; eexists; reflexivity|..];
  exfalso; assert (K : processU64 s m = Throw DomainError) by (rewrite E; apply H2; intros; discriminate); congruence.
Qed.
Lemma exact_char32 : forall s, exact_ (convChar32 s) (hex_code s).
Proof.
  intros s. destruct (char32_iff s) as [H1 H2]. split; [exact H1|].
  destruct (convChar32 s) as [v|e| |] eqn:E; [left; eexists; reflexivity|right; eexists; reflexivity|..];
  exfalso; assert (K : convChar32 s = Throw DomainError) by (rewrite E; apply H2; intros; discriminate); congruence.
Qed.
Lemma exact_bool : forall s, exact_ (convBool s) (flag s).
Proof.
  intro s. pose proof (bool_spec s) as H. split.
  - intro v. rewrite H. unfold flag.
    destruct (in_dec bytes_eq_dec s [b_ "Y"; b_ "T"]) as [I|I].
    + destruct v; [split; [intros _; exact I|reflexivity]|]. split; [discriminate|].
      intro J. exfalso. destruct I as [<-|[<-|[]]]; destruct J as [J|[J|[J|[]]]]; discriminate J.
    + destruct (in_dec bytes_eq_dec s [[]; b_ "N"; b_ "F"]) as [J|J].
      * destruct v; [split; [discriminate|intro; contradiction]|split; [intros _; exact J|reflexivity]].
      * split; [discriminate|]. destruct v; intro; contradiction.
  - rewrite H. destruct (in_dec bytes_eq_dec s [b_ "Y"; b_ "T"]); [left; eexists; reflexivity|].
    destruct (in_dec bytes_eq_dec s [[]; b_ "N"; b_ "F"]); [left|right]; eexists; reflexivity.
Qed.
Lemma exact_entry : forall c s, bytes_ok s -> exact_ (newEntry c s) (fun v => v = s /\ kanji_name s c).
Proof.
  intros c s Hok. destruct (newEntry_spec c s Hok) as [H1 H2]. destruct (kanji_name_dec s c Hok) as [K|K].
  - rewrite (H1 K). split; [|left; eexists; reflexivity]. intro v. split; [intros [= ->]; auto|intros [-> _]; reflexivity].
  - rewrite (H2 K). split; [|right; eexists; reflexivity]. intro v. split; [discriminate|tauto].
Qed.
Lemma exact_bind : forall A B (x : out A) (f : A -> out B) P Q,
  exact_ x P -> (forall a, P a -> exact_ (f a) (Q a)) -> exact_ (obind x f) (fun b => exists a, P a /\ Q a b).
Proof.
  intros A B x f P Q [H1 H2] Hf. destruct H2 as [[a E]|[e E]].
  - rewrite E. cbn [obind]. pose proof (proj1 (H1 a) E) as Pa. destruct (Hf a Pa) as [F1 F2]. split; [|exact F2].
    intro v. rewrite F1. split; [intro; exists a; auto|]. intros [a' [Pa' Q']].
    apply H1 in Pa'. rewrite E in Pa'. injection Pa' as <-. exact Q'.
  - rewrite E. cbn [obind]. split; [|right; eexists; reflexivity]. intro v. split; [discriminate|].
    intros [a [Pa _]]. apply H1 in Pa. congruence.
Qed.
Lemma exact_throw : forall A e (P : A -> Prop), (forall v, ~ P v) -> exact_ (Throw e) P.
Proof. intros A e P H. split; [|right; eexists; reflexivity]. intro v. split; [discriminate|intro K; destruct (H v K)]. Qed.
Lemma exact_val : forall A (a : A), exact_ (Val a) (fun v => v = a).
Proof. intros A a. split; [|left; eexists; reflexivity]. intro v. split; [intros [= ->]; reflexivity|intros ->; reflexivity]. Qed.
Lemma exact_iff : forall A (x : out A) P Q, exact_ x P -> (forall v, P v <-> Q v) -> exact_ x Q.
Proof. intros A x P Q [H1 H2] H. split; [|exact H2]. intro v. rewrite H1. apply H. Qed.

Lemma exact_zip : forall names codes, Forall bytes_ok names ->
  exact_ (zipLinks names codes) (fun v => v = names /\ exists cs ex, codes = cs ++ ex
     /\ Forall2 (fun n c => exists x, hex_code c x /\ kanji_name n x) names cs).
Proof.
  induction names as [|n ns IH]; intros codes Hok; cbn [zipLinks].
  - eapply exact_iff; [apply exact_val|]. intro v. split; [|tauto]. intros ->. split; [reflexivity|].
    exists [], codes. split; [reflexivity|constructor].
  - apply Forall_cons_iff in Hok. destruct Hok as [Hn Hns]. destruct codes as [|c codes].
    + apply exact_throw. intros v [_ [cs [ex [E F]]]]. inversion F; subst. discriminate.
    + eapply exact_iff.
      * apply exact_bind; [apply exact_char32|]. intros x Hx. apply exact_bind; [apply exact_entry; exact Hn|].
        intros e He. apply exact_bind; [apply IH; exact Hns|]. intros r Hr. apply exact_val.
      * intro v. cbv beta. split.
        -- intros [x [Hx [e [[-> Hk] [r [[-> [cs [ex [-> F]]]] ->]]]]]]. split; [reflexivity|].
           exists (c :: cs), ex. split; [reflexivity|]. constructor; [exists x; auto|exact F].
        -- intros [-> [cs [ex [E F]]]]. inversion F as [|n' c' ns' cs' [x [Hx Hk]] F']; subst.
           cbn [app] in E. injection E as -> ->. exists x. split; [exact Hx|]. exists n. split; [auto|].
           exists ns. split; [|reflexivity]. split; [reflexivity|]. exists cs', ex. auto.
Qed.

Lemma isEmptyField_iff : forall s, isEmptyField s = true <-> s = [].
Proof. intros [|x s]; split; intro H; try reflexivity; discriminate. Qed.
Lemma isEmptyField_false : forall s, isEmptyField s = false <-> s <> [].
Proof. intros [|x s]; split; intro H; try reflexivity; try discriminate; congruence. Qed.


Lemma exact_links : forall r j, bytes_ok (rLinkNames r) ->
  exact_ (loadLinks r j) (fun v => row_links r v
    /\ (j = true -> rLinkNames r = [])
    /\ (rLinkNames r = [] -> rLinkCodes r = [] /\ rLinkType r = [])
    /\ (rLinkNames r <> [] -> rLinkType r <> [])).
Proof.
  intros r j Hok. unfold loadLinks, row_links.
  destruct (isEmptyField (rLinkNames r)) eqn:E; cbn [negb].
  - apply isEmptyField_iff in E. rewrite E.
    destruct (isEmptyField (rLinkType r)) eqn:E2; cbn [negb].
    + apply isEmptyField_iff in E2. destruct (isEmptyField (rLinkCodes r)) eqn:E3; cbn [negb].
      * apply isEmptyField_iff in E3. eapply exact_iff; [apply exact_val|]. intro v. rewrite E2, E3. split.
        -- intros ->. split; [|split; [auto|split; [auto|congruence]]]. split; [apply cut_getlines; reflexivity|].
           exists [], []. split; [apply cut_getlines; reflexivity|constructor].
        -- intros [[H _] _]. apply cut_getlines in H. exact H.
      * apply isEmptyField_false in E3. apply exact_throw. intros v [_ [_ [H _]]]. destruct (H eq_refl). contradiction.
    + apply isEmptyField_false in E2. apply exact_throw. intros v [_ [_ [H _]]]. destruct (H eq_refl). contradiction.
  - apply isEmptyField_false in E.
    assert (Hb : Forall bytes_ok (getlines 44 (rLinkNames r))) by (apply getlines_generic_ok; [exact Hok|constructor]).
    eapply exact_iff.
    + apply exact_bind; [apply exact_zip; exact Hb|]. intros links _.
      instantiate (1 := fun links v => j = false /\ rLinkType r <> [] /\ v = links).
      destruct j; [apply exact_throw; intros v [H _]; discriminate|].
      destruct (isEmptyField (rLinkType r)) eqn:E2.
      * apply isEmptyField_iff in E2. apply exact_throw. intros v [_ [H _]]. contradiction.
      * apply isEmptyField_false in E2. eapply exact_iff; [apply exact_val|]. intro v. tauto.
    + intro v. cbv beta. split.
      * intros [l [[-> [cs [ex [Ec F]]]] [-> [Ht ->]]]]. split; [|split; [discriminate|split; [congruence|auto]]].
        split; [apply cut_getlines; reflexivity|]. exists cs, ex. split; [apply cut_getlines; congruence|exact F].
      * intros [[H1 [cs [ex [H2 F]]]] [Hj [_ Ht]]]. apply cut_getlines in H1, H2. subst v.
        eexists. split; [split; [reflexivity|]; exists cs, ex; split; [symmetry; exact H2|exact F]|].
        split; [destruct j; [exfalso; apply E; apply Hj; reflexivity|reflexivity]|]. auto.
Qed.
Lemma exact_strokes : forall r,
  exact_ (if isEmptyField (rVStrokes r)
              then s <- processU64 (rStrokes r) 255 ;; newStrokes (u8 s)
              else s <- processU64 (rStrokes r) 255 ;; v <- processU64 (rVStrokes r) 255 ;;
                   newStrokes2 (u8 s) (u8 v)) (row_strokes r).
Proof.
  intro r. unfold row_strokes. destruct (rVStrokes r) as [|x t] eqn:E; cbn [isEmptyField].
  - eapply exact_iff.
    + apply exact_bind; [apply exact_u64|]. intros v [_ Hv].
      instantiate (1 := fun v s => 1 <= v <= 64 /\ s = (v, 0)). unfold u8. rewrite N.mod_small by lia.
      rewrite strokes_iff. destruct ((1 <=? v) && (v <=? 64)) eqn:B.
      * eapply exact_iff; [apply exact_val|]. intro s. split; [intros ->; split; [lia|reflexivity]|tauto].
      * apply exact_throw. intros s [H _]. lia.
    + intro s. cbv beta. split.
      * intros [v [[H _] K]]. exists v. auto.
      * intros [v [H K]]. exists v. split; [split; [exact H|lia]|exact K].
  - eapply exact_iff.
    + apply exact_bind; [apply exact_u64|]. intros v [_ Hv]. apply exact_bind; [apply exact_u64|]. intros w [_ Hw].
      instantiate (1 := fun w s => 2 <= v <= 64 /\ 3 <= w <= 33 /\ v <> w /\ s = (v, w)).
      unfold u8. rewrite !N.mod_small by lia. split; [intro s; apply strokes2_iff|].
      unfold newStrokes2. repeat match goal with |- context [if ?b then _ else _] => destruct b end;
      first [left; eexists; reflexivity|right; eexists; reflexivity].
    + intro s. cbv beta. split.
      * intros [v [[H _] [w [[Hw _] K]]]]. exists v. split; [exact H|]. exists w. auto.
      * intros [v [H [w [Hw K]]]]. exists v. split; [split; [exact H|lia]|]. exists w. split; [split; [exact Hw|lia]|]. exact K.
Qed.
Lemma exact_linktype : forall s, exact_ (fromStringAllowEmpty AllUcdLinkTypes s)
  (fun x => (s = [] /\ x = len LinkTypeNames) \/ nth_error LinkTypeNames (N.to_nat x) = Some s).
Proof.
  intro s. unfold fromStringAllowEmpty. change (len (enumNames AllUcdLinkTypes)) with (len LinkTypeNames).
  assert (Hg : good_names true LinkTypeNames).
  { split; [unfold LinkTypeNames; repeat (constructor; [cbn [In]; intuition discriminate|]); constructor|].
    intros _. cbn [In LinkTypeNames]. intuition discriminate. }
  assert (He : ~ In [] LinkTypeNames) by (cbn [In LinkTypeNames]; intuition discriminate).
  destruct (create_spec false true LinkTypeNames) as [H _]. destruct (H eq_refl Hg) as [e [E [_ K]]].
  assert (Ee : e = AllUcdLinkTypes) by (vm_compute in E; injection E as <-; reflexivity). subst e. clear E H.
  destruct s as [|x s]; cbn [isEmpty].
  - eapply exact_iff; [apply exact_val|]. intro v. split; [intros ->; left; auto|].
    intros [[_ ->]|H]; [reflexivity|]. exfalso. apply He. eapply nth_error_In. exact H.
  - split.
    + intro v. rewrite K. split; [auto|]. intros [[H _]|H]; [discriminate|exact H].
    + unfold enumFromString. match goal with |- context [match ?m with _ => _ end] => destruct m end; [left|right]; eexists; reflexivity.
Qed.
Lemma exact_moro : forall s, exact_ (newMorohashi s) (fun m => morohashi s (fst m) (snd m)).
Proof.
  intro s. split.
  - intros [i t]. apply morohashi_iff.
  - destruct (morohashi_total s) as [[i [t E]]|E]; [left|right]; eexists; exact E.
Qed.
Lemma exact_sources : forall s j n, exact_ (getSources s j n)
  (fun b => good_sources s /\ forall i, N.testbit b i = bitsOf s j n i).
Proof.
  intros s j n. destruct (good_sources_dec s) as [G|G].
  - destruct (getSources_spec s j n G) as [b [E H]]. rewrite E. eapply exact_iff; [apply exact_val|].
    intro v. split; [intros ->; auto|]. intros [_ K]. apply N.bits_inj. intro i. rewrite K, H. reflexivity.
  - rewrite getSources_bad by exact G. apply exact_throw. tauto.
Qed.

(** errors *)
Definition domain_only {A} (x : out A) : Prop := forall e, x = Throw e -> e = DomainError.
Lemma dom_bind : forall A B (x : out A) (f : A -> out B), domain_only x -> (forall a, domain_only (f a)) -> domain_only (obind x f).
Proof.
  intros A B x f Hx Hf e. destruct x as [a|e'| |]; cbn [obind]; try discriminate; [apply Hf|].
  intros [= <-]. apply Hx. reflexivity.
Qed.
Lemma dom_u64 : forall s m, domain_only (processU64 s m).
Proof. intros s m e E. destruct (processU64_iff s m) as [_ H]. rewrite H in E by (intros v K; congruence). congruence. Qed.
Lemma dom_char32 : forall s, domain_only (convChar32 s).
Proof. intros s e E. destruct (char32_iff s) as [_ H]. rewrite H in E by (intros v K; congruence). congruence. Qed.
Lemma dom_bool : forall s, domain_only (convBool s).
Proof.
  intros s e E. unfold convBool in E. destruct s as [|b [|b2 s]]; try congruence.
  destruct ((b =? 89) || (b =? 84)); [discriminate|]. destruct ((b =? 78) || (b =? 70)); [discriminate|congruence].
Qed.
Lemma dom_entry : forall c s, bytes_ok s -> domain_only (newEntry c s).
Proof.
  intros c s Hok e E. destruct (newEntry_spec c s Hok) as [H1 H2].
  destruct (kanji_name_dec s c Hok) as [K|K]; [rewrite (H1 K) in E|rewrite (H2 K) in E]; congruence.
Qed.
Lemma dom_zip : forall names codes, Forall bytes_ok names -> domain_only (zipLinks names codes).
Proof.
  induction names as [|n ns IH]; intros codes H; cbn [zipLinks]; [discriminate|].
  apply Forall_cons_iff in H. destruct H as [H1 H2]. destruct codes as [|c cs]; [intros e [= <-]; reflexivity|].
  apply dom_bind; [apply dom_char32|]. intro v. apply dom_bind; [apply dom_entry; exact H1|]. intro x.
  apply dom_bind; [apply IH; exact H2|]. intros r e. discriminate.
Qed.
Lemma dom_links : forall r j, bytes_ok (rLinkNames r) -> domain_only (loadLinks r j).
Proof.
  intros r j Hok. unfold loadLinks. destruct (negb (isEmptyField (rLinkNames r))).
  - apply dom_bind; [apply dom_zip; apply getlines_generic_ok; [exact Hok|constructor]|].
    intros l. destruct j; [|destruct (isEmptyField (rLinkType r))]; intros e; congruence.
  - destruct (negb (isEmptyField (rLinkType r))); [intros e; congruence|].
    destruct (negb (isEmptyField (rLinkCodes r))); intros e; congruence.
Qed.

(** the checks of a row, without the data that is already there *)
Definition rowUcd (r : UcdRow) : out Ucd :=
  if isEmptyField (rOn r) && isEmptyField (rKun r) && isEmptyField (rMorohashi r) && isEmptyField (rJSource r)
  then Throw DomainError
  else if 4 <? len (rName r) then Throw DomainError
  else
    radical <- processU64 (rRadical r) 0 ;;
    if (radical <? 1) || (MaxRadicals <? radical) then Throw DomainError
    else
      isJoyo <- convBool (rJoyo r) ;;
      isJinmei <- convBool (rJinmei r) ;;
      if isJoyo && (isJinmei || isEmptyField (rMeaning r)) then Throw DomainError
      else
        links <- loadLinks r isJoyo ;;
        makeUcd r radical isJoyo isJinmei links.
Definition addUcd (u : Ucd) (d : UcdData) : out UcdData :=
  d <- processLinks (ucdLinks u) (ucdName u) (jinmei u) d ;;
  match mfind (ucdName u) (ucdMap d) with
  | Some _ => Throw DomainError
  | None => Val (MkUcdData (mupdate (fun _ => u) (ucdName u) (ucdMap d)) (linkedJinmei d) (linkedOther d))
  end.

Definition madeUcd (r : UcdRow) (radical : N) (j n : bool) (links : list bytes) (u : Ucd) : Prop :=
  row_strokes r (ucdStrokes u)
  /\ (exists c, hex_code (rCode r) c /\ ucdName u = rName r /\ kanji_name (rName r) c)
  /\ ((rLinkType r = [] /\ ucdLinkType u = len LinkTypeNames)
      \/ nth_error LinkTypeNames (N.to_nat (ucdLinkType u)) = Some (rLinkType r))
  /\ (good_sources (rSources r) /\ forall i, N.testbit (ucdBits u) i = bitsOf (rSources r) j n i)
  /\ morohashi (rMorohashi r) (fst (ucdMorohashi u)) (snd (ucdMorohashi u))
  /\ ucdRadical u = u16 radical /\ ucdLinks u = links
  /\ (ucdBlock u = rBlock r /\ ucdVersion u = rVersion r /\ ucdPinyin u = rPinyin r
      /\ ucdNelson u = rNelson r /\ ucdJSource u = rJSource r /\ ucdMeaning u = rMeaning r
      /\ ucdOn u = rOn r /\ ucdKun u = rKun r).
Lemma exact_make : forall r radical j n links, bytes_ok (rName r) ->
  exact_ (makeUcd r radical j n links) (madeUcd r radical j n links).
Proof.
  intros r radical j n links Hok. unfold makeUcd. eapply exact_iff.
  - apply exact_bind; [apply exact_strokes|]. intros st _.
    apply exact_bind; [apply exact_char32|]. intros c _.
    apply exact_bind; [apply exact_entry; exact Hok|]. intros e _.
    apply exact_bind; [apply exact_linktype|]. intros l _.
    apply exact_bind; [apply exact_sources|]. intros b _.
    apply exact_bind; [apply exact_moro|]. intros m _. apply exact_val.
  - intro u. cbv beta. unfold madeUcd. split.
    + intros [st [H1 [c [H2 [e [[-> H3] [l [H4 [b [H5 [m [H6 ->]]]]]]]]]]]]. cbn. repeat (split; [eauto|]). eauto 10.
    + intros [H1 [[c [H2 [H3 H3']]] [H4 [H5 [H6 [H7 [H8 [T1 [T2 [T3 [T4 [T5 [T6 [T7 T8]]]]]]]]]]]]]].
      exists (ucdStrokes u). split; [exact H1|]. exists c. split; [exact H2|]. exists (rName r). split; [auto|].
      exists (ucdLinkType u). split; [exact H4|]. exists (ucdBits u). split; [exact H5|].
      exists (ucdMorohashi u). split; [exact H6|].
      destruct u. cbn in *. congruence.
Qed.

Lemma bits_of_text : forall u s j n, good_sources s ->
  sources u = filter (fun c => existsb (N.eqb c) s) source_letters -> joyo u = j -> jinmei u = n -> ucdBits u < 256 ->
  forall i, N.testbit (ucdBits u) i = bitsOf s j n i.
Proof.
  intros u s j n G Hs Hj Hn Hb i.
  destruct (N.lt_ge_cases i 8) as [L|L].
  2:{ unfold bitsOf. rewrite letterBits_high by lia. replace (6 =? i) with false by lia. replace (7 =? i) with false by lia.
      rewrite !andb_false_r. cbn [orb].
      destruct (N.eq_dec (ucdBits u) 0) as [->|Z]; [apply N.bits_0|].
      apply N.bits_above_log2. assert (N.log2 (ucdBits u) < 8) by (apply N.log2_lt_pow2; [lia|exact Hb]). lia. }
  assert (C : forall c k, letterIndex c = Some k -> existsb (N.eqb c) (sources u) = N.testbit (ucdBits u) k).
  { intros c k E. unfold sources, SourceLetterMap. cbn [flat_map].
    change 1 with (2^0). change 2 with (2^1). change 4 with (2^2). change 8 with (2^3) at 1. change 16 with (2^4). change 32 with (2^5).
    rewrite !land_pow. unfold letterIndex in E.
    repeat (match type of E with context [?x =? c] => destruct (N.eqb_spec x c) as [<-|] end; [injection E as <-;
      repeat match goal with |- context [N.testbit ?a ?b] => destruct (N.testbit a b) end; reflexivity|]). discriminate. }
  assert (D : forall c k, letterIndex c = Some k -> N.testbit (ucdBits u) k = letterBits s k).
  { intros c k E. rewrite <- (C c k E), Hs, (letterBits_In s c k E).
    destruct (existsb (N.eqb c) s) eqn:X.
    - apply existsb_exists. exists c. split; [|apply N.eqb_refl]. apply filter_In. split; [|exact X].
      apply letter_In. rewrite E. discriminate.
    - destruct (existsb (N.eqb c) (filter (fun c0 => existsb (N.eqb c0) s) source_letters)) eqn:Y; [|reflexivity].
      apply existsb_exists in Y. destruct Y as [x [Y1 Y2]]. apply N.eqb_eq in Y2. subst x. apply filter_In in Y1. destruct Y1. congruence. }
  unfold bitsOf.
  destruct (N.eqb_spec 6 i) as [<-|N6].
  { unfold joyo in Hj. change Joyo_bit with (2^6) in Hj. rewrite flag_bit in Hj. rewrite Hj, letterBits_high by lia. destruct j, n; reflexivity. }
  destruct (N.eqb_spec 7 i) as [<-|N7].
  { unfold jinmei in Hn. change Jinmei_bit with (2^7) in Hn. rewrite flag_bit in Hn. rewrite Hn, letterBits_high by lia. destruct j, n; reflexivity. }
  rewrite !andb_false_r, !orb_false_r.
  assert (I : i = 0 \/ i = 1 \/ i = 2 \/ i = 3 \/ i = 4 \/ i = 5) by lia.
  destruct I as [->|[->|[->|[->|[->| ->]]]]]; [apply (D 71)|apply (D 72)|apply (D 74)|apply (D 75)|apply (D 84)|apply (D 86)]; reflexivity.
Qed.

Lemma short_name : forall s c, len s <= 4 -> (kanji_name s c <-> kanji c /\ upto_nul s = enc c).
Proof.
  intros s c L. unfold kanji_name. split.
  - intros [H1 [_ [H|[d [Hd H]]]]]; [auto|]. exfalso.
    destruct (kanji_scalar c H1) as [_ [K _]]. pose proof (len_upto s) as U. rewrite H, len_app in U.
    assert (3 <= len (enc c)).
    { unfold enc. unfold kanji, common_kanji, rare_kanji, within in H1. replace (c <? 128) with false by lia.
      replace (c <? 2048) with false by lia. destruct (c <? 65536); cbn; lia. }
    assert (3 <= len (enc d)).
    { unfold enc. unfold non_spacing, variation_selector, within in Hd. replace (d <? 128) with false by lia.
      replace (d <? 2048) with false by lia. destruct (d <? 65536); cbn; lia. }
    lia.
  - intros [H1 H2]. split; [exact H1|]. split; [lia|auto].
Qed.

Lemma exact_row : forall r, row_bytes r -> exact_ (rowUcd r) (row_is r).
Proof.
  intros r [Hok Hl]. unfold rowUcd.
  destruct (isEmptyField (rOn r) && isEmptyField (rKun r) && isEmptyField (rMorohashi r) && isEmptyField (rJSource r)) eqn:E1.
  { apply exact_throw. intros u [K]. rewrite !andb_true_iff, !isEmptyField_iff in E1. tauto. }
  assert (Used : rOn r <> [] \/ rKun r <> [] \/ rMorohashi r <> [] \/ rJSource r <> []).
  { rewrite !andb_false_iff, !isEmptyField_false in E1. tauto. }
  destruct (4 <? len (rName r)) eqn:E2.
  { apply exact_throw. intros u [_ [_ [K _]]]. lia. }
  eapply exact_iff.
  - apply exact_bind; [apply exact_u64|]. intros rad _.
    instantiate (1 := fun rad u => 1 <= rad <= 214 /\ exists j, flag (rJoyo r) j /\ exists n, flag (rJinmei r) n
      /\ (j = true -> n = false /\ rMeaning r <> []) /\ exists links, (row_links r links
    /\ (j = true -> rLinkNames r = [])
    /\ (rLinkNames r = [] -> rLinkCodes r = [] /\ rLinkType r = [])
    /\ (rLinkNames r <> [] -> rLinkType r <> [])) /\ madeUcd r rad j n links u).
    cbv beta. unfold MaxRadicals. destruct ((rad <? 1) || (214 <? rad)) eqn:E3.
    { apply exact_throw. intros u [K _]. lia. }
    eapply exact_iff.
    + apply exact_bind; [apply exact_bool|]. intros j _. apply exact_bind; [apply exact_bool|]. intros n _.
      instantiate (1 := fun n u => (j = true -> n = false /\ rMeaning r <> []) /\ exists links, (row_links r links
        /\ (j = true -> rLinkNames r = [])
        /\ (rLinkNames r = [] -> rLinkCodes r = [] /\ rLinkType r = [])
        /\ (rLinkNames r <> [] -> rLinkType r <> [])) /\ madeUcd r rad j n links u).
      destruct (j && (n || isEmptyField (rMeaning r))) eqn:E4.
      * apply exact_throw. intros u [K _]. apply andb_true_iff in E4. destruct E4 as [-> E4]. destruct (K eq_refl) as [-> K2].
        cbn [orb] in E4. apply isEmptyField_iff in E4. contradiction.
      * eapply exact_iff; [apply exact_bind; [apply exact_links; exact Hl|]; intros links _; apply exact_make; exact Hok|].
        intro u. cbv beta. split; [|tauto]. intro H. split; [|exact H]. intros ->. cbn [andb] in E4. apply orb_false_iff in E4.
        destruct E4 as [-> E4]. apply isEmptyField_false in E4. auto.
    + intro u. cbv beta. split; [intro H; split; [lia|exact H]|tauto].
  - intro u. cbv beta. split.
    + intros [rad [[H1 _] [H2 [j [Hj [n [Hn [Hx [links [[L1 [L2 [L3 L4]]] M]]]]]]]]]].
      destruct M as [M1 [[c [M2 [M3 M4]]] [M5 [[M6 M7] [M8 [M9 [M10 M11]]]]]]].
      destruct (sources_text u (rSources r) j n M7) as [S1 [S2 [S3 S4]]].
      apply short_name in M4; [|lia]. unfold u16 in M9. rewrite N.mod_small in M9 by (change (2^16) with 65536; lia).
      constructor; rewrite ?S1, ?S2, ?S3, ?M9, ?M10; try tauto.
      split; [exact M3|]. split; [lia|]. exists c. tauto.
    + intros H. destruct H as [_ [A1 [A2 [c [A3 A4]]]] [B1 B2] C1 C2 C3 [D1 [D2 D3]] [F1 [F2 F3]] G Hs M T].
      exists (ucdRadical u). split; [split; [exact B1|left; reflexivity]|]. split; [lia|].
      exists (joyo u). split; [exact C1|]. exists (jinmei u). split; [exact C2|].
      split; [intro J; destruct (C3 J) as [? [? ?]]; auto|].
      exists (ucdLinks u). split; [split; [exact F1|split; [intro J; destruct (C3 J) as [? [? ?]]; auto|auto]]|].
      split; [exact Hs|]. split; [exists c; split; [exact A3|]; split; [exact A1|]; apply short_name; [exact A2|exact A4]|].
      split; [exact G|]. split; [split; [exact D1|]; apply bits_of_text; auto|]. split; [exact M|].
      split; [unfold u16; rewrite N.mod_small; [reflexivity|change (2^16) with 65536; lia]|]. auto.
Qed.

(** the data that is there is not changed by links *)
Lemma processLinks_map : forall links n j d d', processLinks links n j d = Val d' -> ucdMap d' = ucdMap d.
Proof.
  induction links as [|l ls IH]; intros n j d d' E; cbn [processLinks] in E; [injection E as <-; reflexivity|].
  destruct (negb j); [apply IH in E; exact E|]. destruct (mfind l (linkedJinmei d)); [discriminate|]. apply IH in E. exact E.
Qed.
Lemma processLinks_total : forall links n j d, (exists d', processLinks links n j d = Val d') \/ processLinks links n j d = Throw DomainError.
Proof.
  induction links as [|l ls IH]; intros n j d; cbn [processLinks]; [left; eexists; reflexivity|].
  destruct (negb j); [apply IH|]. destruct (mfind l (linkedJinmei d)); [right; reflexivity|apply IH].
Qed.
Lemma loadRow_add : forall r d, row_bytes r ->
  loadRow d r = match rowUcd r with Val u => addUcd u d | _ => Throw DomainError end.
Proof.
  intros r d Hr. pose proof (exact_row r Hr) as [X1 X2]. unfold loadRow. unfold rowUcd in *.
  destruct (isEmptyField (rOn r) && isEmptyField (rKun r) && isEmptyField (rMorohashi r) && isEmptyField (rJSource r)); [reflexivity|].
  destruct (4 <? len (rName r)); [reflexivity|].
  destruct (processU64 (rRadical r) 0) as [rad|e| |] eqn:E1; cbn [obind] in *.
  2:{ rewrite (dom_u64 _ _ _ E1). reflexivity. }
  2,3: exfalso; destruct X2 as [[? ?]|[? ?]]; discriminate.
  destruct ((rad <? 1) || (MaxRadicals <? rad)); [reflexivity|].
  destruct (convBool (rJoyo r)) as [j|e| |] eqn:E2; cbn [obind] in *.
  2:{ rewrite (dom_bool _ _ E2). reflexivity. }
  2,3: exfalso; destruct X2 as [[? ?]|[? ?]]; discriminate.
  destruct (convBool (rJinmei r)) as [n|e| |] eqn:E3; cbn [obind] in *.
  2:{ rewrite (dom_bool _ _ E3). reflexivity. }
  2,3: exfalso; destruct X2 as [[? ?]|[? ?]]; discriminate.
  destruct (j && (n || isEmptyField (rMeaning r))); [reflexivity|].
  destruct (loadLinks r j) as [links|e| |] eqn:E4; cbn [obind] in *.
  2:{ rewrite (dom_links r j (proj2 Hr) _ E4). reflexivity. }
  2,3: exfalso; destruct X2 as [[? ?]|[? ?]]; discriminate.
  destruct (makeUcd r rad j n links) as [u|e| |] eqn:E5; cbn [obind].
  - pose proof (proj1 (proj1 (exact_make r rad j n links (proj1 Hr)) u) E5) as M.
    destruct M as [_ [[c [_ [M3 _]]] [_ [[_ M7] [_ [_ [M10 _]]]]]]].
    destruct (sources_text u (rSources r) j n M7) as [_ [_ [S3 _]]].
    unfold addUcd. rewrite M3, S3, M10.
    destruct (processLinks_total links (rName r) n d) as [[d' Ed]|Ed]; rewrite Ed; cbn [obind]; [|reflexivity].
    destruct (mfind (rName r) (ucdMap d')); reflexivity.
  - destruct (processLinks_total links (rName r) n d) as [[d' Ed]|Ed]; rewrite Ed; reflexivity.
  - exfalso. destruct X2 as [[? ?]|[? ?]]; discriminate.
  - exfalso. destruct X2 as [[? ?]|[? ?]]; discriminate.
Qed.

(** ** Loading *)
Definition sorted_data (d : UcdData) : Prop :=
  msorted (ucdMap d) /\ msorted (linkedJinmei d) /\ msorted (linkedOther d).

Lemma jinmei_links_app : forall a b, jinmei_links (a ++ b) = jinmei_links a ++ jinmei_links b.
Proof. intros. apply flat_map_app. Qed.
Lemma other_links_app : forall a b l, other_links (a ++ b) l = other_links a l ++ other_links b l.
Proof. intros. apply flat_map_app. Qed.

Lemma processLinks_jinmei : forall links n d, sorted_data d ->
  (NoDup links -> (forall l, In l links -> mfind l (linkedJinmei d) = None) ->
     exists d', processLinks links n true d = Val d' /\ sorted_data d' /\ ucdMap d' = ucdMap d /\ linkedOther d' = linkedOther d
       /\ forall l m, mfind l (linkedJinmei d') = Some m <-> mfind l (linkedJinmei d) = Some m \/ (In l links /\ m = n))
  /\ (~ (NoDup links /\ forall l, In l links -> mfind l (linkedJinmei d) = None) ->
       processLinks links n true d = Throw DomainError).
Proof.
  induction links as [|x ls IH]; intros n d [S1 [S2 S3]].
  - cbn [processLinks]. split.
    + intros _ _. exists d. split; [reflexivity|]. split; [split; auto|]. split; [reflexivity|]. split; [reflexivity|].
      intros l m. cbn [In]. tauto.
    + intro H. exfalso. apply H. split; [constructor|intros l []].
  - cbn [processLinks negb]. destruct (mfind x (linkedJinmei d)) as [y|] eqn:E.
    + split; [intros _ H; rewrite (H x) in E by (left; reflexivity); discriminate|reflexivity].
    + set (d1 := MkUcdData (ucdMap d) (mupdate (fun _ => n) x (linkedJinmei d)) (linkedOther d)).
      assert (Sd : sorted_data d1) by (split; [exact S1|split; [apply mupdate_sorted; exact S2|exact S3]]).
      assert (F : forall l, mfind l (linkedJinmei d1) = if beq l x then Some n else mfind l (linkedJinmei d)).
      { intro l. cbn [d1 linkedJinmei]. destruct (beq l x) eqn:B.
        - apply beq_eq in B. subst l. rewrite mupdate_same by exact S2. reflexivity.
        - apply mupdate_other. apply beq_neq. exact B. }
      destruct (IH n d1 Sd) as [I1 I2]. split.
      * intros Hn Ha. apply NoDup_cons_iff in Hn. destruct Hn as [Hx Hn].
        destruct I1 as [d' [E' [Sd' [M' [O' L']]]]]; [exact Hn| |].
        -- intros l Hl. rewrite F. destruct (beq l x) eqn:B; [apply beq_eq in B; subst l; contradiction|]. apply Ha. right. exact Hl.
        -- exists d'. split; [exact E'|]. split; [exact Sd'|]. split; [exact M'|]. split; [exact O'|].
           intros l m. rewrite L', F. cbn [In]. destruct (beq l x) eqn:B.
           ++ apply beq_eq in B. subst l. rewrite E. split.
              ** intros [H|H]; [injection H as <-|]; tauto.
              ** intros [H|[_ ->]]; [discriminate|left; reflexivity].
           ++ apply beq_neq in B. intuition congruence.
      * intro H. apply I2. intros [H1 H2]. apply H. split.
        -- constructor; [|exact H1]. intro Hx. specialize (H2 x Hx). rewrite F, beq_refl in H2. discriminate.
        -- intros l [<-|Hl]; [exact E|]. specialize (H2 l Hl). rewrite F in H2. destruct (beq l x); [discriminate|exact H2].
Qed.

Lemma processLinks_other : forall links n d, sorted_data d ->
  exists d', processLinks links n false d = Val d' /\ sorted_data d' /\ ucdMap d' = ucdMap d /\ linkedJinmei d' = linkedJinmei d
    /\ forall l, mfind l (linkedOther d') =
         match filter (beq l) links with
         | [] => mfind l (linkedOther d)
         | fs => Some ((match mfind l (linkedOther d) with Some o => o | None => [] end) ++ map (fun _ => n) fs)
         end.
Proof.
  induction links as [|x ls IH]; intros n d [S1 [S2 S3]].
  - exists d. cbn [processLinks filter]. repeat split; auto.
  - cbn [processLinks negb].
    set (g := fun o : option (list bytes) => match o with Some x => x ++ [n] | None => [n] end).
    set (d1 := MkUcdData (ucdMap d) (linkedJinmei d) (mupdate g x (linkedOther d))).
    destruct (IH n d1) as [d' [E' [Sd' [M' [J' L']]]]]; [split; [exact S1|split; [exact S2|apply mupdate_sorted; exact S3]]|].
    exists d'. split; [exact E'|]. split; [exact Sd'|]. split; [exact M'|]. split; [exact J'|].
    intro l. rewrite L'. cbn [filter d1 linkedOther]. destruct (beq l x) eqn:B.
    + apply beq_eq in B. subst l. rewrite mupdate_same by exact S3. cbn [map]. unfold g.
      destruct (mfind x (linkedOther d)) as [o|]; destruct (filter (beq x) ls); cbn [map app];
        rewrite <- ?app_assoc; reflexivity.
    + rewrite mupdate_other by (apply beq_neq; exact B). reflexivity.
Qed.

Lemma other_one : forall u l, other_links [u] l = if jinmei u then [] else map (fun _ => ucdName u) (filter (beq l) (ucdLinks u)).
Proof. intros. unfold other_links. cbn [flat_map]. apply app_nil_r. Qed.
Lemma jinmei_one : forall u, jinmei_links [u] = if jinmei u then map (fun l => (l, ucdName u)) (ucdLinks u) else [].
Proof. intros. unfold jinmei_links. cbn [flat_map]. apply app_nil_r. Qed.

Lemma NoDup_app_iff : forall A (a b : list A), NoDup (a ++ b) <-> NoDup a /\ NoDup b /\ (forall x, In x a -> ~ In x b).
Proof.
  induction a as [|x a IH]; intro b; cbn [app].
  - split; [intro H; split; [constructor|split; [exact H|intros x []]]|tauto].
  - rewrite !NoDup_cons_iff, IH, in_app_iff. split.
    + intros [H1 [H2 [H3 H4]]]. split; [tauto|]. split; [exact H3|]. intros y [<-|Hy]; [tauto|apply H4; exact Hy].
    + intros [[H1 H2] [H3 H4]]. split; [intros [K|K]; [tauto|exact (H4 x (or_introl eq_refl) K)]|].
      split; [exact H2|]. split; [exact H3|]. intros y Hy. apply H4. right. exact Hy.
Qed.

Lemma map_fst_pair : forall (n : bytes) ls, map fst (map (fun l : bytes => (l, n)) ls) = ls.
Proof. intros. rewrite map_map. cbn [fst]. apply map_id. Qed.
Lemma jinmei_find_none : forall d us l, holds d us -> (mfind l (linkedJinmei d) = None <-> ~ In l (map fst (jinmei_links us))).
Proof.
  intros d us l [_ [H _]]. split.
  - intros E K. apply in_map_iff in K. destruct K as [[x n] [Ex K]]. cbn [fst] in Ex. subst x. apply H in K. congruence.
  - intro K. destruct (mfind l (linkedJinmei d)) as [n|] eqn:E; [|reflexivity]. exfalso. apply K. apply H in E.
    apply in_map_iff. exists (l, n). auto.
Qed.
Lemma map_find_none : forall d us n, holds d us -> (mfind n (ucdMap d) = None <-> ~ In n (map ucdName us)).
Proof.
  intros d us n [H _]. split.
  - intros E K. apply in_map_iff in K. destruct K as [u [Eu K]]. assert (mfind n (ucdMap d) = Some u) by (apply H; auto). congruence.
  - intro K. destruct (mfind n (ucdMap d)) as [u|] eqn:E; [|reflexivity]. exfalso. apply K. apply H in E. destruct E as [E <-].
    apply in_map. exact E.
Qed.

Lemma addUcd_spec : forall u d us, sorted_data d -> holds d us ->
  NoDup (map ucdName us) -> NoDup (map fst (jinmei_links us)) ->
  (NoDup (map ucdName (us ++ [u])) -> NoDup (map fst (jinmei_links (us ++ [u]))) ->
     exists d', addUcd u d = Val d' /\ sorted_data d' /\ holds d' (us ++ [u]))
  /\ (~ (NoDup (map ucdName (us ++ [u])) /\ NoDup (map fst (jinmei_links (us ++ [u])))) -> addUcd u d = Throw DomainError).
Proof.
  intros u d us Sd Hh N1 N2.
  rewrite map_app, jinmei_links_app, map_app, !NoDup_app_iff, jinmei_one. cbn [map].
  pose proof (map_find_none d us (ucdName u) Hh) as Fm. pose proof Hh as [H1 [H2 H3]]. unfold addUcd.
  assert (Nm : (forall x, In x (map ucdName us) -> ~ In x [ucdName u]) <-> mfind (ucdName u) (ucdMap d) = None).
  { rewrite Fm. cbn [In]. split; [intros K I; exact (K _ I (or_introl eq_refl))|intros K x Hx [<-|[]]; exact (K Hx)]. }
  assert (One : NoDup [ucdName u]) by (constructor; [intros []|constructor]).
  destruct (jinmei u) eqn:J.
  - rewrite map_fst_pair.
    assert (Nl : (NoDup (ucdLinks u) /\ forall x, In x (map fst (jinmei_links us)) -> ~ In x (ucdLinks u)) <->
                 (NoDup (ucdLinks u) /\ forall l, In l (ucdLinks u) -> mfind l (linkedJinmei d) = None)).
    { split; intros [K1 K2]; (split; [exact K1|]).
      - intros l Hl. apply (jinmei_find_none d us l Hh). intro I. exact (K2 l I Hl).
      - intros x Hx Hl. apply (jinmei_find_none d us x Hh); [apply K2; exact Hl|exact Hx]. }
    destruct (processLinks_jinmei (ucdLinks u) (ucdName u) d Sd) as [P1 P2]. split.
    + intros [_ [_ K1]] [_ K2]. apply Nl in K2. destruct (P1 (proj1 K2) (proj2 K2)) as [d1 [E [[S1 [S2 S3]] [M [O L]]]]].
      rewrite E. cbn [obind]. rewrite M, (proj1 Nm K1). eexists. split; [reflexivity|].
      split; [split; [cbn; apply mupdate_sorted; rewrite <- M; exact S1|split; [exact S2|exact S3]]|].
      split; [|split]; cbn [ucdMap linkedJinmei linkedOther].
      * intros n v. rewrite in_app_iff. cbn [In]. destruct (beq n (ucdName u)) eqn:B.
        -- apply beq_eq in B. subst n. rewrite mupdate_same by (destruct Sd; assumption). split.
           ++ intros [= <-]. auto.
           ++ intros [[I|[<-|[]]] En]; [|reflexivity]. exfalso. apply (proj1 Fm (proj1 Nm K1)). rewrite <- En. apply in_map. exact I.
        -- apply beq_neq in B. rewrite mupdate_other by exact B. rewrite H1. intuition congruence.
      * intros l n. rewrite L, H2, jinmei_links_app, in_app_iff, jinmei_one, J, in_map_iff. split.
        -- intros [K|[K ->]]; [left; exact K|right; exists l; auto].
        -- intros [K|[x [Ex K]]]; [left; exact K|right; injection Ex as -> ->; auto].
      * intro l. rewrite O, H3, other_links_app, other_one, J, app_nil_r. reflexivity.
    + intro K. destruct (processLinks_total (ucdLinks u) (ucdName u) true d) as [[d1 E]|E]; rewrite E; cbn [obind]; [|reflexivity].
      rewrite (processLinks_map _ _ _ _ _ E). destruct (mfind (ucdName u) (ucdMap d)) eqn:F; [reflexivity|]. exfalso. apply K.
      split; [split; [exact N1|split; [exact One|apply Nm; reflexivity]]|].
      split; [exact N2|]. apply Nl.
      assert (D : (NoDup (ucdLinks u) /\ forall l, In l (ucdLinks u) -> mfind l (linkedJinmei d) = None)
                  \/ ~ (NoDup (ucdLinks u) /\ forall l, In l (ucdLinks u) -> mfind l (linkedJinmei d) = None)).
      { destruct (ListDec.NoDup_dec bytes_eq_dec (ucdLinks u)) as [A|A]; [|tauto].
        destruct (forallb (fun l => match mfind l (linkedJinmei d) with None => true | _ => false end) (ucdLinks u)) eqn:Fb.
        - left. split; [exact A|]. rewrite forallb_forall in Fb. intros l Hl. specialize (Fb l Hl). destruct (mfind l (linkedJinmei d)); [discriminate|reflexivity].
        - right. intros [_ B]. assert (Ft : forallb (fun l => match mfind l (linkedJinmei d) with None => true | _ => false end) (ucdLinks u) = true)
            by (apply forallb_forall; intros l Hl; rewrite (B l Hl); reflexivity). congruence. }
      destruct D as [D|D]; [exact D|]. rewrite (P2 D) in E. discriminate.
  - cbn [map]. destruct (processLinks_other (ucdLinks u) (ucdName u) d Sd) as [d1 [E [[S1 [S2 S3]] [M [O L]]]]].
    rewrite E. cbn [obind]. rewrite M. split.
    + intros [_ [_ K1]] _. rewrite (proj1 Nm K1). eexists. split; [reflexivity|].
      split; [split; [cbn; apply mupdate_sorted; rewrite <- M; exact S1|split; [exact S2|exact S3]]|].
      split; [|split]; cbn [ucdMap linkedJinmei linkedOther].
      * intros n v. rewrite in_app_iff. cbn [In]. destruct (beq n (ucdName u)) eqn:B.
        -- apply beq_eq in B. subst n. rewrite mupdate_same by (destruct Sd; assumption). split.
           ++ intros [= <-]. auto.
           ++ intros [[I|[<-|[]]] En]; [|reflexivity]. exfalso. apply (proj1 Fm (proj1 Nm K1)). rewrite <- En. apply in_map. exact I.
        -- apply beq_neq in B. rewrite mupdate_other by exact B. rewrite H1. intuition congruence.
      * intros l n. rewrite O, H2, jinmei_links_app, in_app_iff, jinmei_one, J. cbn [In]. tauto.
      * intro l. rewrite L, H3, other_links_app, other_one, J.
        destruct (other_links us l) as [|y ys]; destruct (filter (beq l) (ucdLinks u)) as [|z zs]; cbn [map app];
          rewrite ?app_nil_r; reflexivity.
    + intro K. destruct (mfind (ucdName u) (ucdMap d)) eqn:F; [reflexivity|]. exfalso. apply K.
      split; [split; [exact N1|split; [exact One|apply Nm; reflexivity]]|].
      split; [exact N2|]. split; [constructor|]. intros x _ [].
Qed.

Lemma nodup_prefix : forall us u vs, NoDup (map ucdName (us ++ u :: vs)) /\ NoDup (map fst (jinmei_links (us ++ u :: vs))) ->
  NoDup (map ucdName (us ++ [u])) /\ NoDup (map fst (jinmei_links (us ++ [u]))).
Proof.
  intros us u vs [H1 H2]. change (u :: vs) with ([u] ++ vs) in *. rewrite app_assoc in H1, H2.
  rewrite map_app in H1. rewrite jinmei_links_app, map_app in H2.
  apply NoDup_app_iff in H1. apply NoDup_app_iff in H2. tauto.
Qed.

Lemma load_exact : forall rows d us, Forall row_bytes rows -> sorted_data d -> holds d us ->
  NoDup (map ucdName us) -> NoDup (map fst (jinmei_links us)) ->
  (forall vs, Forall2 row_is rows vs -> NoDup (map ucdName (us ++ vs)) -> NoDup (map fst (jinmei_links (us ++ vs))) ->
     exists d', loadUcd rows d = Val d' /\ holds d' (us ++ vs))
  /\ ((forall vs, ~ (Forall2 row_is rows vs /\ NoDup (map ucdName (us ++ vs)) /\ NoDup (map fst (jinmei_links (us ++ vs))))) ->
     loadUcd rows d = Throw DomainError).
Proof.
  induction rows as [|r rows IH]; intros d us Hb Sd Hh N1 N2; cbn [loadUcd].
  - split.
    + intros vs F _ _. inversion F; subst. rewrite app_nil_r. exists d. auto.
    + intro H. exfalso. apply (H []). rewrite app_nil_r. auto.
  - apply Forall_cons_iff in Hb. destruct Hb as [Hr Hb]. rewrite loadRow_add by exact Hr.
    destruct (exact_row r Hr) as [X1 X2].
    destruct (rowUcd r) as [u|e| |] eqn:E.
    + pose proof (proj1 (X1 u) eq_refl) as Ru.
      destruct (addUcd_spec u d us Sd Hh N1 N2) as [A1 A2]. split.
      * intros vs F M1 M2. inversion F as [|r' v rs vs' Rv F']; subst.
        apply X1 in Rv. injection Rv as <-.
        destruct (nodup_prefix us u vs' (conj M1 M2)) as [P1 P2].
        destruct (A1 P1 P2) as [d1 [E1 [S1 Hd1]]]. rewrite E1. cbn [obind].
        destruct (IH d1 (us ++ [u]) Hb S1 Hd1 P1 P2) as [I1 _].
        change (u :: vs') with ([u] ++ vs') in *. rewrite app_assoc in *. apply I1; assumption.
      * intro H. destruct (addUcd u d) as [d1|e| |] eqn:E1; cbn [obind].
        2:{ destruct (ListDec.NoDup_dec bytes_eq_dec (map ucdName (us ++ [u]))) as [P1|P1];
            [destruct (ListDec.NoDup_dec bytes_eq_dec (map fst (jinmei_links (us ++ [u])))) as [P2|P2]|];
            [destruct (A1 P1 P2) as [d1 [K _]]; discriminate|apply A2; tauto..]. }
        2,3: (destruct (ListDec.NoDup_dec bytes_eq_dec (map ucdName (us ++ [u]))) as [P1|P1];
            [destruct (ListDec.NoDup_dec bytes_eq_dec (map fst (jinmei_links (us ++ [u])))) as [P2|P2]|];
            [destruct (A1 P1 P2) as [d1 [K _]]; discriminate|exfalso; assert (KK := A2 ltac:(tauto)); discriminate KK..]).
        destruct (ListDec.NoDup_dec bytes_eq_dec (map ucdName (us ++ [u]))) as [P1|P1];
          [|exfalso; assert (KK := A2 ltac:(tauto)); discriminate KK].
        destruct (ListDec.NoDup_dec bytes_eq_dec (map fst (jinmei_links (us ++ [u])))) as [P2|P2];
          [|exfalso; assert (KK := A2 ltac:(tauto)); discriminate KK].
        destruct (A1 P1 P2) as [d2 [K [S1 Hd1]]]. injection K as <-.
        destruct (IH d1 (us ++ [u]) Hb S1 Hd1 P1 P2) as [_ I2]. apply I2. intros vs [F [M1 M2]].
        apply (H (u :: vs)). change (u :: vs) with ([u] ++ vs). rewrite app_assoc. split; [constructor; assumption|auto].
    + split.
      * intros vs F _ _. inversion F as [|r' v rs vs' Rv F']; subst. apply X1 in Rv. discriminate.
      * intros _. reflexivity.
    + exfalso. destruct X2 as [[? ?]|[? ?]]; discriminate.
    + exfalso. destruct X2 as [[? ?]|[? ?]]; discriminate.
Qed.

Lemma load_file : forall rows, Forall row_bytes rows ->
  (forall us, good_file rows us -> exists d, loadUcd rows emptyUcdData = Val d /\ holds d us)
  /\ ((forall us, ~ good_file rows us) -> loadUcd rows emptyUcdData = Throw DomainError).
Proof.
  intros rows Hb.
  assert (S0 : sorted_data emptyUcdData) by (repeat split; apply msorted_nil).
  assert (H0 : holds emptyUcdData []).
  { split; [|split]; cbn; [intros n u|intros l n|intro l]; [split; [discriminate|tauto]|split; [discriminate|tauto]|reflexivity]. }
  destruct (load_exact rows emptyUcdData [] Hb S0 H0 ltac:(constructor) ltac:(constructor)) as [L1 L2]. cbn [app] in *. split.
  - intros us [F [N1 N2]]. apply L1; assumption.
  - intro H. apply L2. intros vs K. apply (H vs). exact K.
Qed.
(** the data of a row is determined by the row *)
Lemma row_unique : forall r u v, row_bytes r -> row_is r u -> row_is r v -> u = v.
Proof. intros r u v Hr Hu Hv. destruct (exact_row r Hr) as [X _]. apply X in Hu, Hv. congruence. Qed.

(** ** Finding *)
Lemma find_name : forall rows us d r u, Forall row_bytes rows -> good_file rows us -> loadUcd rows emptyUcdData = Val d ->
  In (r, u) (combine rows us) -> ucdFind d (rName r) = Val (Some u).
Proof.
  intros rows us d r u Hb G E I. destruct (load_file rows Hb) as [L _]. destruct (L us G) as [d' [E' [H1 _]]].
  assert (d' = d) by congruence. subst d'. destruct G as [F _].
  assert (R : row_is r u).
  { clear - F I. induction F as [|a b rs vs Ra F IH]; [destruct I|]. destruct I as [I|I]; [injection I as <- <-; exact Ra|auto]. }
  destruct R as [_ [Rn [Rl _]] _ _ _ _ _ _ _ _ _ _].
  unfold ucdFind, isCharWithVariationSelector.
  replace ((3 + 2 <=? len (rName r)) && (len (rName r) <=? 3 + 4)) with false by lia. cbn [obind]. f_equal.
  apply H1. split; [|exact Rn]. apply in_combine_r in I. exact I.
Qed.

(** looking up with a variation selector *)
Lemma in_jinmei_links : forall us l n, In (l, n) (jinmei_links us) <-> exists u, In u us /\ jinmei u = true /\ In l (ucdLinks u) /\ ucdName u = n.
Proof.
  intros us l n. unfold jinmei_links. rewrite in_flat_map. split.
  - intros [u [Hu H]]. exists u. destruct (jinmei u); [|destruct H]. apply in_map_iff in H. destruct H as [x [E Hx]].
    injection E as -> ->. auto.
  - intros [u [Hu [J [Hl En]]]]. exists u. split; [exact Hu|]. rewrite J. apply in_map_iff. exists l. rewrite En. auto.
Qed.
Lemma find_selected : forall rows us d c v, Forall row_bytes rows -> good_file rows us -> loadUcd rows emptyUcdData = Val d ->
  scalar c -> 0x80 <= c -> is_selector v = true ->
  exists o, ucdFind d (enc c ++ enc v) = Val o
    /\ forall u, o = Some u <-> In u us /\ jinmei u = true /\ In (enc c) (ucdLinks u).
Proof.
  intros rows us d c v Hb G E Hs Hc Hv. destruct (load_file rows Hb) as [L _]. destruct (L us G) as [d' [E' [H1 [H2 _]]]].
  assert (d' = d) by congruence. subst d'. destruct G as [F [N1 N2]].
  pose proof (strip_selected c v Hs Hc Hv) as S.
  assert (V : isCharWithVariationSelector (enc c ++ enc v) = Val true).
  { destruct (isCharWithVariationSelector (enc c ++ enc v)) as [[|]|e| |] eqn:V; [reflexivity|..];
      unfold noVariationSelector in S; rewrite V in S; cbn [obind] in S; try discriminate.
    exfalso. injection S as S. apply (f_equal (@List.length N)) in S. rewrite app_length in S.
    assert (0 < len (enc v)) by (pose proof (enc_len v); lia). unfold len in *. lia. }
  unfold ucdFind. rewrite V. cbn [obind]. rewrite S. cbn [obind].
  destruct (mfind (enc c) (linkedJinmei d)) as [n|] eqn:M.
  - eexists. split; [reflexivity|]. intro u. rewrite H1. apply H2 in M. split.
    + intros [Hu En]. apply in_jinmei_links in M. destruct M as [w [Hw [J [Hl Ew]]]].
      assert (u = w); [|subst; auto].
      { clear - N1 Hu Hw En Ew. induction us as [|a us IH]; [destruct Hu|]. cbn [map] in N1. apply NoDup_cons_iff in N1. destruct N1 as [Na N1].
        destruct Hu as [->|Hu]; destruct Hw as [->|Hw]; [reflexivity| | |auto].
        - exfalso. apply Na. rewrite En, <- Ew. apply in_map. exact Hw.
        - exfalso. apply Na. rewrite Ew, <- En. apply in_map. exact Hu. }
    + intros [Hu [J Hl]]. split; [exact Hu|].
      assert (K : mfind (enc c) (linkedJinmei d) = Some (ucdName u)) by (apply H2; apply in_jinmei_links; exists u; auto).
      apply H2 in M. congruence.
  - eexists. split; [reflexivity|]. intro u. split; [discriminate|]. intros [Hu [J Hl]]. exfalso.
    assert (K : mfind (enc c) (linkedJinmei d) = Some (ucdName u)) by (apply H2; apply in_jinmei_links; exists u; auto). congruence.
Qed.

(** ** Readings *)
Lemma Forall2_impl : forall A B (P Q : A -> B -> Prop) a b, (forall x y, P x y -> Q x y) -> Forall2 P a b -> Forall2 Q a b.
Proof. intros A B P Q a b H F. induction F; constructor; auto. Qed.
Lemma fromRomaji_cut : forall t fl a c b w, containsN narrowDelimList c = true ->
  fromRomaji t fl (a ++ c :: b) w =
  obind (fromRomaji t fl a w) (fun x => obind (delimOut fl c) (fun d => obind (fromRomaji t fl b []) (fun y => Val (x ++ d ++ y)))).
Proof.
  intros t fl. induction a as [|x a IH]; intros c b w Hc; cbn [app fromRomaji].
  - rewrite Hc. reflexivity.
  - destruct (containsN narrowDelimList x) eqn:D; [|apply IH; exact Hc].
    rewrite IH by exact Hc.
    destruct (toKana t fl w) as [p| | |]; cbn [obind]; try reflexivity.
    destruct (delimOut fl x) as [q| | |]; cbn [obind]; try reflexivity.
    destruct (fromRomaji t fl a []) as [r| | |]; cbn [obind]; try reflexivity.
    destruct (delimOut fl c) as [s| | |]; cbn [obind]; try reflexivity.
    destruct (fromRomaji t fl b []) as [z| | |]; cbn [obind]; try reflexivity.
    rewrite <- !app_assoc. reflexivity.
Qed.
Lemma comma_out : delimOut FlagNone 44 = Val (b_ "、").
Proof. reflexivity. Qed.

Lemma commas_id : forall s, ~ In 32 s -> commas s = s.
Proof.
  induction s as [|x s IH]; intro H; [reflexivity|]. cbn [commas map]. fold (commas s). rewrite IH by (intro K; apply H; right; exact K).
  destruct (N.eqb_spec x 32) as [->|]; [exfalso; apply H; left; reflexivity|reflexivity].
Qed.
Lemma commas_app : forall a b, commas (a ++ b) = commas a ++ commas b.
Proof. intros. apply map_app. Qed.
Lemma from_readings : forall t, t <> Romaji -> forall rs ks, rs <> [] -> free_of 32 rs ->
  Forall2 (fun r k => forall ltr, convertFrom t FlagNone ltr Romaji r = Val k) rs ks ->
  fromRomaji t FlagNone (commas (join 32 rs)) [] = Val (wide_list ks).
Proof.
  intros t Ht. assert (C : ctEqb Romaji t = false) by (destruct t; congruence || reflexivity).
  induction rs as [|r rs IH]; intros ks Hne Hf F; [congruence|].
  inversion F as [|r' k rs' ks' Hk F']; subst. apply Forall_cons_iff in Hf. destruct Hf as [Hr Hf].
  pose proof (Hk true) as K. unfold convertFrom in K. rewrite C in K.
  destruct rs as [|r2 rs].
  - inversion F'; subst. cbn [join wide_list]. rewrite commas_id by exact Hr. exact K.
  - destruct ks' as [|k2 ks']; [inversion F'|].
    change (join 32 (r :: r2 :: rs)) with (r ++ 32 :: join 32 (r2 :: rs)).
    rewrite commas_app. change (commas (32 :: join 32 (r2 :: rs))) with (44 :: commas (join 32 (r2 :: rs))).
    rewrite commas_id by exact Hr. rewrite fromRomaji_cut by reflexivity. rewrite K, comma_out. cbn [obind].
    rewrite (IH (k2 :: ks')) by (try discriminate; assumption). reflexivity.
Qed.
Lemma wide_list_app : forall a b, a <> [] -> b <> [] -> wide_list (a ++ b) = wide_list a ++ b_ "、" ++ wide_list b.
Proof.
  induction a as [|x a IH]; intros b Ha Hb; [congruence|]. destruct a as [|y a].
  - cbn [app]. destruct b as [|z b]; [congruence|]. reflexivity.
  - change (wide_list ((x :: y :: a) ++ b)) with (x ++ b_ "、" ++ wide_list ((y :: a) ++ b)).
    rewrite IH by (try discriminate; assumption).
    change (wide_list (x :: y :: a)) with (x ++ b_ "、" ++ wide_list (y :: a)). rewrite <- !app_assoc. reflexivity.
Qed.
Lemma wide_list_nonempty : forall ks, ks <> [] -> Forall (fun k => k <> []) ks -> wide_list ks <> [].
Proof.
  intros [|k [|k2 ks]] Hn H; [congruence| |]; apply Forall_cons_iff in H; destruct H as [H _]; cbn [wide_list]; [exact H|].
  destruct k; [congruence|discriminate].
Qed.

Lemma readings_spec : forall ltr u on kun ks hs,
  readings (ucdOn u) on -> readings (ucdKun u) kun -> converts Katakana on ks -> converts Hiragana kun hs ->
  getReadingsAsKana ltr u = Val (wide_list (ks ++ hs)).
Proof.
  intros ltr u on kun ks hs Ho Hk Co Ch. unfold getReadingsAsKana.
  assert (Eo : convertFrom Katakana FlagNone ltr Romaji (commas (ucdOn u)) = Val (wide_list ks)).
  { unfold convertFrom. change (ctEqb Romaji Katakana) with false. cbv iota.
    destruct Ho as [[-> ->]|[Hne [Hf ->]]].
    - inversion Co; subst. reflexivity.
    - apply from_readings; [discriminate|exact Hne|exact Hf|]. eapply Forall2_impl; [|exact Co]. intros r k [H _]. exact H. }
  rewrite Eo. cbn [obind].
  assert (Nk : Forall (fun k => k <> []) ks).
  { clear - Co. induction Co as [|r k rs ks [_ H] _ IH]; constructor; assumption. }
  destruct Hk as [[-> ->]|[Hne [Hf Ek]]].
  - inversion Ch; subst. rewrite app_nil_r. reflexivity.
  - assert (Eh : fromRomaji Hiragana FlagNone (commas (join 32 kun)) [] = Val (wide_list hs)).
    { apply from_readings; [discriminate|exact Hne|exact Hf|]. eapply Forall2_impl; [|exact Ch]. intros r k [H _]. exact H. }
    rewrite Ek. destruct (join 32 kun) as [|x t] eqn:Ej.
    + exfalso. destruct kun as [|r rs]; [congruence|]. inversion Ch as [|? h ? ? [Hr Hh]]; subst.
      destruct rs as [|r2 rs]; cbn [join] in Ej; [|destruct r; discriminate]. subst r. specialize (Hr true). vm_compute in Hr. congruence.
    + assert (Hhs : hs <> []) by (destruct kun; [congruence|inversion Ch; discriminate]).
      destruct ks as [|k1 ks1].
      * cbn [wide_list app]. unfold convertFrom. change (ctEqb Romaji Hiragana) with false. cbv iota. rewrite Eh. reflexivity.
      * assert (Nw : wide_list (k1 :: ks1) <> []) by (apply wide_list_nonempty; [discriminate|exact Nk]).
        destruct (wide_list (k1 :: ks1)) as [|y l] eqn:W; [congruence|]. rewrite <- W.
        unfold convertFrom. change (ctEqb Romaji Hiragana) with false. cbv iota zeta.
        pose proof (fromRomaji_cut Hiragana FlagNone [] 44 (commas (x :: t)) [] eq_refl) as Q. cbn [app] in Q. rewrite Q.
        change (fromRomaji Hiragana FlagNone [] []) with (@Val bytes []). rewrite comma_out. cbn [obind]. rewrite Eh. cbn [obind].
        rewrite (wide_list_app (k1 :: ks1) hs) by (try discriminate; assumption). reflexivity.
Qed.

(** ** Sources in both directions *)
Lemma sources_filter : forall u, sources u =
  filter (fun c => match letterIndex c with Some i => N.testbit (ucdBits u) i | None => false end) source_letters.
Proof.
  intro u. unfold sources, SourceLetterMap. cbn [flat_map].
  change source_letters with [71; 72; 74; 75; 84; 86]. cbn [filter].
  change 1 with (2^0). change 2 with (2^1). change 4 with (2^2). change 8 with (2^3) at 1. change 16 with (2^4). change 32 with (2^5).
  rewrite !land_pow.
  change (letterIndex 71) with (Some 0). change (letterIndex 72) with (Some 1). change (letterIndex 74) with (Some 2).
  change (letterIndex 75) with (Some 3). change (letterIndex 84) with (Some 4). change (letterIndex 86) with (Some 5).
  repeat match goal with |- context [N.testbit ?a ?b] => destruct (N.testbit a b) end; reflexivity.
Qed.
Lemma letters_sorted : StronglySorted N.lt source_letters.
Proof. change source_letters with [71; 72; 74; 75; 84; 86]. repeat constructor. Qed.
Lemma sorted_filter : forall (p : N -> bool) l, StronglySorted N.lt l -> StronglySorted N.lt (filter p l).
Proof.
  intros p l H. induction H as [|x l H IH F]; cbn [filter]; [constructor|]. destruct (p x); [|exact IH]. constructor; [exact IH|].
  apply Forall_forall. intros y Hy. apply filter_In in Hy. rewrite Forall_forall in F. apply F. tauto.
Qed.
Lemma sorted_nodup : forall l, StronglySorted N.lt l -> NoDup l.
Proof.
  intros l H. induction H as [|x l H IH F]; constructor; [|exact IH]. intro K. rewrite Forall_forall in F. specialize (F x K). lia.
Qed.
Lemma sources_good : forall u, good_sources (sources u) /\ StronglySorted N.lt (sources u).
Proof.
  intro u. rewrite sources_filter. split; [split|].
  - apply sorted_nodup. apply sorted_filter. exact letters_sorted.
  - intros c Hc. apply filter_In in Hc. tauto.
  - apply sorted_filter. exact letters_sorted.
Qed.
Lemma sources_perm : forall s, good_sources s -> Permutation s (filter (fun c => existsb (N.eqb c) s) source_letters).
Proof.
  intros s [Hn Hi]. apply NoDup_Permutation; [exact Hn|apply sorted_nodup; apply sorted_filter; exact letters_sorted|].
  intro c. rewrite filter_In. split.
  - intro H. split; [apply Hi; exact H|]. apply existsb_exists. exists c. split; [exact H|apply N.eqb_refl].
  - intros [_ H]. apply existsb_exists in H. destruct H as [x [Hx E]]. apply N.eqb_eq in E. subst x. exact Hx.
Qed.
Lemma sources_accept : forall s j n,
  (good_sources s -> exists b, getSources s j n = Val b /\ b < 256
     /\ forall u, ucdBits u = b -> joyo u = j /\ jinmei u = n /\ Permutation s (sources u) /\ StronglySorted N.lt (sources u))
  /\ (~ good_sources s -> getSources s j n = Throw DomainError).
Proof.
  intros s j n. split; [|apply getSources_bad].
  intro G. destruct (getSources_spec s j n G) as [b [E H]]. exists b. split; [exact E|].
  assert (K : forall u, ucdBits u = b -> joyo u = j /\ jinmei u = n /\ Permutation s (sources u) /\ StronglySorted N.lt (sources u) /\ b < 256).
  { intros u <-. destruct (sources_text u s j n H) as [S1 [S2 [S3 S4]]].
    split; [exact S2|]. split; [exact S3|]. split; [rewrite S1; apply sources_perm; exact G|].
    split; [apply sources_good|exact S4]. }
  split; [|intros u Hu; destruct (K u Hu) as [? [? [? [? _]]]]; auto].
  destruct (K (MkUcd [] [] [] [] b 0 0 (0,0) (0, Plain) [] [] [] [] [] []) eq_refl) as [_ [_ [_ [_ L]]]]. exact L.
Qed.
Lemma sources_back : forall u, ucdBits u < 256 -> getSources (sources u) (joyo u) (jinmei u) = Val (ucdBits u).
Proof.
  intros u Hb. destruct (sources_good u) as [G S]. destruct (exact_sources (sources u) (joyo u) (jinmei u)) as [X _].
  apply X. split; [exact G|]. apply bits_of_text; auto.
  (* a sorted list of letters is not changed by the filter *)
  symmetry. rewrite sources_filter. apply filter_ext_in. intros c Hc.
  destruct (letterIndex c) as [i|] eqn:E.
  - destruct (N.testbit (ucdBits u) i) eqn:B.
    + apply existsb_exists. exists c. split; [|apply N.eqb_refl]. apply filter_In. rewrite E. auto.
    + destruct (existsb (N.eqb c) _) eqn:Y; [|reflexivity]. apply existsb_exists in Y. destruct Y as [x [Y1 Y2]].
      apply N.eqb_eq in Y2. subst x. apply filter_In in Y1. rewrite E in Y1. destruct Y1. congruence.
  - apply letter_In in Hc. congruence.
Qed.
