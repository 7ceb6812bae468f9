(** Proofs about the argument that names a Kanji. *)
From Verif Require Import BaseFacts Utf8Proofs BlockProofs IdsProofs DataLemmas DetailsSpec.
Open Scope N_scope.
Arguments N.mul : simpl never.
Arguments N.add : simpl never.
Arguments N.sub : simpl never.
Arguments N.div : simpl never.
Arguments N.modulo : simpl never.

(** ** What a byte string decodes to without errors is the text itself *)
Lemma dec1_inv : forall b r, bytes_ok (b :: r) -> fst (dec1 b r) <> 0xfffd ->
  b :: r = enc (fst (dec1 b r)) ++ snd (dec1 b r).
Proof.
  intros b r Hok. unfold dec1. apply Forall_cons_iff in Hok. destruct Hok as [Hb Hok].
  destruct (b <? 128) eqn:E1; [cbn [fst snd]; intros _; unfold enc; rewrite E1; reflexivity|].
  destruct ((b <? 192) || (248 <=? b)) eqn:E2; [cbn [fst]; congruence|].
  destruct r as [|b2 r2]; [cbn [fst]; congruence|].
  destruct (is_cont b2) eqn:C2; cbn [negb]; [|cbn [fst]; congruence].
  apply cont_bounds in C2.
  destruct (b <? 224) eqn:E3.
  { cbn [fst snd]. destruct (194 <=? b) eqn:E4; [|congruence]. intros _. unfold enc.
    match goal with |- context [?x <? 128] => set (v := x) end.
    assert (Ev : v = (b - 192) * 64 + (b2 - 128)) by (unfold v; lia).
    replace (v <? 128) with false by lia. replace (v <? 2048) with true by lia. cbn [app].
    replace (192 + v / 64) with b by lia. replace (128 + v mod 64) with b2 by lia. reflexivity. }
  destruct r2 as [|b3 r3]; [cbn [fst]; congruence|].
  destruct (is_cont b3) eqn:C3; cbn [negb]; [|cbn [fst]; congruence].
  apply cont_bounds in C3.
  destruct (b <? 240) eqn:E4.
  { cbv zeta. cbn [fst snd].
    match goal with |- context [if ?c then _ else _] => destruct c eqn:E5 end; [|congruence].
    intros _. unfold enc.
    match goal with |- context [?x <? 128] => set (v := x) in * end.
    assert (Ev : v = (b - 224) * 4096 + ((b2 - 128) * 64 + (b3 - 128))) by (unfold v; lia).
    replace (v <? 128) with false by lia. replace (v <? 2048) with false by lia. replace (v <? 65536) with true by lia. cbn [app].
    replace (224 + v / 4096) with b by lia. replace (128 + (v / 64) mod 64) with b2 by lia.
    replace (128 + v mod 64) with b3 by lia. reflexivity. }
  destruct r3 as [|b4 r4]; [cbn [fst]; congruence|].
  destruct (is_cont b4) eqn:C4; cbn [negb]; [|cbn [fst]; congruence].
  apply cont_bounds in C4.
  cbv zeta. cbn [fst snd].
  match goal with |- context [if ?c then _ else _] => destruct c eqn:E5 end; [|congruence].
  intros _. unfold enc.
  match goal with |- context [?x <? 128] => set (v := x) in * end.
  assert (Ev : v = (b - 240) * 262144 + ((b2 - 128) * 4096 + ((b3 - 128) * 64 + (b4 - 128)))) by (unfold v; lia).
  replace (v <? 128) with false by lia. replace (v <? 2048) with false by lia. replace (v <? 65536) with false by lia. cbn [app].
  replace (240 + v / 262144) with b by lia. replace (128 + (v / 4096) mod 64) with b2 by lia. replace (128 + (v / 64) mod 64) with b3 by lia.
  replace (128 + v mod 64) with b4 by lia. reflexivity.
Qed.
Lemma decode_inv : forall n s, (length s <= n)%nat -> bytes_ok s -> ~ In 0xfffd (decode s) -> s = text (decode s).
Proof.
  induction n as [|n IH]; intros s Hn Hok Hr.
  - destruct s; [reflexivity|cbn in Hn; lia].
  - destruct s as [|b r]; [reflexivity|]. rewrite decode_cons in *. unfold text. cbn [flat_map]. fold (text (decode (snd (dec1 b r)))).
    assert (H1 : fst (dec1 b r) <> 0xfffd) by (intro K; apply Hr; left; exact K).
    rewrite <- IH.
    + exact (dec1_inv b r Hok H1).
    + pose proof (dec1_len b r). cbn [length] in Hn. lia.
    + apply dec1_ok. apply Forall_cons_iff in Hok. tauto.
    + intro K. apply Hr. right. exact K.
Qed.

(** ** One Kanji, for any argument *)
Lemma kanji_range : forall c, kanji c -> 0x2E80 <= c <= 0x3134F /\ ~ (0xFE00 <= c <= 0xFFFF) /\ scalar c.
Proof. intros c H. unfold kanji, common_kanji, rare_kanji, within, scalar in *. lia. Qed.
Lemma one_of_chars : forall cs, one_of kanji cs -> chars cs /\ ~ In 0xfffd cs.
Proof.
  intros cs [c [Hc Hd]]. destruct (kanji_range c Hc) as [R1 [R2 R3]].
  destruct Hd as [-> | [d [Hd ->]]].
  - split; [constructor; [split; [exact R3|lia]|constructor]|]. intros [E|[]]. lia.
  - assert (Hs : scalar d /\ d <> 0 /\ d <> 0xfffd) by (unfold non_spacing, variation_selector, within, scalar in *; lia).
    split; [constructor; [split; [exact R3|lia]|constructor; [tauto|constructor]]|]. intros [E|[E|[]]]; [lia|tauto].
Qed.
Lemma is_kanji_any : forall s, bytes_ok s -> no_nul s ->
  exists b, isKanji s true = Val b /\ (b = true <-> exists cs, one_of kanji cs /\ s = text cs).
Proof.
  intros s Hok Hn. destruct (decode_props (length s) s (Nat.le_refl _) Hok Hn) as [D1 [D2 [D3 _]]].
  destruct (in_dec N.eq_dec 0xfffd (decode s)) as [Hin|Hin].
  - assert (E : exists b, isKanji s true = Val b /\ (b = true -> one_of kanji (decode s))).
    { unfold isKanji, inWCharRange. destruct (1 <? len s); [|exists false; split; [reflexivity|discriminate]]. cbn [negb].
      destruct (len s <=? MaxMBSize * 2); [|exists false; split; [reflexivity|discriminate]].
      rewrite fromUtf8_decode by exact Hok. rewrite upto_nul_id by exact Hn. cbn [obind]. change (3 =? 0) with false. cbv iota.
      change (N.to_nat 3) with 3%nat. destruct t_kanji as [Ht _].
      destruct (decode s) as [|a [|b [|c r]]]; cbn [firstn]; eexists; (split; [reflexivity|]); try discriminate.
      - intro K. apply Ht in K. exists a. split; [exact K|left; reflexivity].
      - intro K. apply andb_true_iff in K. destruct K as [K1 K2]. apply Ht in K2. apply r_ns in K1.
        exists a. split; [exact K2|]. right. exists b. split; [exact K1|reflexivity]. }
    destruct E as [b [E1 E2]]. exists b. split; [exact E1|]. split.
    + intro K. destruct (one_of_chars _ (E2 K)) as [_ X]. contradiction.
    + intros [cs [K1 K2]]. destruct (one_of_chars _ K1) as [X Y]. subst s. unfold text in Hin. rewrite decode_encs in Hin; [contradiction|].
      apply chars_scalar. exact X.
  - pose proof (decode_inv (length s) s (Nat.le_refl _) Hok Hin) as E.
    assert (Hc : chars (decode s)).
    { unfold chars. rewrite Forall_forall in *. intros x Hx. split; [exact (D1 x Hx)|exact (D2 x Hx)]. }
    destruct (test_one _ _ (decode s) t_kanji Hc) as [b [B1 B2]]. rewrite <- E in B1. exists b. split; [exact B1|].
    rewrite B2. split.
    + intro K. exists (decode s). split; [exact K|exact E].
    + intros [cs [K1 K2]]. rewrite K2. unfold text. rewrite decode_encs; [exact K1|].
      apply chars_scalar. exact (proj1 (one_of_chars _ K1)).
Qed.

(** ** Numbers *)
Lemma allDigits_iff : forall s, allDigits s = true <-> Forall is_digit s.
Proof.
  intro s. unfold allDigits. rewrite forallb_forall, Forall_forall. unfold isdigit, is_digit. split; intros H x Hx; specialize (H x Hx); lia.
Qed.
Lemma readU16_digits : forall s, Forall is_digit s ->
  readU16 s = match s with [] => None | _ => if 65535 <? decimal s then None else Some (decimal s, []) end.
Proof.
  intros s H. destruct s as [|c r]; [reflexivity|].
  assert (Hc : is_digit c) by (inversion H; assumption).
  unfold readU16. assert (E : skipSpaces (c :: r) = c :: r).
  { cbn [skipSpaces]. unfold isSpace, is_digit in *. replace (c =? 32) with false by lia. replace ((9 <=? c) && (c <=? 13)) with false by lia. reflexivity. }
  rewrite E. unfold is_digit in Hc. replace (c =? 45) with false by lia. replace (c =? 43) with false by lia. cbn [orb].
  replace (c :: r) with ((c :: r) ++ []) at 1 by apply app_nil_r.
  rewrite readDigits_all; [|exact H|exact I|left; discriminate]. fold (decimal (c :: r)).
  destruct (65535 <? decimal (c :: r)); reflexivity.
Qed.
Lemma getNumericId_digits : forall s, Forall is_digit s ->
  getNumericId s = match s with [] => Throw DomainError | _ => if 65535 <? decimal s then Throw DomainError else Val (decimal s) end.
Proof.
  intros s H. unfold getNumericId. rewrite readU16_digits by exact H. destruct s as [|c r]; [reflexivity|].
  destruct (65535 <? decimal (c :: r)); reflexivity.
Qed.

(** ** Hexadecimal *)
Lemma ishex_iff : forall b, ishexnumber b = true <-> exists v, digit_value b = Some v.
Proof.
  intro b. unfold ishexnumber, isdigit, digit_value.
  destruct ((48 <=? b) && (b <=? 57)) eqn:E1; [split; intros _; [eauto|reflexivity]|].
  destruct ((65 <=? b) && (b <=? 70)) eqn:E2; [split; intros _; [eauto|cbn [orb]; rewrite orb_true_r; reflexivity]|].
  destruct ((97 <=? b) && (b <=? 102)) eqn:E3; [split; intros _; [eauto|reflexivity]|].
  cbn [orb]. split; [discriminate|intros [v H]; discriminate].
Qed.
Lemma digit_value_hex : forall b v, digit_value b = Some v -> hexValue b = v /\ v < 16.
Proof.
  intros b v. unfold digit_value, hexValue.
  destruct ((48 <=? b) && (b <=? 57)) eqn:E1; [intro H; injection H as <-; replace (b <=? 57) with true by lia; lia|].
  destruct ((65 <=? b) && (b <=? 70)) eqn:E2; [intro H; injection H as <-; replace (b <=? 57) with false by lia; replace (b <=? 70) with true by lia; lia|].
  destruct ((97 <=? b) && (b <=? 102)) eqn:E3; [intro H; injection H as <-; replace (b <=? 57) with false by lia; replace (b <=? 70) with false by lia; lia|].
  discriminate.
Qed.
Lemma hex_fold : forall s ds a, map digit_value s = map Some ds ->
  fold_left (fun a b => a * 16 + hexValue b) s a = fold_left (fun a d => a * 16 + d) ds a.
Proof.
  induction s as [|b s IH]; intros ds a H; destruct ds as [|v ds]; try discriminate; [reflexivity|].
  cbn [map] in H. injection H as H1 H2. cbn [fold_left]. destruct (digit_value_hex _ _ H1) as [-> _]. apply IH. exact H2.
Qed.
Lemma hex_denotes : forall s, s <> [] -> forallb ishexnumber s = true -> denotes 16 s (stoiHex s).
Proof.
  intros s Hne H. assert (E : exists ds, map digit_value s = map Some ds).
  { clear Hne. induction s as [|b s IH]; [exists []; reflexivity|]. cbn [forallb] in H. apply andb_true_iff in H. destruct H as [H1 H2].
    destruct (IH H2) as [ds E]. apply ishex_iff in H1. destruct H1 as [v H1]. exists (v :: ds). cbn [map]. rewrite H1, E. reflexivity. }
  destruct E as [ds E]. exists ds. split; [exact E|]. split; [|split; [exact Hne|]].
  - clear H Hne. revert s E. induction ds as [|v ds IH]; intros s E; [constructor|]. destruct s as [|b s]; [discriminate|].
    cbn [map] in E. injection E as E1 E2. constructor; [exact (proj2 (digit_value_hex _ _ E1))|exact (IH s E2)].
  - unfold positional, stoiHex. symmetry. apply hex_fold. exact E.
Qed.
Lemma denotes_hex : forall s c, denotes 16 s c -> forallb ishexnumber s = true /\ stoiHex s = c.
Proof.
  intros s c [ds [E [_ [_ P]]]]. split.
  - clear P. revert ds E. induction s as [|b s IH]; intros ds E; [reflexivity|]. destruct ds as [|v ds]; [discriminate|].
    cbn [map] in E. injection E as E1 E2. cbn [forallb]. rewrite (IH ds E2), andb_true_r. apply ishex_iff. eauto.
  - unfold stoiHex. rewrite (hex_fold s ds 0 E). exact P.
Qed.
(** four digits are below 2^16, five digits are below 2^17 or 2^17 to 2^18 by the first one *)
Lemma hex_four : forall s, len s = 4 -> forallb ishexnumber s = true -> stoiHex s < 0x10000.
Proof.
  intros s L H. destruct s as [|a [|b [|c [|d [|x y]]]]]; try (unfold len in L; cbn [length] in L; lia).
  cbn [forallb] in H. rewrite !andb_true_iff in H. destruct H as [Ha [Hb [Hc [Hd _]]]]. apply ishex_iff in Ha, Hb, Hc, Hd.
  destruct Ha as [va Ha], Hb as [vb Hb], Hc as [vc Hc], Hd as [vd Hd].
  apply digit_value_hex in Ha, Hb, Hc, Hd. unfold stoiHex. cbn [fold_left]. lia.
Qed.
Lemma hex_five : forall s, len s = 5 -> forallb ishexnumber s = true ->
  (0x10000 <= stoiHex s < 0x30000 <-> hd 0 s = 49 \/ hd 0 s = 50).
Proof.
  intros s L H. destruct s as [|e [|a [|b [|c [|d [|x y]]]]]]; try (unfold len in L; cbn [length] in L; lia).
  cbn [forallb] in H. rewrite !andb_true_iff in H. destruct H as [He [Ha [Hb [Hc [Hd _]]]]]. apply ishex_iff in He, Ha, Hb, Hc, Hd.
  destruct He as [ve He], Ha as [va Ha], Hb as [vb Hb], Hc as [vc Hc], Hd as [vd Hd]. pose proof He as He'.
  apply digit_value_hex in He, Ha, Hb, Hc, Hd. unfold stoiHex. cbn [fold_left hd].
  assert (X : ve = 1 \/ ve = 2 <-> e = 49 \/ e = 50).
  { unfold digit_value in He'. destruct ((48 <=? e) && (e <=? 57)) eqn:E1; [injection He' as <-; lia|].
    destruct ((65 <=? e) && (e <=? 70)) eqn:E2; [injection He' as <-; lia|].
    destruct ((97 <=? e) && (e <=? 102)) eqn:E3; [injection He' as <-; lia|discriminate]. }
  rewrite <- X. lia.
Qed.

(** ** The argument *)
Lemma starts_same : forall x r, starts_with (x :: r) [x] = true.
Proof. intros x r. cbn [starts_with]. rewrite N.eqb_refl. destruct r; reflexivity. Qed.
Lemma text_first : forall cs, one_of kanji cs -> exists c r, text cs = c :: r /\ 0x80 <= c.
Proof.
  intros cs [c [Hc H]]. destruct (kanji_range c Hc) as [R _].
  assert (E : exists b t, enc c = b :: t /\ 0x80 <= b).
  { unfold enc. replace (c <? 128) with false by lia. replace (c <? 2048) with false by lia. destruct (c <? 65536); eexists; eexists; (split; [reflexivity|lia]). }
  destruct E as [b [t [E Hb]]]. destruct H as [-> | [v [_ ->]]]; unfold text; cbn [flat_map]; rewrite E; cbn [app]; eauto.
Qed.
Lemma starts_one : forall a x, starts_with a [x] = true -> a = x :: tl a.
Proof. intros [|b r] x H; [discriminate|]. cbn [starts_with] in H. apply andb_true_iff in H. destruct H as [H _]. cbn [tl]. f_equal. lia. Qed.

Section Arg.
Variable d : Data.
(** processKanjiArg with any way to show Kanji *)
Variable one : bytes -> out bytes.
Variable several : list Kanji -> bytes -> bytes -> out bytes.
Definition dispatch (arg : bytes) : out bytes :=
  if allDigits arg then
    f <- getNumericId arg ;;
    k <- findByFrequency d f ;;
    match k with Some k => one (kName k) | None => Throw DomainError end
  else if starts_with arg (b_ "m") then
    id <- newMorohashi (tl arg) ;; several (findByMorohashiId d id) (b_ "Morohashi") (morohashiToString id)
  else if starts_with arg (b_ "n") then
    let id := tl arg in
    if (match id with [] => true | _ => false end) || negb (allDigits id) then Throw DomainError
    else n <- getNumericId id ;; several (findByNelsonId d n) (b_ "Nelson") id
  else if starts_with arg (b_ "u") then
    let id := tl arg in
    if (len id <? 4) || (5 <? len id)
       || ((len id =? 5) && negb (hd 0 id =? 49) && negb (hd 0 id =? 50))
       || negb (forallb ishexnumber id) then Throw DomainError
    else s <- toUtf8_code (stoiHex id) ;; one s
  else
    k <- isKanji arg true ;; if k : bool then one arg else Throw DomainError.
Definition show_with (x : shown) : out bytes := match x with One n => one n | Several w i ks => several ks w i end.
Notation arg_text := dispatch.

Lemma dispatch_shown : forall a x, stands_for d a x -> arg_text a = show_with x.
Proof.
  intros a x H. destruct H as [a k Hn Hv Hf|r i t Hm|r Hn Hv|r c Hd Hl Hs|r c Hd Hl Hs|cs Hk].
  - unfold dispatch. rewrite (proj2 (allDigits_iff a)) by exact (proj2 Hn). rewrite getNumericId_digits by exact (proj2 Hn).
    destruct Hn as [Hne _]. destruct a as [|c r]; [congruence|]. replace (65535 <? decimal (c :: r)) with false by lia. cbn [obind].
    rewrite Hf. reflexivity.
  - unfold dispatch. change (b_ "m") with [109]. cbn [app tl]. replace (allDigits (109 :: r)) with false by reflexivity.
    rewrite starts_same.
    apply morohashi_iff in Hm. rewrite Hm. reflexivity.
  - unfold dispatch. change (b_ "n") with [110]. change (b_ "m") with [109]. cbn [app tl]. replace (allDigits (110 :: r)) with false by reflexivity.
    replace (starts_with (110 :: r) [109]) with false by reflexivity. rewrite starts_same. cbv zeta.
    rewrite (proj2 (allDigits_iff r)) by exact (proj2 Hn). rewrite getNumericId_digits by exact (proj2 Hn). destruct Hn as [Hne _].
    destruct r as [|c r]; [congruence|]. cbn [negb orb]. replace (65535 <? decimal (c :: r)) with false by lia. reflexivity.
  - destruct (denotes_hex r c Hd) as [Hh Hc].
    unfold dispatch. change (b_ "u") with [117]. change (b_ "n") with [110]. change (b_ "m") with [109]. cbn [app tl]. replace (allDigits (117 :: r)) with false by reflexivity.
    replace (starts_with (117 :: r) [109]) with false by reflexivity. replace (starts_with (117 :: r) [110]) with false by reflexivity.
    rewrite starts_same. cbv zeta. rewrite Hh.
    assert (E : (len r <? 4) || (5 <? len r) || ((len r =? 5) && negb (hd 0 r =? 49) && negb (hd 0 r =? 50)) = false).
    { destruct Hl as [L|[L R]]; rewrite L; [reflexivity|]. rewrite <- Hc in R. apply (hex_five r L Hh) in R. destruct R as [-> | ->]; reflexivity. }
    rewrite E. cbn [negb orb]. unfold toUtf8_code. rewrite convertToUtf8_enc, Hc, enc_or_repl_scalar by exact Hs. reflexivity.
  - destruct (denotes_hex r c Hd) as [Hh Hc].
    unfold dispatch. change (b_ "u") with [117]. change (b_ "n") with [110]. change (b_ "m") with [109]. cbn [app tl]. replace (allDigits (117 :: r)) with false by reflexivity.
    replace (starts_with (117 :: r) [109]) with false by reflexivity. replace (starts_with (117 :: r) [110]) with false by reflexivity.
    rewrite starts_same. cbv zeta. rewrite Hh.
    assert (E : (len r <? 4) || (5 <? len r) || ((len r =? 5) && negb (hd 0 r =? 49) && negb (hd 0 r =? 50)) = false) by (rewrite Hl; reflexivity).
    rewrite E. cbn [negb orb]. unfold toUtf8_code. rewrite convertToUtf8_enc, Hc, enc_or_repl_not by exact Hs. reflexivity.
  - destruct (text_first cs Hk) as [c [r [E Hc]]]. destruct (one_of_chars cs Hk) as [Hch _].
    destruct (is_kanji_any (text cs) (text_ok cs Hch) (text_no_nul cs Hch)) as [b [B1 B2]].
    unfold dispatch. change (b_ "u") with [117]. change (b_ "n") with [110]. change (b_ "m") with [109].
    assert (D : allDigits (text cs) = false).
    { rewrite E. unfold allDigits. cbn [forallb]. unfold isdigit. replace (c <=? 57) with false by lia. rewrite andb_false_r. reflexivity. }
    assert (S : forall x, x < 128 -> starts_with (text cs) [x] = false).
    { intros x Hx. rewrite E. cbn [starts_with]. replace (x =? c) with false by lia. reflexivity. }
    rewrite D, !S by lia. rewrite B1. cbn [obind]. replace b with true; [reflexivity|]. symmetry. apply B2. exists cs. auto.
Qed.
Lemma dispatch_refused : forall a, bytes_ok a -> no_nul a ->
  (exists x, stands_for d a x) \/ arg_text a = Throw DomainError
  \/ (numeral a /\ decimal a <= 65535 /\ (forall k, findByFrequency d (decimal a) <> Val k) /\ arg_text a = Ub).
Proof.
  intros a Hok Hn. unfold dispatch. change (b_ "u") with [117]. change (b_ "n") with [110]. change (b_ "m") with [109].
  destruct (allDigits a) eqn:Ed.
  { apply allDigits_iff in Ed. rewrite getNumericId_digits by exact Ed. destruct a as [|c r]; [right; left; reflexivity|].
    destruct (65535 <? decimal (c :: r)) eqn:Ev; [right; left; reflexivity|]. cbn [obind].
    assert (Hnum : numeral (c :: r)) by (split; [discriminate|exact Ed]).
    destruct (findByFrequency d (decimal (c :: r))) as [[k|]|e| |] eqn:Ef; cbn [obind].
    - left. exists (One (kName k)). apply sf_frequency; [exact Hnum|lia|exact Ef].
    - right; left; reflexivity.
    - exfalso. unfold findByFrequency in Ef. repeat (match goal with H : context [if ?c then _ else _] |- _ => destruct c end; try discriminate).
      all: repeat (match goal with H : context [match ?c with _ => _ end] |- _ => destruct c end; try discriminate).
    - right; right. split; [exact Hnum|]. split; [lia|]. split; [congruence|reflexivity].
    - exfalso. unfold findByFrequency in Ef. repeat (match goal with H : context [if ?c then _ else _] |- _ => destruct c end; try discriminate).
      all: repeat (match goal with H : context [match ?c with _ => _ end] |- _ => destruct c end; try discriminate). }
  destruct (starts_with a [109]) eqn:Em.
  { apply starts_one in Em. destruct (morohashi_total (tl a)) as [[i [t E]]|E].
    - left. eexists. rewrite Em. apply (sf_morohashi d (tl a) i t). apply morohashi_iff. exact E.
    - right; left. rewrite E. reflexivity. }
  destruct (starts_with a [110]) eqn:En.
  { apply starts_one in En. cbv zeta. destruct (tl a) as [|c r] eqn:Et; [right; left; reflexivity|]. cbn [orb].
    destruct (allDigits (c :: r)) eqn:Ed2; [|right; left; reflexivity]. apply allDigits_iff in Ed2. cbn [negb].
    rewrite getNumericId_digits by exact Ed2. destruct (65535 <? decimal (c :: r)) eqn:Ev; [right; left; reflexivity|].
    left. eexists. rewrite En. apply (sf_nelson d (c :: r)); [split; [discriminate|exact Ed2]|lia]. }
  destruct (starts_with a [117]) eqn:Eu.
  { apply starts_one in Eu. cbv zeta. destruct (_ || _ || _ || _) eqn:Eb; [right; left; reflexivity|]. left.
    rewrite !orb_false_iff, !andb_false_iff, !negb_false_iff, !N.eqb_neq, !N.eqb_eq, !N.ltb_ge in Eb. destruct Eb as [[[L1 L2] L3] Hh].
    assert (Hne : tl a <> []) by (intro X; rewrite X in L1; unfold len in L1; cbn [length] in L1; lia).
    pose proof (hex_denotes (tl a) Hne Hh) as Hd. rewrite Eu.
    destruct (scalarb (stoiHex (tl a))) eqn:Es.
    - apply scalarb_spec in Es. eexists. apply (sf_unicode d (tl a) (stoiHex (tl a)) Hd); [|exact Es].
      destruct (N.eq_dec (len (tl a)) 4) as [L|L]; [left; exact L|right]. assert (L5 : len (tl a) = 5) by lia. split; [exact L5|].
      apply (hex_five _ L5 Hh). destruct L3 as [[L3|L3]|L3]; [lia|left; exact L3|right; exact L3].
    - assert (Hs : ~ scalar (stoiHex (tl a))) by (intro X; apply scalarb_spec in X; congruence).
      eexists. apply (sf_surrogate d (tl a) (stoiHex (tl a)) Hd); [|exact Hs].
      destruct (N.eq_dec (len (tl a)) 4) as [L|L]; [exact L|]. assert (L5 : len (tl a) = 5) by lia. exfalso. apply Hs.
      assert (R : 0x10000 <= stoiHex (tl a) < 0x30000).
      { apply (hex_five _ L5 Hh). destruct L3 as [[L3|L3]|L3]; [lia|left; exact L3|right; exact L3]. }
      unfold scalar. lia. }
  destruct (is_kanji_any a Hok Hn) as [b [B1 B2]]. rewrite B1. cbn [obind]. destruct b; [|right; left; reflexivity].
  destruct (proj1 B2 eq_refl) as [cs [K1 K2]]. left. eexists. rewrite K2. apply sf_kanji. exact K1.
Qed.
End Arg.

Section Whole.
Variable sort : list Kanji -> list Kanji.
Variable d : Data.
Variable ucd : UcdData.
Variable gd : GroupData.
Variable jd : JukugoData.
Definition show (x : shown) : out bytes :=
  match x with
  | One n => printDetails sort d ucd gd jd n true
  | Several w i ks => printList sort d ucd gd jd ks w i
  end.
Lemma arg_dispatch : forall a, processKanjiArg sort d ucd gd jd a = dispatch d (fun n => printDetails sort d ucd gd jd n true) (printList sort d ucd gd jd) a.
Proof. reflexivity. Qed.
Lemma arg_shown : forall a x, stands_for d a x -> processKanjiArg sort d ucd gd jd a = show x.
Proof. intros a x H. rewrite arg_dispatch, (dispatch_shown _ _ _ a x H). destruct x; reflexivity. Qed.
(** an argument that stands for nothing is not shown, whatever is shown of Kanji *)
Lemma stands_or_not : forall a, bytes_ok a -> no_nul a -> (exists x, stands_for d a x) \/ (forall x, ~ stands_for d a x).
Proof.
  intros a H1 H2. pose proof (dispatch_shown d (fun _ => Val []) (fun _ _ _ => Val []) a) as Sh.
  destruct (dispatch_refused d (fun _ => Val []) (fun _ _ _ => Val []) a H1 H2) as [X|[X|(_ & _ & _ & X)]]; [left; exact X|right..]; intros x Hx; rewrite (Sh x Hx) in X;
    destruct x; discriminate X.
Qed.
Lemma arg_refused : forall a, bytes_ok a -> no_nul a ->
  (exists x, stands_for d a x)
  \/ ((forall x, ~ stands_for d a x)
      /\ (processKanjiArg sort d ucd gd jd a = Throw DomainError
          \/ (numeral a /\ decimal a <= 65535 /\ (forall k, findByFrequency d (decimal a) <> Val k) /\ processKanjiArg sort d ucd gd jd a = Ub))).
Proof.
  intros a H1 H2. destruct (stands_or_not a H1 H2) as [X|X]; [left; exact X|right; split; [exact X|]].
  destruct (dispatch_refused d (fun n => printDetails sort d ucd gd jd n true) (printList sort d ucd gd jd) a H1 H2) as [[x Y]|Y]; [destruct (X x Y)|exact Y].
Qed.
End Whole.
