(** Conversions from any script: the three stages together. *)
From Verif Require Import BaseFacts ConverterModel ConverterSpec Utf8Proofs BlockProofs KanaProofs
  Utf8CharProofs Utf8CharLemmas ConverterProofs ConverterKana ConverterRomaji ConverterTables ConverterTrip ConverterBack
  ConverterMore ConverterCase.
Open Scope N_scope.
Arguments N.ltb : simpl never.
Arguments N.leb : simpl never.
Arguments N.eqb : simpl never.
Arguments N.add : simpl never.
Arguments N.sub : simpl never.

(** ** The order of evaluation *)
Definition calm (e : ender) : Prop := match e with ERepeat _ => False | _ => True end.
Lemma emit_order : forall tg fl t l p q, Forall (fun x => calm (snd x)) l ->
  emit tg fl true t p l = emit tg fl false t q l.
Proof.
  induction l as [|[g e] l IH]; intros p q H; [reflexivity|]. inversion H as [|? ? He Hl]; subst. cbn [snd] in He. cbn [emit].
  pose proof (process_order tg fl t (text g) p (is_long_end e)) as E.
  rewrite (process_prev tg fl false t (text g) p q) in E.
  destruct (processKana tg fl true t (text g) p (is_long_end e)) as [o1 p1].
  destruct (processKana tg fl false t (text g) q (is_long_end e)) as [o2 p2]. cbn [fst] in E. subst o2.
  rewrite (IH p1 p2 Hl). destruct e; try reflexivity. contradiction.
Qed.
Lemma groups_calm : forall t us g s, Forall (fun u => match u with G c => is_repeat t c = false | _ => True end) us ->
  Forall (fun x => calm (snd x)) (groups t g s us).
Proof.
  induction us as [|u us IH]; intros g s H; [constructor; [exact I|constructor]|]. inversion H as [|? ? Hu Hus]; subst.
  cbn [groups]. destruct (class_of t u) eqn:C; try (constructor; [exact I|apply IH; exact Hus]).
  - exfalso. unfold class_of in C. destruct (is_long u); [discriminate|]. destruct (repeat_of t u) eqn:R.
    + unfold repeat_of in R. destruct u as [c|]; [|discriminate]. unfold is_repeat in Hu.
      replace (c =? 0x309D + off t) with false in R by lia. replace (c =? 0x309E + off t) with false in R by lia. discriminate.
    + destruct u; [destruct (is_kana t c)|]; discriminate.
  - destruct (extends t g s c); [apply IH; exact Hus|]. constructor; [exact I|apply IH; exact Hus].
Qed.
Lemma kana_order : forall tg fl t us, kana_type t -> Forall glyph_ok us ->
  Forall (fun u => match u with G c => is_repeat t c = false | _ => True end) us ->
  convertFrom tg fl true t (gtext us) = convertFrom tg fl false t (gtext us).
Proof.
  intros tg fl t us Ht Hok Hr. unfold convertFrom. destruct (ctEqb t tg); [reflexivity|].
  destruct t; [| |exfalso; apply Ht; reflexivity]; rewrite !fromKana_emit by assumption; f_equal;
    apply emit_order; apply groups_calm; exact Hr.
Qed.

(** ** Any bytes *)
Lemma kana_any : forall tg fl ltr t s gs u, allChars s false = Val (map gb gs, u) -> Forall glyph_ok gs ->
  fromKana tg fl ltr s t = fromKana tg fl ltr (gtext gs) t.
Proof.
  intros tg fl ltr t s gs u E Hok. unfold fromKana. destruct (tokens_of gs Hok) as [u' E']. rewrite E, E'. reflexivity.
Qed.
Lemma gtext_ok : forall gs, Forall glyph_ok gs -> bytes_ok (gtext gs).
Proof.
  intros gs H. rewrite gtext_text. apply text_ok. apply ok_chars. exact H.
Qed.
Lemma from_total : forall tg fl ltr t s, bytes_ok s -> exists r, convertFrom tg fl ltr t s = Val r /\ (t <> Romaji -> bytes_ok r).
Proof.
  intros tg fl ltr t s Hs. unfold convertFrom. destruct (ctEqb t tg) eqn:Q; [exists s; auto|].
  assert (K : kana_type t -> exists r, fromKana tg fl ltr s t = Val r /\ bytes_ok r).
  { intro Ht. destruct (some_tokens s Hs) as [gs [u [Hok E]]]. rewrite (kana_any tg fl ltr t s gs u E Hok).
    assert (C : exists os, convertFrom tg fl ltr t (gtext gs) = Val (gtext os) /\ Forall glyph_ok os).
    { destruct (ctEqb tg Romaji) eqn:R.
      - destruct tg; try discriminate. destruct (kana_to_romaji fl ltr t gs Ht Hok) as [os [A [B _]]]. eauto.
      - assert (tg = other_kana t) as -> by (destruct t, tg; try reflexivity; try discriminate; exfalso; apply Ht; reflexivity).
        exists (shift_text t gs). split; [apply kana_to_kana; assumption|]. exact (walk_ok t Ht (List.length gs) gs (le_n _) Hok). }
    destruct C as [os [C1 C2]]. unfold convertFrom in C1. rewrite Q in C1.
    exists (gtext os). split; [|apply gtext_ok; exact C2]. destruct t; [exact C1|exact C1|exfalso; apply Ht; reflexivity]. }
  destruct t; [destruct K as [r [K1 K2]]; [discriminate|]; eauto|destruct K as [r [K1 K2]]; [discriminate|]; eauto|].
  destruct (fromRomaji_total tg fl s [] Hs) as [r Hr]; [constructor|]. exists r. split; [exact Hr|]. intro H. exfalso. apply H. reflexivity.
Qed.
Lemma convert_total : forall tg fl ltr s, bytes_ok s -> exists r, convert tg fl ltr s = Val r.
Proof.
  intros tg fl ltr s Hs. unfold convert.
  assert (A : exists a, (if ctEqb tg Hiragana then Val s else convertFrom tg fl ltr Hiragana s) = Val a /\ bytes_ok a).
  { destruct (ctEqb tg Hiragana); [eauto|]. destruct (from_total tg fl ltr Hiragana s Hs) as [a [E K]]. exists a. split; [exact E|].
    apply K. discriminate. }
  destruct A as [a [-> Ha]]. cbn [obind].
  assert (B : exists b, (if ctEqb tg Katakana then Val a else convertFrom tg fl ltr Katakana a) = Val b /\ bytes_ok b).
  { destruct (ctEqb tg Katakana); [eauto|]. destruct (from_total tg fl ltr Katakana a Ha) as [b [E K]]. exists b. split; [exact E|].
    apply K. discriminate. }
  destruct B as [b [-> Hb]]. cbn [obind].
  destruct (ctEqb tg Romaji); [eauto|]. destruct (from_total tg fl ltr Romaji b Hb) as [r [E _]]. eauto.
Qed.

(** ** Untouched characters *)
Lemma shift_foreign : forall t g, kana_type t -> foreign t g = true -> shift_kana t g = g.
Proof.
  intros t [c|] Ht H; [|reflexivity]. unfold foreign in H. rewrite !andb_true_iff, !negb_true_iff in H. destruct H as [_ H].
  cbn [shift_kana]. rewrite H. reflexivity.
Qed.
Definition both (g : glyph) : bool := foreign Hiragana g && foreign Katakana g.
Lemma shift_both : forall t g, kana_type t -> both (shift_kana t g) = both g /\ (both g = true -> shift_kana t g = g).
Proof.
  intros t [c|c v] Ht; [|split; reflexivity]. cbn [shift_kana]. destruct (is_kana t c || is_repeat t c) eqn:E; [|split; reflexivity].
  assert (A : both (G c) = false).
  { unfold both, foreign. destruct t; [| |exfalso; apply Ht; reflexivity]; rewrite E; cbn [negb]; rewrite ?andb_false_r; reflexivity. }
  assert (E' : is_kana (other_kana t) (c - off t + off (other_kana t)) || is_repeat (other_kana t) (c - off t + off (other_kana t)) = true).
  { unfold is_kana, is_repeat in *. destruct t; [| |exfalso; apply Ht; reflexivity]; cbn [other_kana off] in *; lia. }
  assert (B : both (G (c - off t + off (other_kana t))) = false).
  { unfold both, foreign. destruct t; [| |exfalso; apply Ht; reflexivity]; cbn [other_kana] in *; rewrite E'; cbn [negb]; rewrite ?andb_false_r; reflexivity. }
  rewrite A, B. split; [reflexivity|discriminate].
Qed.
Lemma walk_both : forall t n us, kana_type t -> (List.length us <= n)%nat -> filter both (shift_text t us) = filter both us.
Proof.
  intros t n. unfold shift_text. induction n as [|n IH]; intros us Ht Hn; [destruct us; [reflexivity|cbn in Hn; lia]|].
  destruct us as [|a us]; [reflexivity|]. cbn [List.length] in Hn.
  assert (S1 : forall l r, filter both l = filter both r -> filter both (shift_kana t a :: l) = filter both (a :: r)).
  { intros l r H. cbn [filter]. destruct (shift_both t a Ht) as [B1 B2]. rewrite B1, H. destruct (both a) eqn:Ba; [|reflexivity]. rewrite B2 by reflexivity. reflexivity. }
  assert (D : filter both (shift_kana t a :: walk t (shift_kana t) us) = filter both (a :: us)) by (apply S1; apply IH; [exact Ht|lia]).
  destruct us as [|x [|s r]]; [exact D|exact D|]. rewrite walk_three. destruct (broken t a x s); [|exact D].
  apply S1. cbn [filter]. cbn [List.length] in Hn.
  assert (R : filter both (match r with l :: r' => if is_long l then walk t (shift_kana t) r' else walk t (shift_kana t) r | [] => [] end) = filter both r).
  { destruct r as [|l r']; [reflexivity|]. cbn [List.length] in Hn. destruct (is_long l) eqn:L.
    - rewrite IH by (try exact Ht; lia). cbn [filter]. replace (both l) with false; [reflexivity|].
      unfold both, foreign. rewrite L. cbn [negb]. rewrite ?andb_false_r. reflexivity.
    - apply IH; [exact Ht|cbn [List.length]; lia]. }
  rewrite R. reflexivity.
Qed.
Lemma filter_filter : forall A (f g : A -> bool) l, filter g (filter f l) = filter (fun x => f x && g x) l.
Proof.
  induction l as [|x l IH]; [reflexivity|]. cbn [filter]. destruct (f x); cbn [andb filter]; [destruct (g x); rewrite IH; reflexivity|exact IH].
Qed.
Lemma to_both : forall t os us, kana_type t -> filter (foreign t) os = filter (foreign t) us -> filter both os = filter both us.
Proof.
  intros t os us Ht H. assert (E : forall l, filter both l = filter (foreign (other_kana t)) (filter (foreign t) l)).
  { intro l. rewrite filter_filter. apply filter_ext. intro g. unfold both. destruct t; [reflexivity|apply andb_comm|exfalso; apply Ht; reflexivity]. }
  rewrite !E, H. reflexivity.
Qed.
Lemma kana_both : forall tg fl ltr t us, kana_type t -> Forall glyph_ok us ->
  exists os, convertFrom tg fl ltr t (gtext us) = Val (gtext os) /\ Forall glyph_ok os /\ filter both os = filter both us.
Proof.
  intros tg fl ltr t us Ht Hok. destruct (ctEqb t tg) eqn:Q.
  - exists us. unfold convertFrom. rewrite Q. auto.
  - destruct (ctEqb tg Romaji) eqn:R.
    + destruct tg; try discriminate. destruct (kana_to_romaji fl ltr t us Ht Hok) as [os [A [B [C _]]]].
      exists os. split; [exact A|]. split; [exact B|]. apply (to_both t); assumption.
    + assert (tg = other_kana t) as -> by (destruct t, tg; try reflexivity; try discriminate; exfalso; apply Ht; reflexivity).
      exists (shift_text t us). split; [apply kana_to_kana; assumption|]. split; [exact (walk_ok t Ht (List.length us) us (le_n _) Hok)|].
      exact (walk_both t (List.length us) us Ht (le_n _)).
Qed.
Lemma convert_both : forall tg fl ltr us, Forall glyph_ok us ->
  exists os, convert tg fl ltr (gtext us) = Val (gtext os) /\ Forall glyph_ok os /\ filter both os = filter both us.
Proof.
  intros tg fl ltr us Hok. unfold convert.
  assert (A : exists os, (if ctEqb tg Hiragana then Val (gtext us) else convertFrom tg fl ltr Hiragana (gtext us)) = Val (gtext os)
     /\ Forall glyph_ok os /\ filter both os = filter both us).
  { destruct (ctEqb tg Hiragana); [eauto|]. apply kana_both; [discriminate|exact Hok]. }
  destruct A as [o1 [-> [K1 F1]]]. cbn [obind].
  assert (B : exists os, (if ctEqb tg Katakana then Val (gtext o1) else convertFrom tg fl ltr Katakana (gtext o1)) = Val (gtext os)
     /\ Forall glyph_ok os /\ filter both os = filter both o1).
  { destruct (ctEqb tg Katakana); [eauto|]. apply kana_both; [discriminate|exact K1]. }
  destruct B as [o2 [-> [K2 F2]]]. cbn [obind].
  destruct (ctEqb tg Romaji) eqn:R; [exists o2; split; [reflexivity|]; split; [exact K2|congruence]|].
  assert (T : kana_type tg) by (intro; subst; discriminate).
  destruct (romaji_foreign tg fl T ltr o2 K2) as [o3 [-> [K3 F3]]]. exists o3. split; [reflexivity|]. split; [exact K3|].
  apply (to_both tg) in F3; [congruence|exact T].
Qed.

(** ** Letter case *)
Lemma lower_kana : forall t a x s, kana_type t -> broken t (lower_glyph a) (lower_glyph x) (lower_glyph s) = broken t a x s.
Proof.
  intros t a x s Ht.
  assert (L : forall c, is_kana t (lower_code c) = is_kana t c /\ (lower_code c <> c -> is_kana t c = false)).
  { intro c. unfold lower_code. destruct ((0x41 <=? c) && (c <=? 0x5A)) eqn:E; [|split; [reflexivity|congruence]].
    unfold is_kana. split; [|intros _]; lia. }
  assert (Z : forall c, lower_code c <> c -> is_kana t (lower_code c) = false) by (intros c Hc; destruct (L c) as [-> H]; apply H; exact Hc).
  assert (NT : forall c, is_kana t c = false -> is_tsu t c = false) by (intros c Hc; destruct (is_tsu t c) eqn:Q; [apply tsu_is_kana in Q; congruence|reflexivity]).
  assert (NP : forall c, is_kana t c = false -> is_plain t c = false) by (intros c Hc; destruct (is_plain t c) eqn:Q; [apply plain_is_kana in Q; congruence|reflexivity]).
  assert (NS : forall c, is_kana t c = false -> is_small t c = false) by (intros c Hc; destruct (is_small t c) eqn:Q; [apply small_is_kana in Q; congruence|reflexivity]).
  destruct a as [a|], x as [x|], s as [s|]; try reflexivity. cbn [lower_glyph broken].
  destruct (N.eq_dec (lower_code a) a) as [->|Ha]; [|rewrite !NT by (try apply Z; try apply L; exact Ha); reflexivity].
  destruct (N.eq_dec (lower_code x) x) as [->|Hx]; [|rewrite !NP by (try apply Z; try apply L; exact Hx); rewrite !andb_false_r; reflexivity].
  destruct (N.eq_dec (lower_code s) s) as [->|Hs]; [reflexivity|].
  rewrite !NS by (try apply Z; try apply L; exact Hs). rewrite !andb_false_r. reflexivity.
Qed.
Lemma lower_shift : forall t g, kana_type t -> shift_kana t (lower_glyph g) = lower_glyph (shift_kana t g).
Proof.
  intros t [c|] Ht; [|reflexivity]. cbn [lower_glyph shift_kana].
  destruct ((0x41 <=? c) && (c <=? 0x5A)) eqn:E.
  - unfold lower_code at 1 2 3. rewrite E. replace (is_kana t (c + 0x20) || is_repeat t (c + 0x20)) with false by (unfold is_kana, is_repeat; lia).
    replace (is_kana t c || is_repeat t c) with false by (unfold is_kana, is_repeat; lia). cbn [lower_glyph]. unfold lower_code. rewrite E. reflexivity.
  - assert (lower_code c = c) as -> by (unfold lower_code; rewrite E; reflexivity).
    destruct (is_kana t c || is_repeat t c) eqn:K; cbn [lower_glyph].
    + unfold lower_code. replace (c - off t + off (other_kana t) <=? 0x5A) with false
        by (unfold is_kana, is_repeat in K; destruct t; [| |exfalso; apply Ht; reflexivity]; cbn [other_kana off] in *; lia).
      rewrite andb_false_r. reflexivity.
    + unfold lower_code. rewrite E. reflexivity.
Qed.
Lemma is_long_lower : forall g, is_long (lower_glyph g) = is_long g.
Proof. intros [c|]; [|reflexivity]. cbn [lower_glyph is_long]. unfold lower_code. destruct ((0x41 <=? c) && (c <=? 0x5A)) eqn:E; lia. Qed.
Lemma walk_lower : forall t n us, kana_type t -> (List.length us <= n)%nat ->
  shift_text t (map lower_glyph us) = map lower_glyph (shift_text t us).
Proof.
  intros t n. unfold shift_text. induction n as [|n IH]; intros us Ht Hn; [destruct us; [reflexivity|cbn in Hn; lia]|].
  destruct us as [|a us]; [reflexivity|]. cbn [List.length] in Hn.
  destruct us as [|x [|s r]].
  - cbn [map walk]. rewrite lower_shift by exact Ht. reflexivity.
  - cbn [map walk]. rewrite !lower_shift by exact Ht. reflexivity.
  - cbn [map]. rewrite !walk_three, lower_kana by exact Ht. destruct (broken t a x s) eqn:B.
    + cbn [map]. rewrite lower_shift by exact Ht. do 3 f_equal. destruct r as [|l r']; [reflexivity|].
      cbn [map]. rewrite is_long_lower. cbn [List.length] in Hn. destruct (is_long l); [apply IH; [exact Ht|lia]|].
      apply (IH (l :: r')); [exact Ht|cbn [List.length]; lia].
    + change (map lower_glyph (shift_kana t a :: walk t (shift_kana t) (x :: s :: r)))
        with (lower_glyph (shift_kana t a) :: map lower_glyph (walk t (shift_kana t) (x :: s :: r))).
      rewrite lower_shift by exact Ht. f_equal. apply (IH (x :: s :: r)); [exact Ht|cbn [List.length] in *; lia].
Qed.
Lemma ascii_cons : forall a l, ascii_codes (a :: l) = ascii_codes [a] ++ ascii_codes l.
Proof. intros a l. unfold ascii_codes. cbn [flat_map]. rewrite app_nil_r. reflexivity. Qed.
Lemma ascii_more : forall a l l', ascii_codes l = ascii_codes l' -> ascii_codes (a :: l) = ascii_codes (a :: l').
Proof. intros a l l' H. rewrite (ascii_cons a l), (ascii_cons a l'), H. reflexivity. Qed.
Lemma walk_ascii : forall t n us, kana_type t -> (List.length us <= n)%nat -> ascii_codes (shift_text t us) = ascii_codes us.
Proof.
  assert (O : forall t a, kana_type t -> ascii_codes [shift_kana t a] = ascii_codes [a]).
  { intros t [c|] Ht; [|reflexivity]. cbn [shift_kana]. destruct (is_kana t c || is_repeat t c) eqn:K; [|reflexivity].
    unfold ascii_codes. cbn [flat_map].
    replace (c <? 0x80) with false by (unfold is_kana, is_repeat in K; lia).
    replace (c - off t + off (other_kana t) <? 0x80) with false
        by (unfold is_kana, is_repeat in K; destruct t; [| |exfalso; apply Ht; reflexivity]; cbn [other_kana off] in *; lia). reflexivity. }
  intros t n. unfold shift_text. induction n as [|n IH]; intros us Ht Hn; [destruct us; [reflexivity|cbn in Hn; lia]|].
  destruct us as [|a us]; [reflexivity|]. cbn [List.length] in Hn.
  assert (D : ascii_codes (shift_kana t a :: walk t (shift_kana t) us) = ascii_codes (a :: us)).
  { rewrite ascii_cons, O by exact Ht. rewrite IH by (try exact Ht; lia). symmetry. apply ascii_cons. }
  destruct us as [|x [|s r]]; [exact D|exact D|]. rewrite walk_three. destruct (broken t a x s) eqn:B; [|exact D].
  rewrite ascii_cons, O by exact Ht. rewrite (ascii_cons a (x :: s :: r)). f_equal.
  apply ascii_more. apply ascii_more. destruct r as [|l r']; [reflexivity|]. cbn [List.length] in Hn.
  destruct (is_long l) eqn:L.
  - rewrite IH by (try exact Ht; lia). rewrite (ascii_cons l). destruct l as [c|]; [|discriminate]. cbn [is_long] in L.
    unfold ascii_codes at 2. cbn [flat_map]. replace (c <? 0x80) with false by lia. reflexivity.
  - apply IH; [exact Ht|cbn [List.length]; lia].
Qed.
Lemma convert_case : forall t fl l1 l2 us, kana_type t -> Forall glyph_ok us -> quiet (ascii_codes us) = true ->
  exists a b, convert t fl l1 (gtext us) = Val a /\ convert t fl l2 (toLower (gtext us)) = Val b /\ toLower a = toLower b.
Proof.
  intros t fl l1 l2 us Ht Hok Q. set (o := other_kana t).
  assert (To : kana_type o) by (subst o; destruct t; discriminate).
  assert (Oo : other_kana o = t) by (subst o; destruct t; try reflexivity; exfalso; apply Ht; reflexivity).
  assert (C : forall l s, convert t fl l s = obind (convertFrom t fl l o s) (fun a => convertFrom t fl l Romaji a)).
  { intros l s. unfold convert. subst o. destruct t; [| |exfalso; apply Ht; reflexivity]; cbn [ctEqb other_kana obind]; [reflexivity|].
    destruct (convertFrom Katakana fl l Hiragana s); reflexivity. }
  assert (Hl : Forall glyph_ok (map lower_glyph us)) by (apply Forall_map; revert Hok; apply Forall_impl; apply lower_ok).
  rewrite <- lower_gtext by exact Hok. rewrite !C.
  pose proof (kana_to_kana fl l1 o us To Hok) as K1. pose proof (kana_to_kana fl l2 o _ To Hl) as K2. rewrite Oo in K1, K2. rewrite K1, K2. cbn [obind].
  rewrite (walk_lower o (List.length us) us To (le_n _)).
  assert (Hs : Forall glyph_ok (shift_text o us)) by exact (walk_ok o To (List.length us) us (le_n _) Hok).
  rewrite lower_gtext by exact Hs. apply romaji_case; [exact Ht|exact Hs|].
  rewrite (walk_ascii o (List.length us) us To (le_n _)). exact Q.
Qed.

(** ** The order of evaluation, kana results *)
Lemma convert_order : forall t fl us, kana_type t -> Forall glyph_ok us ->
  convert t fl true (gtext us) = convert t fl false (gtext us).
Proof.
  intros t fl us Ht Hok.
  pose proof (kana_to_kana fl true (other_kana t) us) as K1. pose proof (kana_to_kana fl false (other_kana t) us) as K2.
  destruct t; [| |exfalso; apply Ht; reflexivity]; cbn [other_kana] in *; unfold convert; cbn [ctEqb obind];
    rewrite K1, K2 by (try discriminate; exact Hok); reflexivity.
Qed.
