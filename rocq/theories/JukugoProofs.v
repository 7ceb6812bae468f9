(** Lemmas about Jukugo. *)
From Verif Require Import BaseFacts MapProofs ColumnFileProofs Utf8Proofs Utf8Lemmas BlockProofs Utf8CharSpec Utf8CharProofs Utf8CharLemmas
  ListProofs JukugoModel JukugoSpec LoadAttr.
Open Scope N_scope.
Arguments N.add : simpl never.
Arguments N.sub : simpl never.
Arguments N.mul : simpl never.

Lemma is_kanji_iff : forall c, is_kanji c = true <-> kanji c.
Proof.
  intro c. unfold is_kanji, kanji_ranges, in_range, kanji, common_kanji, rare_kanji, within. cbn [existsb fst snd].
  rewrite !orb_true_iff, !andb_true_iff, !N.leb_le. split.
  - intros H. decompose [or] H; try discriminate; tauto.
  - tauto.
Qed.
Lemma is_hiragana_iff : forall c, is_hiragana c = true <-> hiragana c.
Proof.
  intro c. unfold is_hiragana, in_range, hiragana, within. cbn [fst snd]. rewrite andb_true_iff, !N.leb_le. tauto.
Qed.

(** ** Characters of an item *)
Lemma decide_b : forall (f : bytes -> out bool) P s, (exists b, f s = Val b /\ (b = true <-> P)) -> forall q : bool, (q = true <-> P) -> f s = Val q.
Proof. intros f P s [b [E H]] q Hq. rewrite E. f_equal. destruct b, q; try reflexivity; [symmetry|]; intuition congruence. Qed.

Lemma one_single : forall P c, one_of P [c] <-> P c.
Proof.
  intros P c. split.
  - intros [x [H [E|[d [_ E]]]]]; inversion E; subst; exact H.
  - intro H. exists c. auto.
Qed.
Lemma one_pair : forall P c v, non_spacing v -> (one_of P [c; v] <-> P c).
Proof.
  intros P c v Hv. split.
  - intros [x [H [E|[d [_ E]]]]]; inversion E; subst; exact H.
  - intro H. exists c. split; [exact H|]. right. exists v. auto.
Qed.
Lemma selector_ns : forall v, is_selector v = true -> non_spacing v.
Proof. intros v H. unfold is_selector in H. left. unfold variation_selector, within. lia. Qed.

Definition item_ok (i : Utf8CharSpec.item) : Prop :=
  match i with
  | Utf8CharSpec.Ascii _ | Stray _ | Malformed _ => True
  | Plain c | DroppedMark c _ => scalar c /\ 0x80 <= c
  | WithSelector c v => scalar c /\ 0x80 <= c /\ is_selector v = true
  | Folded c m d => 0x3000 <= d < 0x3100 /\ d <> 0x30FC
  end.

Lemma folded_kana : forall c m d, folded c m = Some d -> 0x3000 <= d < 0x3100 /\ d <> 0x30FC.
Proof.
  intros c m d H. unfold folded in H. destruct (supported c); [|discriminate]. unfold composition in H.
  assert (M : forall l P, mem c l = true -> forallb P l = true -> P c = true).
  { intros l P Hm Hf. unfold mem in Hm. apply existsb_exists in Hm. destruct Hm as [x [Hx E]]. apply N.eqb_eq in E. subst x.
    rewrite forallb_forall in Hf. apply Hf. exact Hx. }
  pose (ok := fun k c => (0x3000 <=? c + k) && (c + k <? 0x3100) && negb (c + k =? 0x30FC)).
  assert (K : forall k, ok k c = true -> 0x3000 <= c + k < 0x3100 /\ c + k <> 0x30FC). { intros k Hk. unfold ok in Hk. lia. }
  destruct (m =? 0x3099).
  - destruct (mem c (plain_voiced ++ _)) eqn:E1; [injection H as <-; apply K; exact (M _ (ok 1) E1 eq_refl)|].
    destruct (mem c [0x3046; _]) eqn:E2; [injection H as <-; apply K; exact (M _ (ok 0x4E) E2 eq_refl)|].
    destruct (mem c [0x309D; _]) eqn:E3; [injection H as <-; apply K; exact (M _ (ok 1) E3 eq_refl)|].
    destruct (mem c [0x30EF; _; _; _]) eqn:E4; [injection H as <-; apply K; exact (M _ (ok 8) E4 eq_refl)|discriminate].
  - destruct (m =? 0x309A); [|discriminate]. destruct (mem c (plain_semi_voiced ++ _)) eqn:E1; [|discriminate].
    injection H as <-. apply K. exact (M _ (ok 2) E1 eq_refl).
Qed.
Lemma items_ok' : forall n es, (List.length es <= n)%nat -> (forall c, In (Good c) es -> scalar c) -> Forall item_ok (Utf8CharSpec.items es).
Proof.
  induction n as [|n IH]; intros es Hl Hs.
  - destruct es; [constructor|cbn in Hl; lia].
  - destruct es as [|[c|b] r]; [constructor| |]; cbn [List.length] in Hl; cbn [Utf8CharSpec.items].
    2:{ constructor; [exact I|]. apply IH; [lia|]. intros d Hd. apply Hs. right. exact Hd. }
    assert (Hr : Forall item_ok (Utf8CharSpec.items r)). { apply IH; [lia|]. intros d Hd. apply Hs. right. exact Hd. }
    assert (Hsc : scalar c) by (apply Hs; left; reflexivity).
    destruct (c <? 128) eqn:E1; [constructor; [exact I|exact Hr]|].
    assert (Hc : 0x80 <= c) by lia.
    destruct (is_selector c || is_mark c); [constructor; [exact I|exact Hr]|].
    destruct r as [|[d|b] r]; [constructor; [split; assumption|exact Hr]| |constructor; [split; assumption|exact Hr]].
    cbn [List.length] in Hl.
    assert (Hr2 : Forall item_ok (Utf8CharSpec.items r)). { apply IH; [lia|]. intros e He. apply Hs. right. right. exact He. }
    destruct (is_selector d) eqn:E2.
    { constructor; [|exact Hr2]. cbn. auto. }
    destruct (is_mark d); [|constructor; [split; assumption|exact Hr]].
    constructor; [|exact Hr2]. destruct (folded c d) as [x|] eqn:F; [exact (folded_kana _ _ _ F)|split; assumption].
Qed.
Lemma items_fine : forall s es, parse s es -> Forall item_ok (Utf8CharSpec.items es).
Proof. intros s es H. exact (items_ok' (List.length es) es (le_n _) (parse_scalars s es H)). Qed.

Lemma chars1 : forall c, scalar c -> 0x80 <= c -> chars [c].
Proof. intros c H1 H2. constructor; [split; [exact H1|lia]|constructor]. Qed.
Lemma chars2 : forall c v, scalar c -> 0x80 <= c -> is_selector v = true -> chars [c; v].
Proof.
  intros c v H1 H2 H3. constructor; [split; [exact H1|lia]|]. constructor; [|constructor].
  unfold is_selector in H3. split; [unfold scalar|]; lia.
Qed.
Lemma text1 : forall c, text [c] = enc c. Proof. intro c. rewrite text_cons, text_nil. apply app_nil_r. Qed.
Lemma text2 : forall c v, text [c; v] = enc c ++ enc v. Proof. intros c v. rewrite text_cons, text1. reflexivity. Qed.

Lemma kanji_one : forall c, scalar c -> 0x80 <= c -> isKanji (enc c) true = Val (is_kanji c).
Proof.
  intros c H1 H2. rewrite <- text1. eapply decide_b with (f := fun s => isKanji s true).
  - exact (test_one _ _ [c] t_kanji (chars1 c H1 H2)).
  - rewrite one_single. apply is_kanji_iff.
Qed.
Lemma kanji_two : forall c v, scalar c -> 0x80 <= c -> is_selector v = true -> isKanji (enc c ++ enc v) true = Val (is_kanji c).
Proof.
  intros c v H1 H2 H3. rewrite <- text2. eapply decide_b with (f := fun s => isKanji s true).
  - exact (test_one _ _ [c; v] t_kanji (chars2 c v H1 H2 H3)).
  - rewrite one_pair by (apply selector_ns; exact H3). apply is_kanji_iff.
Qed.
Lemma hira_one : forall c, scalar c -> 0x80 <= c -> isHiragana (enc c) true = Val (is_hiragana c).
Proof.
  intros c H1 H2. rewrite <- text1. eapply decide_b with (f := fun s => isHiragana s true).
  - exact (test_one _ _ [c] t_hiragana (chars1 c H1 H2)).
  - rewrite one_single. apply is_hiragana_iff.
Qed.
Lemma hira_two : forall c v, scalar c -> 0x80 <= c -> is_selector v = true -> isHiragana (enc c ++ enc v) true = Val (is_hiragana c).
Proof.
  intros c v H1 H2 H3. rewrite <- text2. eapply decide_b with (f := fun s => isHiragana s true).
  - exact (test_one _ _ [c; v] t_hiragana (chars2 c v H1 H2 H3)).
  - rewrite one_pair by (apply selector_ns; exact H3). apply is_hiragana_iff.
Qed.

Lemma only_kanji : forall its, Forall item_ok its -> onlyKanji (yields true its) = Val (flat_map kanji_of its).
Proof.
  intros its H. induction H as [|i its Hi _ IH]; [reflexivity|].
  unfold yields in *. cbn [flat_map]. destruct i; cbn [shown]; cbn [app kanji_of]; try exact IH; cbn [onlyKanji].
  - destruct Hi as [A B]. rewrite kanji_one by assumption. cbn [obind]. rewrite IH. cbn [obind]. destruct (is_kanji c); reflexivity.
  - destruct Hi as (A & B & C). rewrite kanji_two by assumption. cbn [obind]. rewrite IH. cbn [obind]. destruct (is_kanji c); reflexivity.
  - cbn in Hi. rewrite kanji_one by (unfold scalar; lia). cbn [obind]. rewrite IH. cbn [obind].
    replace (is_kanji d) with false; [reflexivity|]. symmetry. apply not_true_iff_false. rewrite is_kanji_iff.
    unfold kanji, common_kanji, rare_kanji, within. lia.
  - destruct Hi as [A B]. rewrite kanji_one by assumption. cbn [obind]. rewrite IH. cbn [obind]. destruct (is_kanji c); reflexivity.
Qed.
Lemma kanjiOf_spec : forall name ks, bytes_ok name -> word_kanji name ks -> kanjiOf name = Val ks.
Proof.
  intros name ks Hok [es [Hp ->]]. unfold kanjiOf. destruct (all_chars name es true Hok Hp) as [u [E _]]. rewrite E.
  cbn [obind]. apply only_kanji. exact (items_fine _ _ Hp).
Qed.
Lemma word_exists : forall name, bytes_ok name -> exists ks, word_kanji name ks.
Proof.
  intros name Hok. destruct (parse_exists (upto_nul name)) as [es He]; [apply upto_nul_ok; exact Hok|apply upto_nul_no_nul|].
  eexists. exists es. split; [exact He|reflexivity].
Qed.
Lemma word_unique : forall name a b, word_kanji name a -> word_kanji name b -> a = b.
Proof. intros name a b [e1 [H1 ->]] [e2 [H2 ->]]. rewrite (parse_unique _ _ H1 _ H2). reflexivity. Qed.

Lemma enc_eq : forall c d, scalar c -> scalar d -> enc c = enc d -> c = d.
Proof. intros c d H1 H2 H. apply (enc_inj_app c d [] []); try assumption. rewrite H. reflexivity. Qed.
Lemma beq_prolong : forall c, scalar c -> beq (enc c) ProlongMark = (c =? 0x30FC).
Proof.
  intros c H. change ProlongMark with (enc 0x30FC). destruct (c =? 0x30FC) eqn:E.
  - apply N.eqb_eq in E. subst c. apply beq_refl.
  - apply beq_neq. intro X. apply enc_eq in X; [lia|exact H|unfold scalar; lia].
Qed.
Lemma beq_prolong2 : forall c v, scalar c -> beq (enc c ++ enc v) ProlongMark = false.
Proof.
  intros c v H. apply beq_neq. change ProlongMark with (enc 0x30FC). intro X.
  rewrite <- (app_nil_r (enc 0x30FC)) in X. apply enc_inj_app in X; [|exact H|unfold scalar; lia].
  destruct X as [_ X]. destruct (enc_nonnil v) as [b [q E]]. rewrite E in X. discriminate.
Qed.
Lemma check_reading : forall its, Forall item_ok its ->
  checkReading (yields true its) = if forallb readable its then Val tt else Throw DomainError.
Proof.
  intros its H. induction H as [|i its Hi _ IH]; [reflexivity|].
  unfold yields in *. cbn [flat_map forallb]. destruct i; cbn [shown]; cbn [app readable andb]; try exact IH; cbn [checkReading].
  - destruct Hi as [A B]. rewrite hira_one by assumption. cbn [obind]. rewrite beq_prolong by exact A. rewrite <- negb_orb.
    destruct (is_hiragana c || (c =? 12540)); cbn [negb andb]; [exact IH|reflexivity].
  - destruct Hi as (A & B & C). rewrite hira_two by assumption. cbn [obind]. rewrite beq_prolong2 by exact A. rewrite <- negb_orb, orb_false_r.
    destruct (is_hiragana c); cbn [negb andb]; [exact IH|reflexivity].
  - cbn in Hi. assert (A : scalar d) by (unfold scalar; lia). rewrite hira_one by (auto; lia). cbn [obind]. rewrite beq_prolong by exact A.
    replace (d =? 12540) with false by lia. rewrite andb_true_r.
    destruct (is_hiragana d); cbn [negb andb]; [exact IH|reflexivity].
  - destruct Hi as [A B]. rewrite hira_one by assumption. cbn [obind]. rewrite beq_prolong by exact A. rewrite <- negb_orb.
    destruct (is_hiragana c || (c =? 12540)); cbn [negb andb]; [exact IH|reflexivity].
Qed.

Lemma reading_decides : forall r, bytes_ok r -> exists cs u, allChars r true = Val (cs, u)
  /\ (good_reading r /\ checkReading cs = Val tt \/ ~ good_reading r /\ checkReading cs = Throw DomainError).
Proof.
  intros r Hok. destruct (parse_exists (upto_nul r)) as [es He]; [apply upto_nul_ok; exact Hok|apply upto_nul_no_nul|].
  destruct (all_chars r es true Hok He) as [u [E _]]. exists (yields true (Utf8CharSpec.items es)), u. split; [exact E|].
  rewrite check_reading by exact (items_fine _ _ He). destruct (forallb readable (Utf8CharSpec.items es)) eqn:F.
  - left. split; [|reflexivity]. exists es. split; [exact He|]. apply Forall_forall. rewrite forallb_forall in F. exact F.
  - right. split; [|reflexivity]. intros [es' [H' Hf]]. rewrite (parse_unique _ _ H' _ He) in Hf.
    apply not_true_iff_false in F. apply F. apply forallb_forall. rewrite Forall_forall in Hf. exact Hf.
Qed.

Lemma new_jukugo : forall name reading g, bytes_ok name -> bytes_ok reading ->
  let j := MkJukugo name reading g in
  good_word j /\ newJukugo name reading g = Val j
  \/ ~ good_word j /\ newJukugo name reading g = Throw DomainError.
Proof.
  intros name reading g H1 H2 j. destruct (word_exists name H1) as [ks Hk]. unfold newJukugo. rewrite (kanjiOf_spec _ _ H1 Hk). cbn [obind].
  destruct (reading_decides reading H2) as (cs & u & E & D). rewrite E. cbn [obind].
  destruct (len ks =? 0) eqn:E0; [|destruct (len ks <? 2) eqn:E1].
  - right. split; [|reflexivity]. intros [[ks' [Hk' L]] _]. cbn [jName j] in Hk'. rewrite (word_unique _ _ _ Hk' Hk) in L. lia.
  - right. split; [|reflexivity]. intros [[ks' [Hk' L]] _]. cbn [jName j] in Hk'. rewrite (word_unique _ _ _ Hk' Hk) in L. lia.
  - destruct D as [[G C]|[G C]]; rewrite C; cbn [obind].
    + left. split; [|reflexivity]. split; [|exact G]. exists ks. split; [exact Hk|lia].
    + right. split; [|reflexivity]. intros [_ X]. exact (G X).
Qed.
