(** Lemmas about iterating over characters. *)
From Verif Require Import BaseFacts Utf8CharModel Utf8CharSpec Utf8Proofs Utf8Validate Utf8Lemmas BlockProofs KanaProofs.

Arguments N.ltb : simpl never.
Arguments N.leb : simpl never.
Arguments N.eqb : simpl never.
Arguments N.add : simpl never.
Arguments N.div : simpl never.
Arguments N.modulo : simpl never.
Arguments N.land : simpl never.

(** ** Reading elements *)

Lemma enc_inj_app : forall c d p q, scalar c -> scalar d -> enc c ++ p = enc d ++ q -> c = d /\ p = q.
Proof.
  intros c d p q Hc Hd E.
  assert (c = d).
  { pose proof (decode_enc c p Hc) as A. pose proof (decode_enc d q Hd) as B. rewrite E in A. congruence. }
  subst. split; [reflexivity|]. exact (app_inv_head _ _ _ E).
Qed.

Definition starts_char_dec (s : bytes) : Prop := exists c r, scalar c /\ s = enc c ++ r.

Lemma validate_cases : forall s, bytes_ok s -> s <> [] -> no_nul s ->
  (exists c r, scalar c /\ s = enc c ++ r /\ c < 0x80)
  \/ (exists c r, scalar c /\ s = enc c ++ r /\ 0x80 <= c)
  \/ ~ starts_char_dec s.
Proof.
  intros s Hok Hne Hnn.
  assert (Hu : upto_nul s = s) by (apply upto_nul_id; exact Hnn).
  destruct s as [|b r]; [congruence|].
  destruct (N.lt_ge_cases b 0x80) as [Hb|Hb].
  { left. exists b, r. split; [unfold scalar; lia|]. split; [|exact Hb].
    unfold enc. replace (b <? 128) with true by lia. reflexivity. }
  right. destruct (first_error b r false) as [e|] eqn:F.
  - right. intros [c [q [Hc Eq]]].
    assert (A : validateMBUtf8 (b :: r) false = Val MBValid).
    { apply valid_mb; [exact Hok|]. rewrite Hu. exists (enc c), q. split; [exact Eq|].
      split; [apply enc_char; exact Hc|]. unfold multi_byte.
      destruct (N.lt_ge_cases c 0x80) as [H|H].
      - unfold enc in Eq. replace (c <? 128) with true in Eq by lia. cbn [app] in Eq. injection Eq as <- <-. lia.
      - pose proof (enc_len_mb c H). unfold len in *. lia. }
    unfold validateMBUtf8 in A. rewrite validate_spec in A by exact Hok. cbn [obind] in A.
    rewrite Hu in A. replace (b <? 128) with false in A by lia. rewrite F in A. discriminate.
  - left. assert (A : validateMBUtf8 (b :: r) false = Val MBValid).
    { unfold validateMBUtf8. rewrite validate_spec by exact Hok. cbn [obind].
      rewrite Hu. replace (b <? 128) with false by lia. rewrite F. reflexivity. }
    apply valid_mb in A; [|exact Hok]. rewrite Hu in A. destruct A as [c [q [Eq [Hc Hm]]]].
    destruct (char_enc c Hc) as [x [Hx ->]]. exists x, q. split; [exact Hx|]. split; [exact Eq|].
    destruct (N.lt_ge_cases x 0x80) as [H|H]; [|exact H].
    unfold multi_byte, enc in Hm. replace (x <? 128) with true in Hm by lia. cbn in Hm. lia.
Qed.

Lemma parse_exists_n : forall n s, (List.length s <= n)%nat -> bytes_ok s -> no_nul s -> exists es, parse s es.
Proof.
  induction n as [|n IH]; intros s Hl Hok Hnn.
  - destruct s; [|cbn in Hl; lia]. exists []. constructor.
  - destruct s as [|b r]; [exists []; constructor|].
    assert (Hg : forall c q, scalar c -> b :: r = enc c ++ q -> exists es, parse (b :: r) es).
    { intros c q Hc E. rewrite E in *. destruct (enc_nonnil c) as [x [t Ex]].
      destruct (IH q) as [es Hes].
      - rewrite Ex in Hl. cbn [app List.length] in Hl. rewrite app_length in Hl. lia.
      - apply bytes_ok_app in Hok. tauto.
      - apply no_nul_app in Hnn. tauto.
      - exists (Good c :: es). constructor; assumption. }
    destruct (validate_cases (b :: r) Hok ltac:(discriminate) Hnn) as [[c [q [Hc [E _]]]]|[[c [q [Hc [E _]]]]|Hn]].
    + exact (Hg c q Hc E).
    + exact (Hg c q Hc E).
    + destruct (IH r) as [es Hes].
      * cbn [List.length] in Hl. lia.
      * apply Forall_cons_iff in Hok. tauto.
      * apply Forall_cons_iff in Hnn. tauto.
      * exists (Bad b :: es). constructor; assumption.
Qed.
Lemma parse_exists : forall s, bytes_ok s -> no_nul s -> exists es, parse s es.
Proof. intros s. apply (parse_exists_n (List.length s)). lia. Qed.

Lemma parse_unique : forall s es, parse s es -> forall es', parse s es' -> es = es'.
Proof.
  intros s es H. induction H as [|c s es Hc H IH|b s es Hn H IH]; intros es' H'.
  - inversion H' as [|c s es Hc H E|]; [reflexivity|]. exfalso.
    destruct (enc_nonnil c) as [x [t Ex]]. rewrite Ex in E. discriminate.
  - inversion H' as [E|d q es2 Hd Hq E|b q es2 Hn Hq E]; subst.
    + destruct (enc_nonnil c) as [x [t Ex]]. rewrite Ex in *. discriminate.
    + apply enc_inj_app in E; [|assumption|assumption]. destruct E as [-> ->]. rewrite (IH _ Hq). reflexivity.
    + exfalso. apply Hn. exists c, s. split; [exact Hc|exact E].
  - inversion H' as [E|d q es2 Hd Hq E|b' q es2 Hn' Hq E]; subst.
    + exfalso. apply Hn. exists d, q. split; [exact Hd|symmetry; exact E].
    + rewrite (IH _ Hq). reflexivity.
Qed.

Lemma parse_text : forall cs, Forall scalar cs -> parse (text cs) (map Good cs).
Proof.
  induction cs as [|c cs IH]; intro H; [constructor|]. apply Forall_cons_iff in H. destruct H as [Hc H].
  cbn [map]. rewrite text_cons. constructor; [exact Hc|exact (IH H)].
Qed.

(** ** The tail of the buffer after the visible part *)
Definition stop (z : bytes) : Prop := match z with [] => True | b :: _ => b = 0 end.
Lemma upto_nul_stop : forall a z, no_nul a -> stop z -> upto_nul (a ++ z) = a.
Proof.
  intros a z Ha Hz. rewrite upto_nul_app by exact Ha. destruct z as [|b z]; [apply app_nil_r|].
  cbn in Hz. subst b. cbn [upto_nul]. change (0 =? 0) with true. apply app_nil_r.
Qed.
Lemma split_stop : forall s, exists z, s = upto_nul s ++ z /\ stop z.
Proof.
  induction s as [|b s [z [E Hz]]].
  - exists []. split; [reflexivity|exact I].
  - cbn [upto_nul]. destruct (b =? 0) eqn:Eb.
    + exists (b :: s). split; [reflexivity|]. apply N.eqb_eq in Eb. exact Eb.
    + exists z. split; [|exact Hz]. cbn [app]. apply f_equal2; [reflexivity|exact E].
Qed.

Lemma v_ascii : forall c a z, c < 0x80 -> c <> 0 -> bytes_ok (enc c ++ a ++ z) -> no_nul a -> stop z ->
  validateMBUtf8 (enc c ++ a ++ z) false = Val NotMultiByte.
Proof.
  intros c a z Hc H0 Hok Ha Hz. apply not_mb; [exact Hok|].
  rewrite app_assoc, upto_nul_stop; [|apply no_nul_app; split; [apply enc_no_nul; exact H0|exact Ha]|exact Hz].
  unfold enc. replace (c <? 128) with true by lia. cbn [app]. lia.
Qed.
Lemma v_mb : forall c a z, scalar c -> 0x80 <= c -> bytes_ok (enc c ++ a ++ z) -> no_nul a -> stop z ->
  validateMBUtf8 (enc c ++ a ++ z) false = Val MBValid.
Proof.
  intros c a z Hs Hc Hok Ha Hz. apply valid_mb; [exact Hok|].
  rewrite app_assoc, upto_nul_stop; [|apply no_nul_app; split; [apply enc_no_nul; lia|exact Ha]|exact Hz].
  exists (enc c), a. split; [reflexivity|]. split; [apply enc_char; exact Hs|].
  unfold multi_byte. pose proof (enc_len_mb c Hc). unfold len in *. lia.
Qed.
Lemma validate_total : forall s one, bytes_ok s -> exists v, validateMBUtf8 s one = Val v.
Proof.
  intros s one Hok. unfold validateMBUtf8. rewrite validate_spec by exact Hok. cbn [obind].
  match goal with |- context[let (r, _) := ?p in _] => destruct p as [v e] end.
  exists v. reflexivity.
Qed.
Lemma v_bad : forall b a z, ~ starts_char_dec (b :: a) -> b <> 0 -> bytes_ok (b :: a ++ z) -> no_nul a -> stop z ->
  validateMBUtf8 (b :: a ++ z) false = Val NotValid.
Proof.
  intros b a z Hn H0 Hok Ha Hz.
  assert (Hu : upto_nul (b :: a ++ z) = b :: a).
  { change (b :: a ++ z) with ((b :: a) ++ z). apply upto_nul_stop; [|exact Hz]. constructor; [exact H0|exact Ha]. }
  destruct (validate_total (b :: a ++ z) false Hok) as [v E]. rewrite E.
  destruct v; [| |reflexivity]; exfalso; apply Hn.
    + apply valid_mb in E; [|exact Hok]. rewrite Hu in E. destruct E as [c [q [Eq [Hc _]]]].
      destruct (char_enc c Hc) as [x [Hx ->]]. exists x, q. split; assumption.
    + apply not_mb in E; [|exact Hok]. rewrite Hu in E.
      exists b, a. split; [unfold scalar; lia|]. unfold enc. replace (b <? 128) with true by lia. reflexivity.
Qed.
Lemma v_end : forall z, bytes_ok z -> stop z -> validateMBUtf8 z false = Val NotMultiByte.
Proof.
  intros z Hok Hz. apply not_mb; [exact Hok|]. destruct z as [|b z]; [exact I|].
  cbn in Hz. subst b. cbn [upto_nul]. change (0 =? 0) with true. exact I.
Qed.

(** ** Helpers of the code on whole characters *)
Lemma enc_cases : forall c, scalar c -> 0x80 <= c ->
  (exists b x, enc c = [b; x] /\ 0xC2 <= b <= 0xDF /\ c < 0x800)
  \/ (exists b x y, enc c = [b; x; y] /\ 0xE0 <= b <= 0xEF /\ 0x80 <= x <= 0xBF /\ 0x80 <= y <= 0xBF
        /\ c = (b - 0xE0) * 4096 + (x - 0x80) * 64 + (y - 0x80))
  \/ (exists b x y w, enc c = [b; x; y; w] /\ 0xF0 <= b <= 0xF4 /\ 0x10000 <= c).
Proof.
  intros c Hs Hc. unfold scalar in Hs. unfold enc. replace (c <? 128) with false by lia.
  destruct (c <? 2048) eqn:E2; [|destruct (c <? 65536) eqn:E3].
  - left. do 2 eexists. split; [reflexivity|]. lia.
  - right. left. do 3 eexists. split; [reflexivity|]. lia.
  - right. right. do 4 eexists. split; [reflexivity|]. lia.
Qed.

Lemma mask_two : forall b, 0xC2 <= b <= 0xDF -> has b 0x40 = true /\ has b 0x20 = false.
Proof.
  intros b H. pose proof (sweep 256 (fun b => (b <? 0xC2) || (0xDF <? b) || (has b 0x40 && negb (has b 0x20))) eq_refl b ltac:(lia)) as S.
  cbv beta in S. replace (b <? 0xC2) with false in S by lia. replace (0xDF <? b) with false in S by lia.
  cbn [orb] in S. rewrite andb_true_iff, negb_true_iff in S. exact S.
Qed.
Lemma mask_three : forall b, 0xE0 <= b <= 0xEF -> has b 0x40 = true /\ has b 0x20 = true /\ has b 0x10 = false.
Proof.
  intros b H. pose proof (sweep 256 (fun b => (b <? 0xE0) || (0xEF <? b) || (has b 0x40 && (has b 0x20 && negb (has b 0x10)))) eq_refl b ltac:(lia)) as S.
  cbv beta in S. replace (b <? 0xE0) with false in S by lia. replace (0xEF <? b) with false in S by lia.
  cbn [orb] in S. rewrite !andb_true_iff, negb_true_iff in S. exact S.
Qed.
Lemma mask_four : forall b, 0xF0 <= b <= 0xF4 ->
  has b 0x40 = true /\ has b 0x20 = true /\ has b 0x10 = true /\ has b 0x08 = false.
Proof.
  intros b H. pose proof (sweep 256 (fun b => (b <? 0xF0) || (0xF4 <? b) || (has b 0x40 && (has b 0x20 && (has b 0x10 && negb (has b 0x08))))) eq_refl b ltac:(lia)) as S.
  cbv beta in S. replace (b <? 0xF0) with false in S by lia. replace (0xF4 <? b) with false in S by lia.
  cbn [orb] in S. rewrite !andb_true_iff, negb_true_iff in S. exact S.
Qed.

Lemma getMB_enc : forall c q, scalar c -> 0x80 <= c -> getMBUtf8 (enc c ++ q) = Val (enc c, q).
Proof.
  intros c q Hs Hc. destruct (enc_cases c Hs Hc) as [[b [x [E [Hb _]]]]|[[b [x [y [E [Hb _]]]]]|[b [x [y [w [E [Hb _]]]]]]]];
    rewrite E; unfold getMBUtf8; cbn [app next_ obind at_ getMBLoop].
  - destruct (mask_two b Hb) as [-> ->]. reflexivity.
  - destruct (mask_three b Hb) as [-> [-> ->]]. reflexivity.
  - destruct (mask_four b Hb) as [-> [-> [-> ->]]]. reflexivity.
Qed.

Lemma isVS_enc : forall c q, scalar c -> isVariationSelector (enc c ++ q) = Val (is_selector c).
Proof.
  intros c q Hs. unfold is_selector. destruct (N.lt_ge_cases c 0x80) as [H|H].
  { unfold enc. replace (c <? 128) with true by lia. unfold isVariationSelector. cbn [app at_].
    replace (c =? 239) with false by lia. replace (65024 <=? c) with false by lia. reflexivity. }
  destruct (enc_cases c Hs H) as [[b [x [E [Hb Hc]]]]|[[b [x [y [E [Hb [Hx [Hy Hc]]]]]]]|[b [x [y [w [E [Hb Hc]]]]]]]];
    rewrite E; unfold isVariationSelector; cbn [app at_ next_ obind].
  - replace (b =? 239) with false by lia. f_equal. lia.
  - destruct (b =? 239) eqn:Eb.
    + destruct (x =? 184) eqn:Ex; f_equal; lia.
    + f_equal. lia.
  - replace (b =? 239) with false by lia. f_equal. lia.
Qed.
Lemma isCM_enc : forall c q, scalar c -> isCombiningMark (enc c ++ q) = Val (is_mark c).
Proof.
  intros c q Hs. unfold is_mark. destruct (N.lt_ge_cases c 0x80) as [H|H].
  { unfold enc. replace (c <? 128) with true by lia. unfold isCombiningMark. cbn [app at_].
    replace (c =? 227) with false by lia. f_equal. lia. }
  destruct (enc_cases c Hs H) as [[b [x [E [Hb Hc]]]]|[[b [x [y [E [Hb [Hx [Hy Hc]]]]]]]|[b [x [y [w [E [Hb Hc]]]]]]]];
    rewrite E; unfold isCombiningMark; cbn [app at_ next_ obind].
  - replace (b =? 227) with false by lia. f_equal. lia.
  - destruct (b =? 227) eqn:Eb.
    + destruct (x =? 130) eqn:Ex; f_equal; lia.
    + f_equal. lia.
  - replace (b =? 227) with false by lia. f_equal. lia.
Qed.

Lemma validResult_enc : forall c q, scalar c -> 0x80 <= c ->
  validResult (enc c ++ q) = Val (negb (is_selector c || is_mark c), enc c, q).
Proof.
  intros c q Hs Hc. unfold validResult. rewrite getMB_enc by assumption. cbn [obind].
  rewrite <- (app_nil_r (enc c)). rewrite isVS_enc by exact Hs. cbn [obind].
  destruct (is_selector c); [reflexivity|]. rewrite isCM_enc by exact Hs. reflexivity.
Qed.

Lemma three_bytes : forall c, is_selector c = true \/ is_mark c = true -> exists b x y, enc c = [b; x; y].
Proof.
  intros c H. unfold is_selector, is_mark in H. unfold enc.
  replace (c <? 128) with false by lia. replace (c <? 2048) with false by lia.
  replace (c <? 65536) with true by lia. do 3 eexists. reflexivity.
Qed.
Lemma skip3_enc : forall c q, is_selector c = true \/ is_mark c = true -> skip3 (enc c ++ q) = Val q.
Proof. intros c q H. destruct (three_bytes c H) as [b [x [y E]]]. rewrite E. reflexivity. Qed.

(** what follows a character, seen through [peekVariant] *)
Lemma pv_good : forall d a z, scalar d -> 0x80 <= d -> bytes_ok (enc d ++ a ++ z) -> no_nul a -> stop z ->
  peekVariant (enc d ++ a ++ z) = Val (is_selector d, enc d).
Proof.
  intros d a z Hs Hd Hok Ha Hz. unfold peekVariant, isValidMBUtf8. rewrite v_mb by assumption. cbn [obind].
  rewrite getMB_enc by assumption. cbn [obind]. rewrite <- (app_nil_r (enc d)) at 1.
  rewrite isVS_enc by exact Hs. reflexivity.
Qed.
Lemma pv_not : forall s v, validateMBUtf8 s false = Val v -> v <> MBValid -> peekVariant s = Val (false, []).
Proof.
  intros s v H Hv. unfold peekVariant, isValidMBUtf8. rewrite H. cbn [obind].
  destruct v; [congruence| |]; reflexivity.
Qed.

Lemma enc_mark : forall c, scalar c -> beq (enc c) CombiningVoiced = (c =? 0x3099)
  /\ beq (enc c) CombiningSemiVoiced = (c =? 0x309A).
Proof.
  intros c Hs. split.
  - destruct (c =? 0x3099) eqn:E.
    + apply N.eqb_eq in E. subst. reflexivity.
    + apply beq_neq. intro H. apply N.eqb_neq in E. apply E.
      change CombiningVoiced with (enc 0x3099) in H.
      apply (enc_inj_app c 0x3099 [] []); [exact Hs|unfold scalar; lia|]. rewrite !app_nil_r. exact H.
  - destruct (c =? 0x309A) eqn:E.
    + apply N.eqb_eq in E. subst. reflexivity.
    + apply beq_neq. intro H. apply N.eqb_neq in E. apply E.
      change CombiningSemiVoiced with (enc 0x309A) in H.
      apply (enc_inj_app c 0x309A [] []); [exact Hs|unfold scalar; lia|]. rewrite !app_nil_r. exact H.
Qed.

(** ** One step *)

(** the counters after some items *)
Definition bump (u : Utf8Char) (cur : bytes) (its : list item) : Utf8Char :=
  {| uData := uData u; uCur := cur; uErrors := uErrors u + count is_error its;
     uVariants := uVariants u + count is_variant its; uMarks := uMarks u + count is_combined its |}.
Lemma count_nil : forall A (f : A -> bool), count f [] = 0. Proof. reflexivity. Qed.
Lemma count_cons : forall A (f : A -> bool) x l, count f (x :: l) = (if f x then 1 else 0) + count f l.
Proof. intros A f x l. unfold count. cbn [filter]. destruct (f x); [apply len_cons|reflexivity]. Qed.
Lemma count_app : forall A (f : A -> bool) a b, count f (a ++ b) = count f a + count f b.
Proof. intros A f a b. unfold count. rewrite filter_app, len_app. reflexivity. Qed.
Lemma bump_nil : forall u, bump u (uCur u) [] = u.
Proof. intros [dd cc ee vv mm]. unfold bump. cbn [uData uCur uErrors uVariants uMarks]. rewrite !count_nil, !N.add_0_r. reflexivity. Qed.
Lemma bump_bump : forall u c1 c2 a b, bump (bump u c1 a) c2 b = bump u c2 (a ++ b).
Proof.
  intros u c1 c2 a b. unfold bump. cbn [uData uCur uErrors uVariants uMarks]. rewrite !count_app, !N.add_assoc. reflexivity.
Qed.
Lemma setCur_bump : forall u c, setCur u c = bump u c [].
Proof. intros u c. unfold setCur, bump. rewrite !count_nil, !N.add_0_r. reflexivity. Qed.
Lemma bump_ext : forall u c a b, count is_error a = count is_error b -> count is_variant a = count is_variant b ->
  count is_combined a = count is_combined b -> bump u c a = bump u c b.
Proof. intros u c a b H1 H2 H3. unfold bump. rewrite H1, H2, H3. reflexivity. Qed.

Definition hidden (mb : bool) (i : item) : Prop := shown mb i = None.

Definition step_spec (mb : bool) (u : Utf8Char) (z : bytes) (es : list element)
  (r : option bytes) (u' : Utf8Char) : Prop :=
  (r = None /\ Forall (hidden mb) (items es) /\ u' = bump u z (items es))
  \/ (exists pre i es' a' t, items es = pre ++ i :: items es' /\ Forall (hidden mb) pre /\ shown mb i = Some t
        /\ r = Some t /\ u' = bump u (a' ++ z) (pre ++ [i]) /\ parse a' es' /\ no_nul a' /\ bytes_ok a'
        /\ (List.length a' + List.length t + 0 <= List.length (uCur u) - List.length z + 0
            \/ (List.length a' < List.length (uCur u) - List.length z))%nat).

Lemma step_hidden : forall mb u z i es es' a' r u', hidden mb i -> items es = i :: items es' ->
  (List.length a' < List.length (uCur u) - List.length z)%nat ->
  step_spec mb (bump u (a' ++ z) [i]) z es' r u' -> step_spec mb u z es r u'.
Proof.
  intros mb u z i es es' a' r u' Hh E Hlen [[H1 [H2 H3]]|[pre [j [es2 [a2 [t [H1 [H2 [H3 [H4 [H5 [H6 [H7 [H8 H9]]]]]]]]]]]]]].
  - left. split; [exact H1|]. rewrite E. split; [constructor; assumption|]. rewrite H3, bump_bump. reflexivity.
  - right. exists (i :: pre), j, es2, a2, t. rewrite E, H1. split; [reflexivity|].
    split; [constructor; assumption|]. split; [exact H3|]. split; [exact H4|].
    split; [rewrite H5, bump_bump; reflexivity|]. split; [exact H6|]. split; [exact H7|]. split; [exact H8|].
    cbn [uCur bump] in H9. rewrite app_length in H9. right. destruct H9 as [H9|H9]; lia.
Qed.
Lemma step_shown : forall mb u z i es es' a' t, shown mb i = Some t -> items es = i :: items es' ->
  parse a' es' -> no_nul a' -> bytes_ok a' ->
  (List.length a' < List.length (uCur u) - List.length z)%nat ->
  step_spec mb u z es (Some t) (bump u (a' ++ z) [i]).
Proof.
  intros mb u z i es es' a' t Hs E Hp Hn Hok Hlen. right. exists [], i, es', a', t.
  split; [exact E|]. split; [constructor|]. split; [exact Hs|]. split; [reflexivity|].
  split; [reflexivity|]. split; [exact Hp|]. split; [exact Hn|]. split; [exact Hok|]. right. exact Hlen.
Qed.

Lemma parse_inv_nonnil : forall a es, parse a es -> a <> [] -> es <> [].
Proof. intros a es H Hne. inversion H; subst; congruence. Qed.

Lemma at_app_nonnil : forall s q, s <> [] -> at_ (s ++ q) = at_ s.
Proof. intros [|b s] q H; [congruence|reflexivity]. Qed.

Lemma next_one : forall b s, next_ (b :: s) = Val s. Proof. reflexivity. Qed.

Lemma next_step : forall fuel es a z u mb,
  parse a es -> no_nul a -> bytes_ok a -> bytes_ok z -> stop z -> uCur u = a ++ z ->
  (List.length a < fuel)%nat ->
  exists r u', nextLoop fuel u mb = Val (r, u') /\ peekLoop fuel (a ++ z) mb = Val r /\ step_spec mb u z es r u'.
Proof.
  induction fuel as [|fuel IH]; intros es a z u mb Hp Hnn Hok Hzok Hz Hu Hf; [lia|].
  cbn [nextLoop peekLoop]. rewrite Hu.
  inversion Hp as [Ha He|c s es1 Hc Hp1 Ha He|b s es1 Hn Hp1 Ha He]; subst.
  - (* end *)
    cbn [app]. assert (Hat : at_ z = 0) by (destruct z; [reflexivity|exact Hz]).
    rewrite Hat. change (0 =? 0) with true. exists None, u. split; [reflexivity|]. split; [reflexivity|].
    left. split; [reflexivity|]. split; [constructor|]. cbn [app] in Hu. rewrite <- Hu. symmetry. apply bump_nil.
  - (* well-formed *)
    apply no_nul_app in Hnn. destruct Hnn as [Hn1 Hn2]. apply bytes_ok_app in Hok. destruct Hok as [Ho1 Ho2].
    assert (Hc0 : c <> 0).
    { intros ->. unfold enc in Hn1. cbn in Hn1. inversion Hn1. congruence. }
    destruct (enc_nonnil c) as [b [t Et]].
    assert (Hb0 : b <> 0). { rewrite Et in Hn1. inversion Hn1. assumption. }
    assert (Hat : at_ ((enc c ++ s) ++ z) = b) by (rewrite Et; reflexivity).
    rewrite Hat. replace (b =? 0) with false by lia.
    rewrite <- app_assoc.
    assert (Hokall : bytes_ok (enc c ++ s ++ z)).
    { apply bytes_ok_app. split; [exact Ho1|]. apply bytes_ok_app. split; assumption. }
    destruct (N.lt_ge_cases c 0x80) as [Hlt|Hge].
    + rewrite v_ascii by assumption. cbn [obind].
      assert (Eb : enc c = [c]) by (unfold enc; replace (c <? 128) with true by lia; reflexivity).
      rewrite Eb in *. cbn [app] in *. rewrite next_one. cbn [obind]. injection Et as <- <-.
      destruct mb; cbn [negb].
      * destruct (IH es1 s z (setCur u (s ++ z)) true Hp1 Hn2 Ho2 Hzok Hz eq_refl ltac:(cbn in Hf; lia)) as [r [u' [H1 [H2 H3]]]].
        exists r, u'. split; [exact H1|]. split; [exact H2|].
        apply (step_hidden true u z (Ascii c) _ es1 s); [reflexivity| | |].
        { cbn [items]. replace (c <? 0x80) with true by lia. reflexivity. }
        { rewrite Hu. cbn [List.length]. rewrite app_length. lia. }
        { rewrite setCur_bump in H3. rewrite (bump_ext _ _ [Ascii c] []) by reflexivity. exact H3. }
      * eexists _, _. split; [reflexivity|]. split; [reflexivity|].
        rewrite setCur_bump. rewrite (bump_ext _ _ [] [Ascii c]) by reflexivity.
        apply (step_shown false u z (Ascii c) _ es1 s); try assumption; try reflexivity.
        { cbn [items]. replace (c <? 0x80) with true by lia. reflexivity. }
        { rewrite Hu. cbn [List.length]. rewrite app_length. lia. }
    + rewrite v_mb by assumption. cbn [obind]. rewrite validResult_enc by assumption. cbn [obind].
      assert (Hlen2 : (2 <= List.length (enc c))%nat).
      { pose proof (enc_len_mb c Hge). unfold len in *. lia. }
      assert (Hlu : (List.length (uCur u) = List.length (enc c) + List.length s + List.length z)%nat).
      { rewrite Hu. rewrite !app_length. lia. }
      destruct (is_selector c || is_mark c) eqn:Ens; cbn [negb].
      { (* stray *)
        destruct (IH es1 s z (addError (setCur u (s ++ z))) mb Hp1 Hn2 Ho2 Hzok Hz eq_refl ltac:(rewrite app_length in Hf; lia)) as [r [u' [H1 [H2 H3]]]].
        exists r, u'. split; [exact H1|]. split; [exact H2|].
        apply (step_hidden mb u z (Stray c) _ es1 s); [reflexivity| | |].
        { cbn [items]. replace (c <? 0x80) with false by lia. rewrite Ens. reflexivity. }
        { lia. }
        { replace (addError (setCur u (s ++ z))) with (bump u (s ++ z) [Stray c]) in H3; [exact H3|].
          unfold bump, addError, setCur. cbn [uData uCur uErrors uVariants uMarks].
          rewrite !count_cons, !count_nil. cbn [is_error is_variant is_combined]. rewrite !N.add_0_r. reflexivity. } }
      (* a proper character: what follows? *)
      assert (Hplain : forall v nx, peekVariant (s ++ z) = Val (false, nx) -> beq nx CombiningVoiced = false ->
         beq nx CombiningSemiVoiced = false -> items (Good c :: es1) = Plain c :: items es1 -> v = tt ->
         exists r u', ('(vs, nexChar) <- peekVariant (s ++ z);;
            (if vs then loc2 <- skip3 (s ++ z);; Val (Some (enc c ++ nexChar), addVariant (setCur (setCur u (s ++ z)) loc2))
             else '(r, u2) <- processOne (setCur u (s ++ z)) (enc c) nexChar;; Val (Some r, u2))) = Val (r, u')
         /\ ('(vs, nextChar) <- peekVariant (s ++ z);;
             Val (Some (if vs then enc c ++ nextChar else processOneConst (enc c) nextChar))) = Val r
         /\ step_spec mb u z (Good c :: es1) r u').
      { intros v nx Hpv Hv1 Hv2 Hit _. rewrite Hpv. cbn [obind]. unfold processOne, processOneConst. rewrite Hv1, Hv2.
        cbn [obind]. eexists _, _. split; [reflexivity|]. split; [reflexivity|].
        rewrite setCur_bump. rewrite (bump_ext _ _ [] [Plain c]) by reflexivity.
        apply (step_shown mb u z (Plain c) _ es1 s); try assumption; try reflexivity. lia. }
      inversion Hp1 as [Ha He|d s2 es2 Hd Hp2 Ha He|b2 s2 es2 Hn3 Hp2 Ha He]; subst.
      * (* nothing *)
        apply (Hplain tt []); try reflexivity.
        { cbn [app]. apply (pv_not z NotMultiByte); [apply v_end; assumption|discriminate]. }
        { cbn [items]. replace (c <? 0x80) with false by lia. rewrite Ens. reflexivity. }
      * (* another character *)
        apply no_nul_app in Hn2. destruct Hn2 as [Hn21 Hn22]. apply bytes_ok_app in Ho2. destruct Ho2 as [Ho21 Ho22].
        assert (Hd0 : d <> 0). { intros ->. unfold enc in Hn21. cbn in Hn21. inversion Hn21. congruence. }
        assert (Hokd : bytes_ok (enc d ++ s2 ++ z)).
        { apply bytes_ok_app. split; [exact Ho21|]. apply bytes_ok_app. split; assumption. }
        destruct (N.lt_ge_cases d 0x80) as [Hdl|Hdg].
        { apply (Hplain tt []); try reflexivity.
          - rewrite <- app_assoc. apply (pv_not _ NotMultiByte); [apply v_ascii; assumption|discriminate].
          - cbn [items]. replace (c <? 0x80) with false by lia. rewrite Ens.
            replace (is_selector d) with false by (unfold is_selector; lia).
            replace (is_mark d) with false by (unfold is_mark; lia). reflexivity. }
        assert (Hpv : peekVariant ((enc d ++ s2) ++ z) = Val (is_selector d, enc d)).
        { rewrite <- app_assoc. apply pv_good; assumption. }
        destruct (is_selector d) eqn:Esel.
        { rewrite Hpv. cbn [obind]. rewrite <- app_assoc. rewrite skip3_enc by (left; exact Esel). cbn [obind].
          eexists _, _. split; [reflexivity|]. split; [reflexivity|].
          replace (addVariant _) with (bump u (s2 ++ z) [WithSelector c d]).
          2:{ unfold bump, addVariant, setCur. cbn [uData uCur uErrors uVariants uMarks].
              rewrite !count_cons, !count_nil. cbn [is_error is_variant is_combined]. rewrite !N.add_0_r. reflexivity. }
          apply (step_shown mb u z (WithSelector c d) _ es2 s2); try assumption; try reflexivity.
          - cbn [items]. replace (c <? 0x80) with false by lia. rewrite Ens, Esel. reflexivity.
          - rewrite app_length in Hlu. lia. }
        destruct (enc_mark d Hd) as [Em1 Em2].
        destruct (is_mark d) eqn:Emk.
        2:{ apply (Hplain tt (enc d)); try reflexivity.
            - exact Hpv.
            - rewrite Em1. unfold is_mark in Emk. lia.
            - rewrite Em2. unfold is_mark in Emk. lia.
            - cbn [items]. replace (c <? 0x80) with false by lia. rewrite Ens, Esel, Emk. reflexivity. }
        rewrite Hpv. cbn [obind]. unfold processOne, processOneConst. rewrite Em1, Em2.
        assert (Hacc : (if d =? 0x3099 then findDakuten (enc c) else findHanDakuten (enc c)) = option_map enc (folded c d)).
        { unfold is_mark in Emk. destruct (d =? 0x3099) eqn:E9.
          - apply N.eqb_eq in E9. subst d. apply find_both. exact Hc.
          - cbn [orb] in Emk. apply N.eqb_eq in Emk. subst d. apply find_both. exact Hc. }
        assert (Hcm : forall acc, acc = option_map enc (folded c d) ->
          exists r u', ('(r, u2) <- combiningMark (setCur u ((enc d ++ s2) ++ z)) (enc c) acc;; Val (Some r, u2)) = Val (r, u')
            /\ Val (Some (combiningMarkConst (enc c) acc)) = Val r /\ step_spec mb u z (Good c :: Good d :: es2) r u').
        { intros acc ->. unfold combiningMark. cbn [setCur uCur]. rewrite <- app_assoc. rewrite skip3_enc by (right; exact Emk).
          cbn [obind]. destruct (folded c d) as [x|] eqn:Ef; cbn [option_map obind combiningMarkConst];
          eexists _, _; (split; [reflexivity|]); (split; [reflexivity|]).
          - replace (addMark _) with (bump u (s2 ++ z) [Folded c d x]).
            2:{ unfold bump, addMark, setCur. cbn [uData uCur uErrors uVariants uMarks].
              rewrite !count_cons, !count_nil. cbn [is_error is_variant is_combined]. rewrite !N.add_0_r. reflexivity. }
            apply (step_shown mb u z (Folded c d x) _ es2 s2); try assumption; try reflexivity.
            + cbn [items]. replace (c <? 0x80) with false by lia. rewrite Ens, Esel, Emk, Ef. reflexivity.
            + rewrite app_length in Hlu. lia.
          - replace (addError _) with (bump u (s2 ++ z) [DroppedMark c d]).
            2:{ unfold bump, addError, setCur. cbn [uData uCur uErrors uVariants uMarks].
              rewrite !count_cons, !count_nil. cbn [is_error is_variant is_combined]. rewrite !N.add_0_r. reflexivity. }
            apply (step_shown mb u z (DroppedMark c d) _ es2 s2); try assumption; try reflexivity.
            + cbn [items]. replace (c <? 0x80) with false by lia. rewrite Ens, Esel, Emk, Ef. reflexivity.
            + rewrite app_length in Hlu. lia. }
        unfold is_mark in Emk. destruct (d =? 0x3099) eqn:E9.
        { exact (Hcm _ Hacc). }
        cbn [orb] in Emk. rewrite Emk. exact (Hcm _ Hacc).
      * (* a malformed byte *)
        apply (Hplain tt []); try reflexivity.
        { apply (pv_not _ NotValid); [|discriminate]. apply Forall_cons_iff in Hn2. destruct Hn2 as [Hn21 Hn22].
          apply v_bad; try assumption.
          change (b2 :: s2 ++ z) with ((b2 :: s2) ++ z). apply bytes_ok_app. split; assumption. }
        { cbn [items]. replace (c <? 0x80) with false by lia. rewrite Ens. reflexivity. }
  - (* malformed *)
    apply Forall_cons_iff in Hnn. destruct Hnn as [Hn1 Hn2]. apply Forall_cons_iff in Hok. destruct Hok as [Ho1 Ho2].
    cbn [app at_]. replace (b =? 0) with false by lia.
    rewrite v_bad; try assumption.
    2:{ change (b :: s ++ z) with ([b] ++ s ++ z). apply bytes_ok_app. split; [constructor; [exact Ho1|constructor]|].
        apply bytes_ok_app. split; assumption. }
    cbn [obind]. rewrite next_one. cbn [obind].
    destruct (IH es1 s z (addError (setCur u (s ++ z))) mb Hp1 Hn2 Ho2 Hzok Hz eq_refl ltac:(cbn in Hf; lia)) as [r [u' [H1 [H2 H3]]]].
    exists r, u'. split; [exact H1|]. split; [exact H2|].
    apply (step_hidden mb u z (Malformed b) _ es1 s); [reflexivity|reflexivity| |].
    { rewrite Hu. cbn [app List.length]. rewrite app_length. lia. }
    { replace (addError (setCur u (s ++ z))) with (bump u (s ++ z) [Malformed b]) in H3; [exact H3|].
      unfold bump, addError, setCur. cbn [uData uCur uErrors uVariants uMarks].
      rewrite !count_cons, !count_nil. cbn [is_error is_variant is_combined]. rewrite !N.add_0_r. reflexivity. }
Qed.
