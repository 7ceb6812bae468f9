(** Lemmas about loading Kanji: where each Kanji comes from. *)
From Verif Require Import BaseFacts MapProofs ListProofs ColumnFileLemmas IdsProofs UcdSpec UcdProofs RadicalSpec RadicalProofs
  DataModel DataSpec DataProofs LoadModel LoadSpec LoadProofs LoadAttr LoadPhases LoadLists LoadEnv LoadWhole.
Arguments N.mul : simpl never. Arguments N.add : simpl never. Arguments N.sub : simpl never.
Arguments N.div : simpl never.

Inductive made (e : Env) (k : Kanji) : Prop :=
| made_jouyou r : makeJouyou e r = Val k -> made e k
| made_jinmei r : makeJinmei e r = Val k -> made e k
| made_extra r : makeExtra e r = Val k -> made e k
| made_linked b link : makeLinked e b (kName k) link = Val k -> made e k
| made_frequency i : makeFrequency e i (kName k) = Val k -> made e k
| made_kyu v : makeKentei e v (kName k) = Val k -> made e k
| made_ucd n u : In (n, u) (ucdMap (envUcd e)) -> makeUcdKanji e u = Val k -> made e k.
Lemma loadKanji_made : forall f e m d, loadKanji e f (newData m) = Val d -> All (made e) d.
Proof.
  intros f e m d H. unfold loadKanji in H. set (d0 := newData m) in *.
  peel H d1 E1. peel H d2 E2. peel H d3 E3. peel H d4 E4. peel H d5 E5. peel H d6 E6. peel H d7 E7. peel H d8 E8. rename d into d9.
  assert (W0 : Wf d0) by apply Wf_new. assert (A0 : Auto d0) by apply Auto_new.
  destruct (loadPlain_stage (makeJouyou e) Jouyou _ d0 d1 not_single_jouyou (fun r k K => proj1 (proj2 (jouyou_fields e r k K))) W0 A0 E1) as [js [J1 [J2 [S1 [M1 P1]]]]].
  destruct (loadLinkedLines_stage e _ d1 d2 (sg_wf _ _ _ _ S1) (sg_auto _ _ _ _ S1) E2) as [S2 [M2 P2]].
  destruct (loadOld_stage e _ d2 d3 (sg_wf _ _ _ _ S2) (sg_auto _ _ _ _ S2) E3) as [S3 [M3 P3]].
  destruct (loadJinmei_stage e _ d3 d4 (sg_wf _ _ _ _ S3) (sg_auto _ _ _ _ S3) E4) as [ms [N1 [N2 [S4 [M4 P4]]]]].
  destruct (loadPlain_stage (makeExtra e) Extra _ d4 d5 not_single_extra (fun r k K => proj1 (proj2 (extra_fields e r k K))) (sg_wf _ _ _ _ S4) (sg_auto _ _ _ _ S4) E5) as [xs [X1 [X2 [S5 [M5 P5]]]]].
  destruct (processLevels_stage e _ d5 d6 (sg_wf _ _ _ _ S5) (sg_auto _ _ _ _ S5) E6) as [lss [S6 [L6 [T6 K6]]]].
  destruct (processFrequency_stage e d6 d7 (sg_wf _ _ _ _ S6) (sg_auto _ _ _ _ S6) E7) as [fs [S7 [L7 [T7 K7]]]].
  destruct (processKyus_stage e _ d7 d8 (sg_wf _ _ _ _ S7) (sg_auto _ _ _ _ S7) E8) as [kss [S8 [L8 [T8 K8]]]].
  destruct (processUcd_stage e _ d8 d9 (sg_wf _ _ _ _ S8) (sg_auto _ _ _ _ S8) H) as [S9 [M9 P9]].
  assert (B0 : All (made e) d0) by (intros s k K; discriminate).
  assert (B1 : All (made e) d1).
  { eapply All_stage; [exact B0|exact S1|]. intros k K. destruct (forall2_in_r _ _ _ _ _ _ J1 K) as [r [_ Q]]. eapply made_jouyou; eauto. }
  assert (B2 : All (made e) d2).
  { eapply All_stage; [exact B1|exact S2|]. intros k [li [j [s [rs [lk [Q1 [Q2 [Q3 Q4]]]]]]]]. pose proof (proj1 (linked_fields _ _ _ _ _ Q4)) as K. subst s. eapply made_linked; eauto. }
  assert (B3 : All (made e) d3).
  { eapply All_stage; [exact B2|exact S3|]. intros k [lk [j [Q1 [Q2 Q3]]]]. pose proof (proj1 (linked_fields _ _ _ _ _ Q3)) as K. subst j. eapply made_linked; eauto. }
  assert (B4 : All (made e) d4).
  { eapply All_stage; [exact B3|exact S4|]. intros k [K|[lk [j [Q1 [Q2 Q3]]]]].
    - destruct (forall2_in_r _ _ _ _ _ _ N1 K) as [r [_ Q]]. eapply made_jinmei; eauto.
    - pose proof (proj1 (linked_fields _ _ _ _ _ Q3)) as K. subst j. eapply made_linked; eauto. }
  assert (B5 : All (made e) d5).
  { eapply All_stage; [exact B4|exact S5|]. intros k K. destruct (forall2_in_r _ _ _ _ _ _ X1 K) as [r [_ Q]]. eapply made_extra; eauto. }
  assert (B6 : All (made e) d6) by (eapply All_stage; [exact B5|exact S6|]; intros k []).
  assert (B7 : All (made e) d7).
  { eapply All_stage; [exact B6|exact S7|]. intros k [j [s [Q1 [Q2 [_ [Q3 _]]]]]]. pose proof (proj1 (frequency_fields _ _ _ _ Q3)) as K. subst s.
    eapply made_frequency; eauto. }
  assert (B8 : All (made e) d8).
  { eapply All_stage; [exact B7|exact S8|]. intros k [bf [v [g [af [s [Q1 [Q2 [Q3 [Q4 Q5]]]]]]]]]. pose proof (proj1 (kentei_fields _ _ _ _ Q5)) as K. subst s.
    eapply made_kyu; eauto. }
  eapply All_stage; [exact B8|exact S9|]. intros k [n [u [Q1 [Q2 Q3]]]]. eapply made_ucd; eauto.
Qed.

(** ** Rows *)
Lemma u8_id : forall n, n <= 255 -> u8 n = n.
Proof. intros n H. unfold u8. apply N.mod_small. lia. Qed.
Lemma strokes_of_row : forall r s, getStrokes r = Val s -> exists n, loose_number (krStrokes r) n /\ 1 <= n <= 64 /\ s = (n, 0).
Proof.
  intros r s H. unfold getStrokes in H. peel H n E. apply processU64_iff in E. destruct E as [E [F|F]]; [discriminate|].
  rewrite (u8_id n F) in H. unfold newStrokes, MaxStrokes in H. destruct ((n =? 0) || (64 <? n)) eqn:B; inversion H; subst s.
  exists n. split; [exact E|]. split; [|reflexivity]. lia.
Qed.
Lemma old_names_cut : forall r, cut 44 (krOldNames r) (getOldNames r).
Proof. intro r. apply cut_getlines. reflexivity. Qed.
Lemma radical_named : forall f e s r, env_ok f e -> radicalByName (envRadicals e) s = Val r -> radName r = s.
Proof. intros f e s r O H. apply (by_name _ _ s (en_radicals f e O)) in H. destruct H as [n [row [_ [_ [K _]]]]]. exact K. Qed.
Lemma grade_of : forall s g, getGrade s = Val g -> g <> NoGrade /\ gradeToString g = grade_text s.
Proof.
  intros s g H. split; [eapply grade_valid; exact H|]. unfold getGrade in H.
  match type of H with context [find ?P AllGrades] => destruct (find P AllGrades) as [x|] eqn:E end; [|discriminate].
  inversion H; subst x. apply find_some in E. destruct E as [_ E]. apply beq_eq in E. rewrite E. unfold grade_text. cbn [b_ app].
  destruct s as [|c s]; [reflexivity|]. destruct c as [|p]; [reflexivity|]. do 7 (try reflexivity; destruct p as [p|p|]); reflexivity.
Qed.

Lemma jouyou_row_of : forall f e r k, env_ok f e -> makeJouyou e r = Val k -> jouyou_row r k.
Proof.
  intros f e r k O H. unfold makeJouyou in H. peel H st E1. peel H u E2. peel H rad E3. peel H n E4. peel H y E5. peel H g E6. rename H into E7.
  apply newKanji_fields in E7.
  destruct E7 as [F1 [F2 [F3 [F4 [F5 [F6 [F7 [F8 [F9 [F10 [F11 [F12 [F13 F14]]]]]]]]]]]]].
  apply strokes_of_row in E1. destruct E1 as [c [C1 [C2 C3]]]. apply grade_of in E6. destruct E6 as [G1 G2].
  split; [|split; [|split; [|split; [|split]]]].
  - split; [exact F1|]. split; [exact F5|]. rewrite F2. eapply radical_named; eauto.
  - exists c. rewrite F4. auto.
  - rewrite F7. exact G1.
  - rewrite F7. exact G2.
  - rewrite F11. apply old_names_cut.
  - exact F10.
Qed.
Lemma jinmei_row_of : forall f e r k, env_ok f e -> makeJinmei e r = Val k -> jinmei_row r k.
Proof.
  intros f e r k O H. unfold makeJinmei in H. peel H u E2. peel H rad E3. peel H st E1. peel H n E4. peel H y E5. peel H g E6. rename H into E7.
  apply newKanji_fields in E7.
  destruct E7 as [F1 [F2 [F3 [F4 [F5 [F6 [F7 [F8 [F9 [F10 [F11 [F12 [F13 F14]]]]]]]]]]]]].
  split; [|split; [|split]].
  - split; [exact F1|]. split; [exact F5|]. rewrite F2. eapply radical_named; eauto.
  - exact F7.
  - rewrite F11. apply old_names_cut.
  - exact F10.
Qed.
Lemma extra_row_of : forall f e r k, env_ok f e -> makeExtra e r = Val k -> extra_row r k.
Proof.
  intros f e r k O H. unfold makeExtra in H. peel H u E2. peel H st E1. peel H rad E3. peel H n E4. rename H into E7.
  apply newKanji_fields in E7.
  destruct E7 as [F1 [F2 [F3 [F4 [F5 [F6 [F7 [F8 [F9 [F10 [F11 [F12 [F13 F14]]]]]]]]]]]]].
  apply strokes_of_row in E1. destruct E1 as [c [C1 [C2 C3]]].
  split; [|split].
  - split; [exact F1|]. split; [exact F5|]. rewrite F2. eapply radical_named; eauto.
  - exists c. rewrite F4. auto.
  - exact F7.
Qed.
Lemma rows_of : forall make (R : KanjiRow -> Kanji -> Prop) rows ks, (forall r k, make r = Val k -> R r k) -> from_rows make rows ks -> Forall2 R rows ks.
Proof. intros make R rows ks H F. induction F as [|r k rows ks Hx _ IH]; constructor; [eapply H; exact Hx|exact IH]. Qed.

(** ** The Unicode data *)
Lemma radical_numbered : forall f e n r, env_ok f e -> radicalByNumber (envRadicals e) n = Val r -> radNumber r = n.
Proof. intros f e n r O H. apply (by_number _ _ n (en_radicals f e O)) in H. destruct H as [row [_ [K _]]]. exact K. Qed.
Lemma short_plain : forall d s, len s <= 4 -> ucdFind d s = Val (mfind s (ucdMap d)).
Proof.
  intros d s H. unfold ucdFind, isCharWithVariationSelector.
  replace ((3 + 2 <=? len s) && (len s <=? 3 + 4)) with false by lia. reflexivity.
Qed.
Lemma compat_none : forall f e us k u, env_ok f e -> UcdSpec.holds (envUcd e) us -> len (kName k) <= 4 -> In u us -> ucdName u = kName k ->
  ucd_part e k (Some u) -> kCompatibility k = None.
Proof.
  intros f e us k u O [Hu _] Hl Hin En [P _]. unfold getCompatibilityName in P. rewrite (short_plain _ _ Hl) in P. cbn [obind] in P.
  rewrite (proj2 (Hu (kName k) u) (conj Hin En)) in P. rewrite En, beq_refl in P. cbn [negb] in P. congruence.
Qed.
Lemma made_unicode : forall f e us k u, env_ok f e -> UcdSpec.holds (envUcd e) us -> msorted (ucdMap (envUcd e)) -> made e k ->
  len (kName k) <= 4 -> In u us -> ucdName u = kName k -> from_unicode u k.
Proof.
  intros f e us k u O Hu Hs M Hl Hin En.
  assert (Fd : ucdFind (envUcd e) (kName k) = Val (Some u)).
  { rewrite (short_plain _ _ Hl). f_equal. apply Hu. auto. }
  assert (Use : forall name o rad st t fr g q l nn old ln x, newKanji e name o rad st t fr g q l nn old ln x = Val k ->
     o = Some u -> (~ own_strokes t -> st = ucdStrokes u) -> (~ own_radical t -> radNumber rad = ucdRadical u) -> from_unicode u k).
  { intros name o rad st t fr g q l nn old ln x H -> Q1 Q2. apply newKanji_fields in H.
    destruct H as [F1 [F2 [F3 [F4 [F5 [F6 [F7 [F8 [F9 [F10 [F11 [F12 [F13 F14]]]]]]]]]]]]].
    split; try apply F13; [eapply compat_none; eauto|rewrite F5, F4; exact Q1|rewrite F5, F3; exact Q2]. }
  assert (Rn : forall rad, ucdRadicalOf e (Some u) = Val rad -> radNumber rad = ucdRadical u).
  { intros rad H. eapply radical_numbered; [exact O|exact H]. }
  assert (Oth : forall name rd t fr q, makeOther e name (Some u) rd t fr q = Val k -> from_unicode u k).
  { intros name rd t fr q H. unfold makeOther in H. peel H rr E0. peel H rad E3. peel H st E1. rename H into E7.
    eapply Use; [exact E7|reflexivity|intros _; inversion E1; reflexivity|intros _; apply Rn; exact E3]. }
  destruct M as [r H|r H|r H|b lk H|i H|v H|n u' Hin' H].
  - pose proof (proj1 (jouyou_fields e r k H)) as Nk. unfold makeJouyou in H. rewrite <- Nk, Fd in H.
    peel H st E1. peel H u0 E2. inversion E2; subst u0. peel H rad E3. peel H n E4. peel H y E5. peel H g E6. rename H into E7.
    eapply Use; [exact E7|reflexivity|intro K; exfalso; apply K; left; reflexivity|intro K; exfalso; apply K; left; reflexivity].
  - pose proof (proj1 (jinmei_fields e r k H)) as Nk. unfold makeJinmei in H. rewrite <- Nk, Fd in H.
    peel H u0 E2. inversion E2; subst u0. peel H rad E3. peel H st E1. peel H n E4. peel H y E5. peel H g E6. rename H into E7.
    eapply Use; [exact E7|reflexivity|intros _; inversion E1; reflexivity|intro K; exfalso; apply K; right; left; reflexivity].
  - pose proof (proj1 (extra_fields e r k H)) as Nk. unfold makeExtra in H. rewrite <- Nk, Fd in H.
    peel H u0 E2. inversion E2; subst u0. peel H st E1. peel H rad E3. peel H n E4. rename H into E7.
    eapply Use; [exact E7|reflexivity|intro K; exfalso; apply K; right; reflexivity|intro K; exfalso; apply K; right; right; reflexivity].
  - unfold makeLinked in H. rewrite Fd in H.
    destruct (match kType lk with Jouyou => false | Jinmei => b | _ => true end); [discriminate|].
    peel H u0 E2. inversion E2; subst u0. peel H rad E3. peel H st E1.
    eapply Use; [exact H|reflexivity|intros _; inversion E1; reflexivity|intros _; apply Rn; exact E3].
  - unfold makeFrequency in H. rewrite Fd in H. cbn [obind] in H. eapply Oth; exact H.
  - unfold makeKentei in H. rewrite Fd in H. cbn [obind] in H. eapply Oth; exact H.
  - assert (Nk : kName k = ucdName u') by (eapply ucdkanji_fields; exact H).
    assert (u' = u).
    { pose proof (mfind_In _ _ _ Hs Hin') as F. destruct Hu as [Hu _]. apply Hu in F as F'. destruct F' as [F1 F2].
      assert (mfind (kName k) (ucdMap (envUcd e)) = Some u') by (rewrite Nk, F2; exact F).
      rewrite (short_plain _ _ Hl) in Fd. congruence. }
    subst u'. unfold makeUcdKanji in H. eapply Oth; exact H.
Qed.
