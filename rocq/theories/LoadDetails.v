(** Lemmas about the meanings, readings, numbers, years, reasons and linked names of loaded Kanji. *)
From Verif Require Import BaseFacts MapProofs ListProofs ColumnFileLemmas UcdSpec UcdProofs DataModel DataSpec DataProofs
  LoadModel LoadSpec LoadAttr LoadPhases LoadLists LoadEnv LoadWhole LoadMade LoadFacts LoadDetailsSpec.
Arguments N.mul : simpl never. Arguments N.add : simpl never. Arguments N.sub : simpl never.
Arguments N.div : simpl never.

(** ** Rows *)
Lemma u16_id : forall n, n <= 65535 -> u16 n = n.
Proof. intros n H. unfold u16. apply N.mod_small. lia. Qed.
Lemma number_of_row : forall r n, getNumber r = Val n -> row_number (krNumber r) n.
Proof.
  intros r n H. unfold getNumber in H. peel H v E. apply processU64_iff in E. destruct E as [E [F|F]]; [discriminate|].
  rewrite (u16_id v F) in H. injection H as <-. split; assumption.
Qed.
Lemma year_of_row : forall r y, getYear r = Val y -> row_year (krYear r) y.
Proof.
  intros r y H. unfold getYear, isEmptyField in H. destruct (krYear r) as [|c s] eqn:K.
  - injection H as <-. left. auto.
  - right. split; [discriminate|]. peel H v E. apply processU64_iff in E. destruct E as [E [F|F]]; [discriminate|].
    rewrite (u16_id v F) in H. injection H as <-. split; assumption.
Qed.
Lemma positionOf_nth : forall s l i n, positionOf s l i = Some n -> exists j, n = i + N.of_nat j /\ nth_error l j = Some s.
Proof.
  induction l as [|x l IH]; intros i n H; cbn [positionOf] in H; [discriminate|]. destruct (beq x s) eqn:E.
  - injection H as <-. apply beq_eq in E. subst x. exists 0%nat. split; [cbn [N.of_nat]; lia|reflexivity].
  - destruct (IH _ _ H) as [j [-> J]]. exists (S j). split; [lia|exact J].
Qed.
Lemma reason_of_row : forall s i, getReason s = Val i -> exists j, i = N.of_nat j /\ nth_error reasons j = Some s.
Proof.
  intros s i H. unfold getReason in H. destruct (positionOf s ReasonNames 0) as [n|] eqn:E; [|discriminate]. injection H as <-.
  destruct (positionOf_nth _ _ _ _ E) as [j [-> J]]. exists j. split; [apply N.add_0_l|exact J].
Qed.
Lemma jouyou_details_of : forall e r k, makeJouyou e r = Val k -> jouyou_details r (kDetails k).
Proof.
  intros e r k H. unfold makeJouyou in H. peel H st E1. peel H u E2. peel H rad E3. peel H n E4. peel H y E5. peel H g E6. rename H into E7.
  apply newKanji_fields in E7.
  destruct E7 as [F1 [F2 [F3 [F4 [F5 [F6 [F7 [F8 [F9 [F10 [F11 [F12 [F13 F14]]]]]]]]]]]]]. rewrite F14. unfold jouyou_details. cbn.
  split; [reflexivity|]. split; [reflexivity|]. split; [apply number_of_row; exact E4|]. split; [apply year_of_row; exact E5|reflexivity].
Qed.
Lemma jinmei_details_of : forall e r k, makeJinmei e r = Val k -> jinmei_details r (kDetails k).
Proof.
  intros e r k H. unfold makeJinmei in H. peel H u E2. peel H rad E3. peel H st E1. peel H n E4. peel H y E5. peel H g E6. rename H into E7.
  apply newKanji_fields in E7.
  destruct E7 as [F1 [F2 [F3 [F4 [F5 [F6 [F7 [F8 [F9 [F10 [F11 [F12 [F13 F14]]]]]]]]]]]]]. rewrite F14. unfold jinmei_details. cbn [dReading dNumber dYear dReason].
  split; [reflexivity|]. split; [apply number_of_row; exact E4|]. split; [apply year_of_row; exact E5|].
  destruct (reason_of_row _ _ E6) as [j [-> J]]. exists j. auto.
Qed.
Lemma extra_details_of : forall e r k, makeExtra e r = Val k -> extra_details r (kDetails k).
Proof.
  intros e r k H. unfold makeExtra in H. peel H u E2. peel H st E1. peel H rad E3. peel H n E4. rename H into E7.
  apply newKanji_fields in E7.
  destruct E7 as [F1 [F2 [F3 [F4 [F5 [F6 [F7 [F8 [F9 [F10 [F11 [F12 [F13 F14]]]]]]]]]]]]]. rewrite F14. unfold extra_details. cbn.
  split; [reflexivity|]. split; [reflexivity|]. split; [apply number_of_row; exact E4|]. split; reflexivity.
Qed.

(** ** Extra readings *)
Lemma loadReadings_find : forall rows m m', msorted m -> loadReadings rows m = Val m' ->
  forall n, match mfind n m' with
            | Some s => mfind n m = Some s \/ In (n, s) rows
            | None => mfind n m = None /\ ~ In n (map fst rows)
            end.
Proof.
  induction rows as [|[a b] rows IH]; intros m m' Hs H n; cbn [loadReadings] in H.
  - injection H as <-. destruct (mfind n m); auto.
  - destruct (mfind a m) eqn:E; [discriminate|]. specialize (IH (madd a b m) m' (mupdate_sorted _ _ _ Hs) H n). rewrite (madd_find _ a b n m Hs) in IH.
    destruct (mfind n m') as [s|].
    + destruct (beq a n) eqn:B.
      * apply beq_eq in B. subst a. destruct IH as [K|K]; [injection K as ->; right; left; reflexivity|right; right; exact K].
      * destruct IH as [K|K]; [left; exact K|right; right; exact K].
    + destruct (beq a n) eqn:B; [destruct IH as [K _]; discriminate|]. destruct IH as [K1 K2]. split; [exact K1|].
      cbn [map fst]. intros [Q|Q]; [subst a; rewrite beq_refl in B; discriminate|exact (K2 Q)].
Qed.

Lemma loadReadings_once : forall rows m m', msorted m -> loadReadings rows m = Val m' ->
  NoDup (map fst rows) /\ forall n, In n (map fst rows) -> mfind n m = None.
Proof.
  induction rows as [|[a b] rows IH]; intros m m' Hs H; cbn [loadReadings] in H; [split; [constructor|intros n []]|].
  destruct (mfind a m) eqn:E; [discriminate|]. destruct (IH (madd a b m) m' (mupdate_sorted _ _ _ Hs) H) as [D1 D2].
  assert (A : ~ In a (map fst rows)).
  { intro X. specialize (D2 a X). rewrite (madd_find _ a b a m Hs), beq_refl in D2. discriminate D2. }
  split; [constructor; [exact A|exact D1]|]. intros n [<-|X]; [exact E|]. specialize (D2 n X). rewrite (madd_find _ a b n m Hs) in D2.
  destruct (beq a n); [discriminate D2|exact D2].
Qed.

(** ** The Unicode data *)
Lemma link_types : forall r u, row_is r u ->
  (traditional r <-> hasTraditionalLinks u = true) /\ ((exists s, rLinkType r = s ++ b_ "*") <-> linkedReadings u = true).
Proof.
  intros r u H. assert (C : (rLinkType r = [] /\ ucdLinkType u = 11) \/ exists i, (i < 11)%nat /\ ucdLinkType u = N.of_nat i /\ nth_error LinkTypeNames i = Some (rLinkType r)).
  { destruct (is_link_type r u H) as [[K1 K2]|K]; [left; split; [exact K1|exact K2]|right]. exists (N.to_nat (ucdLinkType u)).
    split; [apply (nth_error_Some LinkTypeNames); rewrite K; discriminate|]. split; [symmetry; apply N2Nat.id|exact K]. }
  assert (T : forall s : bytes, (exists t, s = t ++ b_ "*") <-> last s 0 = 42).
  { intro s. split; [intros [t ->]; apply last_last|]. intro L. destruct s as [|x s'] using rev_ind; [discriminate|]. rewrite last_last in L. subst x. exists s'. reflexivity. }
  rewrite T. unfold traditional, hasTraditionalLinks, linkedReadings. destruct C as [[C1 C2]|[i [C1 [C2 C3]]]].
  - rewrite C1, C2. split; split; intro K; try discriminate. destruct K as [K|K]; discriminate.
  - rewrite C2. do 11 (destruct i as [|i]; [injection C3 as <-; split; split; vm_compute; intro K; try reflexivity; try discriminate; try (left; reflexivity); try (right; reflexivity); destruct K; discriminate|]). lia.
Qed.
Lemma forms_of : forall r u k, row_is r u ->
  kOldNames k = (if hasTraditionalLinks u then ucdLinks u else []) ->
  kNewName k = (match ucdLinks u with n :: _ => if hasTraditionalLinks u then None else Some n | [] => None end) -> linked_forms r k.
Proof.
  intros r u k H Ho Hn. exists (ucdLinks u). split; [apply (proj1 (is_links r u H))|]. destruct (proj1 (link_types r u H)) as [T1 T2]. split.
  - intro T. rewrite (T1 T) in Ho, Hn. split; [exact Ho|]. destruct (ucdLinks u); exact Hn.
  - intro T. destruct (hasTraditionalLinks u); [exfalso; auto|]. split; [exact Ho|]. destruct (ucdLinks u); exact Hn.
Qed.

Lemma made_details : forall f e us k u r, env_ok f e -> UcdSpec.holds (envUcd e) us -> msorted (ucdMap (envUcd e)) -> made e k ->
  len (kName k) <= 4 -> In u us -> ucdName u = kName k -> row_is r u -> unicode_details (readingRows f) r k.
Proof.
  intros f e us k u r O Hu Hs M Hl Hin En Hr.
  assert (Fd : ucdFind (envUcd e) (kName k) = Val (Some u)).
  { rewrite (short_plain _ _ Hl). f_equal. apply Hu. auto. }
  assert (Rn : rName r = kName k) by (pose proof (is_name r u Hr) as [K _]; congruence).
  pose proof (is_text r u Hr) as [_ [_ [_ [_ [_ [Tm [To Tk]]]]]]].
  assert (Rd : forall ltr s, getReadingsAsKana ltr u = Val s -> forall on kun ks hs, readings (rOn r) on -> readings (rKun r) kun ->
            converts Katakana on ks -> converts Hiragana kun hs -> s = wide_list (ks ++ hs)).
  { intros ltr s H on kun ks hs K1 K2 K3 K4. rewrite <- To in K1. rewrite <- Tk in K2. rewrite (readings_spec ltr u on kun ks hs K1 K2 K3 K4) in H. congruence. }
  assert (Oth : forall name rd t fr q, makeOther e name (Some u) rd t fr q = Val k -> unofficial t ->
     (match rd with Some s => t = FrequencyType /\ In (rName r, s) (readingRows f) | None => ~ (t = FrequencyType /\ In (rName r) (map fst (readingRows f))) end) ->
     unicode_details (readingRows f) r k).
  { intros name rd t fr q H U Q. unfold makeOther in H. peel H rr E0. peel H rad E3. peel H st E1. apply newKanji_fields in H.
    destruct H as [F1 [F2 [F3 [F4 [F5 [F6 [F7 [F8 [F9 [F10 [F11 [F12 [F13 F14]]]]]]]]]]]]].
    assert (Hb : kLinkedReadings k = linkedReadings u) by exact F12.
    split; rewrite ?F5, ?F14; cbn [dMeaning dReading dNumber dYear dReason].
    - intros _. exact Tm.
    - intros _. eapply forms_of; [exact Hr|exact F11|exact F10].
    - intros _. rewrite Hb, (proj2 (link_types r u Hr)). reflexivity.
    - intros _. destruct rd as [s|].
      + injection E0 as <-. left. exact Q.
      + right. split; [exact Q|]. eapply Rd. exact E0.
    - intros _. auto. }
  destruct M as [r' H|r' H|r' H|b lk H|i H|v H|n u' Hin' H].
  - pose proof (proj1 (proj2 (jouyou_fields e r' k H))) as T.
    split; rewrite T; unfold unofficial; intros K; repeat (destruct K as [K|K]; try discriminate K); discriminate.
  - pose proof (proj1 (jinmei_fields e r' k H)) as Nk. pose proof (proj1 (proj2 (jinmei_fields e r' k H))) as T.
    split; rewrite T; unfold unofficial; intros K; try (exfalso; repeat (destruct K as [K|K]; try discriminate K); discriminate).
    unfold makeJinmei in H. rewrite <- Nk, Fd in H.
    peel H u0 E2. inversion E2; subst u0. peel H rad E3. peel H st E1. peel H n E4. peel H y E5. peel H g E6. rename H into E7.
    apply newKanji_fields in E7.
    destruct E7 as [F1 [F2 [F3 [F4 [F5 [F6 [F7 [F8 [F9 [F10 [F11 [F12 [F13 F14]]]]]]]]]]]]]. rewrite F14. exact Tm.
  - pose proof (proj1 (extra_fields e r' k H)) as Nk. pose proof (proj1 (proj2 (extra_fields e r' k H))) as T.
    split; rewrite T; unfold unofficial; intros K; try (exfalso; repeat (destruct K as [K|K]; try discriminate K); discriminate).
    unfold makeExtra in H. rewrite <- Nk, Fd in H.
    peel H u0 E2. inversion E2; subst u0. peel H st E1. peel H rad E3. peel H n E4. rename H into E7.
    apply newKanji_fields in E7.
    destruct E7 as [F1 [F2 [F3 [F4 [F5 [F6 [F7 [F8 [F9 [F10 [F11 [F12 [F13 F14]]]]]]]]]]]]].
    eapply forms_of; [exact Hr|exact F11|]. rewrite F10. cbn [hasNonTraditional linkNames hasTraditional].
    unfold hasNonTraditionalLinks, hasTraditionalLinks, hasLinks.
    destruct (ucdLinks u) as [|l0 ls]; destruct (ucdLinkType u =? Link_Traditional), (ucdLinkType u =? Link_Traditional_R); reflexivity.
  - pose proof (proj1 (proj2 (linked_fields _ _ _ _ _ H))) as T.
    assert (T' : kType k = LinkedOld \/ kType k = LinkedJinmei) by (rewrite T; destruct b; auto).
    split; unfold unofficial; intro K; exfalso; destruct T' as [T'|T']; rewrite T' in K; repeat (destruct K as [K|K]; try discriminate K); discriminate.
  - unfold makeFrequency in H. rewrite Fd in H. cbn [obind] in H. pose proof (loadReadings_find _ _ _ msorted_nil (en_readings f e O) (kName k)) as L.
    eapply Oth; [exact H|left; reflexivity|]. rewrite Rn. destruct (mfind (kName k) (envReadings e)) as [s|].
    + split; [reflexivity|]. destruct L as [L|L]; [discriminate|exact L].
    + intros [_ K]. exact (proj2 L K).
  - unfold makeKentei in H. rewrite Fd in H. cbn [obind] in H. eapply Oth; [exact H|right; left; reflexivity|]. intros [K _]. discriminate.
  - assert (Nk : kName k = ucdName u') by (eapply ucdkanji_fields; exact H).
    assert (u' = u).
    { pose proof (mfind_In _ _ _ Hs Hin') as F. destruct Hu as [Hu _]. apply Hu in F as F'. destruct F' as [F1 F2].
      assert (mfind (kName k) (ucdMap (envUcd e)) = Some u') by (rewrite Nk, F2; exact F).
      rewrite (short_plain _ _ Hl) in Fd. congruence. }
    subst u'. unfold makeUcdKanji in H. eapply Oth; [exact H|right; right; reflexivity|]. intros [K _]. discriminate.
Qed.

Section Loading.
  Variable ltr : bool. Variable f : Files. Variable st : list_static. Variable m : N. Variable e : Env. Variable d : Data.
  Hypothesis Hf : files_ok f. Hypothesis Hl : loadData ltr f st m = Val (e, d).
  Lemma row_details :
    Forall2 (fun r k => jouyou_details r (kDetails k)) (jouyouRows f) (type_list d Jouyou)
    /\ Forall2 (fun r k => jinmei_details r (kDetails k)) (jinmeiRows f) (type_list d Jinmei)
    /\ Forall2 (fun r k => extra_details r (kDetails k)) (extraRows f) (type_list d Extra).
  Proof.
    destruct (loadData_loaded _ _ _ _ _ _ Hf Hl) as [O [M [js [ms [xs [lss [kss L]]]]]]].
    rewrite (lo_js_list _ _ _ _ _ _ _ _ L), (lo_ms_list _ _ _ _ _ _ _ _ L), (lo_xs_list _ _ _ _ _ _ _ _ L).
    split; [eapply rows_of; [intros r k K; eapply jouyou_details_of; eauto|apply L]|].
    split; [eapply rows_of; [intros r k K; eapply jinmei_details_of; eauto|apply L]|].
    eapply rows_of; [intros r k K; eapply extra_details_of; eauto|apply L].
  Qed.
  Lemma details_exact : Forall row_bytes (ucdRows f) -> forall r k, In r (ucdRows f) -> loaded_kanji d k -> kName k = rName r ->
    unicode_details (readingRows f) r k.
  Proof.
    intros Hb r k Hr Hk En. destruct (env_unicode ltr f st m e d Hf Hl Hb) as [us [U1 [U2 U3]]]. destruct (loadData_loaded _ _ _ _ _ _ Hf Hl) as [O [M [js [ms [xs [lss [kss L]]]]]]].
    destruct (forall2_in _ _ _ _ _ _ U1 Hr) as [u [Hu Ru]].
    apply (loaded_iff d k (lo_wf _ _ _ _ _ _ _ _ L)) in Hk. pose proof (is_name _ _ Ru) as [N1 [N2 _]].
    eapply made_details; [exact O|exact U2|exact U3|exact (M _ _ Hk)|congruence|exact Hu|congruence|exact Ru].
  Qed.
End Loading.
