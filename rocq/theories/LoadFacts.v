(** Lemmas about loading Kanji: the loaded data in terms of the files. *)
From Verif Require Import BaseFacts MapProofs ListProofs ColumnFileLemmas IdsProofs UcdSpec UcdProofs RadicalSpec RadicalProofs
  DataModel DataSpec DataProofs LoadModel LoadSpec LoadProofs LoadAttr LoadPhases LoadLists LoadEnv LoadWhole LoadMade.
Arguments N.mul : simpl never. Arguments N.add : simpl never. Arguments N.sub : simpl never.
Arguments N.div : simpl never.

Lemma loadData_loaded : forall ltr f st m e d, files_ok f -> loadData ltr f st m = Val (e, d) ->
  env_ok f e /\ All (made e) d /\ exists js ms xs lss kss, Loaded e f d js ms xs lss kss.
Proof.
  intros ltr f st m e d Hf H. unfold loadData in H. peel H e' E. peel H d' E'. inversion H; subst e' d'.
  pose proof (loadEnv_ok ltr f st e Hf E) as O. split; [exact O|]. split; [eapply loadKanji_made; exact E'|]. eapply loadKanji_loaded; eauto.
Qed.
Lemma loaded_iff : forall d k, Wf d -> (loaded_kanji d k <-> mfind (kName k) (dNames d) = Some k).
Proof. intros d k W. split; intro H; [apply mfind_In; [apply W|exact H]|apply In_mfind; exact H]. Qed.
Lemma found_loaded : forall d s k, Wf d -> findByName d s = Some k -> loaded_kanji d k.
Proof. intros d s k W H. apply found_in in H. destruct H as [n H]. apply In_mfind. rewrite (wf_own d W n k H). exact H. Qed.

(** ** Attributes *)
Section Loading.
  Variables (ltr : bool) (f : Files) (st : list_static) (m : N) (e : Env) (d : Data).
  Hypotheses (Hf : files_ok f) (Hl : loadData ltr f st m = Val (e, d)).
  Lemma kyu_exact : forall k, loaded_kanji d k ->
    (forall q, listed (kyuFiles f) q (kName k) -> kKyu k = q) /\ ((forall q, ~ listed (kyuFiles f) q (kName k)) -> kKyu k = NoKyu).
  Proof.
    intros k H. destruct (loadData_loaded _ _ _ _ _ _ Hf Hl) as [O [_ [js [ms [xs [lss [kss L]]]]]]].
    apply (loaded_iff d k (lo_wf _ _ _ _ _ _ _ _ L)) in H. pose proof (at_kyu _ _ (lo_attr _ _ _ _ _ _ _ _ L _ _ H)) as A. rewrite A.
    split; [intros q K; eapply kyu_of_file; eauto|intro K; eapply kyu_of_none; eauto].
  Qed.
  Lemma frequency_exact : forall k ws, loaded_kanji d k -> words (frequencyFile f) ws ->
    (forall i, kType k <> Extra -> nth_error ws i = Some (kName k) -> kFrequency k = N.of_nat i + 1)
    /\ (~ In (kName k) ws \/ kType k = Extra -> kFrequency k = 0).
  Proof.
    intros k ws H Hw. destruct (loadData_loaded _ _ _ _ _ _ Hf Hl) as [O [_ [js [ms [xs [lss [kss L]]]]]]].
    apply (loaded_iff d k (lo_wf _ _ _ _ _ _ _ _ L)) in H. pose proof (lo_attr _ _ _ _ _ _ _ _ L _ _ H) as A.
    destruct (frequency_of_file f e ws O Hw) as [X1 X2]. split.
    - intros i T K. rewrite (at_freq _ _ A T). apply X1. exact K.
    - destruct (ktype_dec (kType k) Extra) as [T|T]; [intros _; apply (at_extra _ _ A T)|].
      intros [K|K]; [rewrite (at_freq _ _ A T); apply X2; exact K|contradiction].
  Qed.
  Lemma grade_exact : forall k, loaded_kanji d k -> (kGrade k <> NoGrade <-> kType k = Jouyou).
  Proof.
    intros k H. destruct (loadData_loaded _ _ _ _ _ _ Hf Hl) as [O [_ [js [ms [xs [lss [kss L]]]]]]].
    apply (loaded_iff d k (lo_wf _ _ _ _ _ _ _ _ L)) in H. apply (at_grade _ _ (lo_attr _ _ _ _ _ _ _ _ L _ _ H)).
  Qed.
  (** a Kanji with a level is of one of two types *)
  Lemma level_types : forall k, All (made e) d -> mfind (kName k) (dNames d) = Some k -> attr e k -> hasLevel k = true -> kType k = Jouyou \/ kType k = Jinmei.
  Proof.
    intros k M H A Hk. pose proof (M _ _ H) as Mk.
    assert (Hn : kLevel k <> NoLevel) by (intro K; unfold hasLevel in Hk; rewrite K in Hk; discriminate).
    destruct Mk as [r Q|r Q|r Q|b lk Q|i Q|v Q|n u _ Q].
    - left. exact (proj1 (proj2 (jouyou_fields e r k Q))).
    - right. exact (proj1 (proj2 (jinmei_fields e r k Q))).
    - exfalso. apply Hn. apply (at_hidden _ _ A). left. exact (proj1 (proj2 (extra_fields e r k Q))).
    - exfalso. apply Hn. apply (at_hidden _ _ A). right. apply linked_fields in Q. destruct Q as [_ [Q _]]. rewrite Q. destruct b; auto.
    - exfalso. apply Hn. assert (J : makeFrequency e i (kName k) = Val k) by exact Q. apply frequency_fields in J. destruct J as [_ [_ [_ [_ [_ J]]]]]. exact J.
    - exfalso. apply Hn. assert (J : makeKentei e v (kName k) = Val k) by exact Q. apply kentei_fields in J. destruct J as [_ [_ [_ [_ [_ J]]]]]. exact J.
    - exfalso. apply Hn. assert (J : makeUcdKanji e u = Val k) by exact Q. apply ucdkanji_fields in J. destruct J as [_ [_ [_ [_ [_ J]]]]]. exact J.
  Qed.
  Lemma listed_level_has : forall js ms xs lss kss, env_ok f e -> Loaded e f d js ms xs lss kss -> forall v s k, listed (levelFiles f) v s ->
    findByName d s = Some k -> kName k = s -> hasLevel k = true.
  Proof.
    intros js ms xs lss kss O L v s k [c [ws [H1 [H2 H3]]]] F E. pose proof (lo_wf _ _ _ _ _ _ _ _ L) as W.
    destruct (list_for_file _ _ _ _ _ (en_levels f e O) H1) as [g [G1 G2]]. pose proof (words_unique c ws _ H2 G2). subst ws.
    destruct (forall2_in _ _ _ _ _ _ (lo_levels _ _ _ _ _ _ _ _ L) G1) as [ks [K1 K2]]. cbn [snd] in K2.
    destruct (forall2_in _ _ _ _ _ _ K2 H3) as [k' [K3 K4]].
    assert (Own : own_name d s) by (intros y Y; congruence).
    destruct (found_then_own d s k' W K4 Own) as [F' _]. assert (k' = k) by congruence. subst k'.
    pose proof (lo_level_has _ _ _ _ _ _ _ _ L) as HL. rewrite Forall_forall in HL. apply HL. apply in_concat. exists ks. auto.
  Qed.
  Lemma level_exact : forall s k, findByName d s = Some k -> kName k = s ->
    (forall v, listed (levelFiles f) v s -> kLevel k = v /\ (kType k = Jouyou \/ kType k = Jinmei))
    /\ ((forall v, ~ listed (levelFiles f) v s) -> kLevel k = NoLevel).
  Proof.
    intros s k F E. destruct (loadData_loaded _ _ _ _ _ _ Hf Hl) as [O [M [js [ms [xs [lss [kss L]]]]]]].
    pose proof (lo_wf _ _ _ _ _ _ _ _ L) as W. pose proof (found_loaded d s k W F) as H. apply (loaded_iff d k W) in H.
    pose proof (lo_attr _ _ _ _ _ _ _ _ L _ _ H) as A. split.
    - intros v K. pose proof (listed_level_has _ _ _ _ _ O L v s k K F E) as HL. pose proof (level_types k M H A HL) as T.
      split; [|exact T]. rewrite (at_level _ _ A) by (destruct T; congruence). rewrite E. eapply level_of_file; eauto.
    - intro K. destruct (hasLevel k) eqn:HL.
      + pose proof (level_types k M H A HL) as T. rewrite (at_level _ _ A) by (destruct T; congruence). rewrite E. eapply level_of_none; eauto.
      + unfold hasLevel in HL. destruct (kLevel k); try discriminate; reflexivity.
  Qed.

  Lemma level_every : forall k, loaded_kanji d k ->
    (kType k = Jouyou \/ kType k = Jinmei ->
       (forall v, listed (levelFiles f) v (kName k) -> kLevel k = v) /\ ((forall v, ~ listed (levelFiles f) v (kName k)) -> kLevel k = NoLevel))
    /\ (kType k <> Jouyou -> kType k <> Jinmei -> kLevel k = NoLevel).
  Proof.
    intros k H. destruct (loadData_loaded _ _ _ _ _ _ Hf Hl) as [O [M [js [ms [xs [lss [kss L]]]]]]].
    apply (loaded_iff d k (lo_wf _ _ _ _ _ _ _ _ L)) in H. pose proof (lo_attr _ _ _ _ _ _ _ _ L _ _ H) as A. split.
    - intro T. rewrite (at_level _ _ A) by (destruct T; congruence).
      split; [intros v K; eapply level_of_file; eauto|intro K; eapply level_of_none; eauto].
    - intros T1 T2. destruct (hasLevel k) eqn:HL; [destruct (level_types k M H A HL); contradiction|].
      unfold hasLevel in HL. destruct (kLevel k); try discriminate; reflexivity.
  Qed.

  (** ** The lists of levels and kyus *)
  Lemma pick : forall A (num : A -> N) (g : Kanji -> N) (R : A * ListFile -> list Kanji -> Prop) ls kss,
    (forall a b, num a = num b -> a = b) ->
    Forall2 (fun p ks => R p ks /\ Forall (fun k => g k = num (fst p)) ks) ls kss -> NoDup (map fst ls) ->
    (forall v, ~ In v (map fst ls) -> filter (fun k => g k =? num v) (concat kss) = [])
    /\ forall p, In p ls -> R p (filter (fun k => g k =? num (fst p)) (concat kss)).
  Proof.
    intros A num g R ls kss Inj H. induction H as [|p ks ls kss [H1 H2] _ IH]; intro Hn; [split; [reflexivity|intros p []]|].
    cbn [map] in Hn. inversion Hn as [|? ? Hn1 Hn2]; subst. destruct (IH Hn2) as [I1 I2]. clear IH.
    assert (Same : forall v, filter (fun k => g k =? num v) ks = if num (fst p) =? num v then ks else []).
    { intro v. clear -H2. induction H2 as [|k ks Hk _ IH]; [destruct (num (fst p) =? num v); reflexivity|]. cbn [filter]. rewrite Hk, IH.
      destruct (num (fst p) =? num v); reflexivity. }
    split.
    - intros v Hv. cbn [concat]. rewrite filter_app, Same, I1 by (intro K; apply Hv; right; exact K).
      destruct (N.eqb_spec (num (fst p)) (num v)) as [K|K]; [|reflexivity]. exfalso. apply Hv. left. apply Inj. exact K.
    - intros q [<-|Hq]; cbn [concat]; rewrite filter_app, Same.
      + rewrite N.eqb_refl, I1 by exact Hn1. rewrite app_nil_r. exact H1.
      + destruct (N.eqb_spec (num (fst p)) (num (fst q))) as [K|K]; [|apply I2; exact Hq].
        exfalso. apply Hn1. apply Inj in K. rewrite K. apply in_map. exact Hq.
  Qed.
  Lemma levelNumber_inj : forall a b, levelNumber a = levelNumber b -> a = b.
  Proof. intros [] [] H; try reflexivity; discriminate. Qed.
  Lemma kyuNumber_inj : forall a b, kyuNumber a = kyuNumber b -> a = b.
  Proof. intros [] [] H; try reflexivity; discriminate. Qed.
  Lemma nodup_levels : NoDup AllLevels.
  Proof. repeat constructor; cbn; intuition discriminate. Qed.
  Lemma nodup_kyus : NoDup AllKyus.
  Proof. repeat constructor; cbn; intuition discriminate. Qed.
  Definition finds (s : bytes) (k : Kanji) : Prop := findByName d s = Some k /\ kName k = s.
  Lemma own_finds : forall l ks, Wf d -> (forall s, In s l -> own_name d s) -> Forall2 (found_then d) l ks -> Forall2 finds l ks.
  Proof.
    intros l ks W H F. induction F as [|s k l ks Q _ IH]; constructor; [apply found_then_own; [exact W|exact Q|apply H; left; reflexivity]|].
    apply IH. intros x Hx. apply H. right. exact Hx.
  Qed.
  Lemma level_lists : (forall v s, listed (levelFiles f) v s -> own_name d s) ->
    forall v c ws, In (v, c) (levelFiles f) -> words c ws -> Forall2 finds ws (level_list d v).
  Proof.
    intros Own v c ws Hc Hw. destruct (loadData_loaded _ _ _ _ _ _ Hf Hl) as [O [M [js [ms [xs [lss [kss L]]]]]]].
    pose proof (lo_wf _ _ _ _ _ _ _ _ L) as W.
    destruct (list_for_file _ _ _ _ _ (en_levels f e O) Hc) as [g [G1 G2]]. pose proof (words_unique c ws _ Hw G2). subst ws.
    assert (Each : Forall2 (fun p ks => Forall2 finds (listOf (snd p)) ks /\ Forall (fun k => levelNumber (kLevel k) = levelNumber (fst p)) ks) (envLevels e) lss).
    { pose proof (lo_levels _ _ _ _ _ _ _ _ L) as F.
      assert (In_env : forall p, In p (envLevels e) -> forall s, In s (listOf (snd p)) -> listed (levelFiles f) (fst p) s).
      { intros [a h] Hp s Hs. destruct (list_for_in _ _ _ _ _ (en_levels f e O) Hp) as [c' [C1 C2]]. exists c', (listOf h). auto. }
      clear L. revert F In_env. generalize (envLevels e) as ls. intros ls F. induction F as [|p ks ls' lss' Q _ IH]; intro In_env; constructor.
      - assert (Fi : Forall2 finds (listOf (snd p)) ks).
        { apply own_finds; [exact W| |exact Q]. intros s Hs. apply (Own (fst p)). apply (In_env p (or_introl eq_refl)). exact Hs. }
        split; [exact Fi|]. apply Forall_forall. intros k Hk. destruct (forall2_in_r _ _ _ _ _ _ Fi Hk) as [s [Hs [F1 F2]]].
        pose proof (In_env p (or_introl eq_refl) s Hs) as Ls. destruct (level_exact s k F1 F2) as [X _]. rewrite (proj1 (X _ Ls)). reflexivity.
      - apply IH. intros q Hq. apply In_env. right. exact Hq. }
    assert (Nd : NoDup (map fst (envLevels e))).
    { rewrite <- (list_for_keys _ _ _ (en_levels f e O)). destruct Hf as [H1 _]. rewrite H1. exact nodup_levels. }
    destruct (pick _ levelNumber (fun k => levelNumber (kLevel k)) (fun p ks => Forall2 finds (listOf (snd p)) ks) _ _ levelNumber_inj Each Nd) as [_ P].
    specialize (P (v, g) G1). cbn [fst snd] in P. unfold level_list. rewrite (lo_level_lists _ _ _ _ _ _ _ _ L). exact P.
  Qed.
  Lemma kyu_lists : (forall v s, listed (kyuFiles f) v s -> own_name d s) ->
    forall v c ws, In (v, c) (kyuFiles f) -> words c ws -> Forall2 finds ws (kyu_list d v).
  Proof.
    intros Own v c ws Hc Hw. destruct (loadData_loaded _ _ _ _ _ _ Hf Hl) as [O [M [js [ms [xs [lss [kss L]]]]]]].
    pose proof (lo_wf _ _ _ _ _ _ _ _ L) as W.
    destruct (list_for_file _ _ _ _ _ (en_kyus f e O) Hc) as [g [G1 G2]]. pose proof (words_unique c ws _ Hw G2). subst ws.
    assert (Each : Forall2 (fun p ks => Forall2 finds (listOf (snd p)) ks /\ Forall (fun k => kyuNumber (kKyu k) = kyuNumber (fst p)) ks) (envKyus e) kss).
    { pose proof (lo_kyus _ _ _ _ _ _ _ _ L) as F.
      assert (In_env : forall p, In p (envKyus e) -> forall s, In s (listOf (snd p)) -> listed (kyuFiles f) (fst p) s).
      { intros [a h] Hp s Hs. destruct (list_for_in _ _ _ _ _ (en_kyus f e O) Hp) as [c' [C1 C2]]. exists c', (listOf h). auto. }
      clear L. revert F In_env. generalize (envKyus e) as ls. intros ls F. induction F as [|p ks ls' kss' Q _ IH]; intro In_env; constructor.
      - assert (Fi : Forall2 finds (listOf (snd p)) ks).
        { apply own_finds; [exact W| |exact Q]. intros s Hs. apply (Own (fst p)). apply (In_env p (or_introl eq_refl)). exact Hs. }
        split; [exact Fi|]. apply Forall_forall. intros k Hk. destruct (forall2_in_r _ _ _ _ _ _ Fi Hk) as [s [Hs [F1 F2]]].
        pose proof (In_env p (or_introl eq_refl) s Hs) as Ls. rewrite <- F2 in Ls. destruct (kyu_exact k (found_loaded d s k W F1)) as [X _]. rewrite (X _ Ls). reflexivity.
      - apply IH. intros q Hq. apply In_env. right. exact Hq. }
    assert (Nd : NoDup (map fst (envKyus e))).
    { rewrite <- (list_for_keys _ _ _ (en_kyus f e O)). destruct Hf as [_ [H1 _]]. rewrite H1. exact nodup_kyus. }
    destruct (pick _ kyuNumber (fun k => kyuNumber (kKyu k)) (fun p ks => Forall2 finds (listOf (snd p)) ks) _ _ kyuNumber_inj Each Nd) as [_ P].
    specialize (P (v, g) G1). cbn [fst snd] in P. unfold kyu_list. rewrite (lo_kyu_lists _ _ _ _ _ _ _ _ L). exact P.
  Qed.

  (** ** The lists of types *)
  Lemma type_singly : forall t, made_singly t -> (forall k, In k (type_list d t) <-> loaded_kanji d k /\ kType k = t) /\ NoDup (map kName (type_list d t)).
  Proof.
    intros t T. destruct (loadData_loaded _ _ _ _ _ _ Hf Hl) as [O [M [js [ms [xs [lss [kss L]]]]]]].
    destruct (lo_auto _ _ _ _ _ _ _ _ L t T) as [A1 A2]. split; [|exact A2]. intro k. rewrite A1, (loaded_iff d k (lo_wf _ _ _ _ _ _ _ _ L)). reflexivity.
  Qed.
  Lemma type_rows :
    Forall2 jouyou_row (jouyouRows f) (type_list d Jouyou) /\ Forall2 jinmei_row (jinmeiRows f) (type_list d Jinmei)
    /\ Forall2 extra_row (extraRows f) (type_list d Extra)
    /\ (forall k, loaded_kanji d k -> kType k = Jouyou \/ kType k = Jinmei \/ kType k = Extra -> In k (type_list d (kType k)))
    /\ (forall t k, t = Jouyou \/ t = Jinmei \/ t = Extra -> In k (type_list d t) -> exists k', loaded_kanji d k' /\ kName k' = kName k).
  Proof.
    destruct (loadData_loaded _ _ _ _ _ _ Hf Hl) as [O [M [js [ms [xs [lss [kss L]]]]]]]. pose proof (lo_wf _ _ _ _ _ _ _ _ L) as W.
    rewrite (lo_js_list _ _ _ _ _ _ _ _ L), (lo_ms_list _ _ _ _ _ _ _ _ L), (lo_xs_list _ _ _ _ _ _ _ _ L).
    split; [eapply rows_of; [intros r k K; eapply jouyou_row_of; eauto|apply L]|].
    split; [eapply rows_of; [intros r k K; eapply jinmei_row_of; eauto|apply L]|].
    split; [eapply rows_of; [intros r k K; eapply extra_row_of; eauto|apply L]|]. split.
    - intros k Hk T. apply (loaded_iff d k W) in Hk. destruct T as [T|[T|T]]; rewrite T.
      + rewrite (lo_js_list _ _ _ _ _ _ _ _ L). apply (lo_from_js _ _ _ _ _ _ _ _ L _ _ Hk T).
      + rewrite (lo_ms_list _ _ _ _ _ _ _ _ L). apply (lo_from_ms _ _ _ _ _ _ _ _ L _ _ Hk T).
      + rewrite (lo_xs_list _ _ _ _ _ _ _ _ L). apply (lo_from_xs _ _ _ _ _ _ _ _ L _ _ Hk T).
    - intros t k T Hk.
      assert (Hin : In k (js ++ ms ++ xs)).
      { destruct T as [T|[T|T]]; subst t.
        - rewrite (lo_js_list _ _ _ _ _ _ _ _ L) in Hk. apply in_or_app. left. exact Hk.
        - rewrite (lo_ms_list _ _ _ _ _ _ _ _ L) in Hk. apply in_or_app. right. apply in_or_app. left. exact Hk.
        - rewrite (lo_xs_list _ _ _ _ _ _ _ _ L) in Hk. apply in_or_app. right. apply in_or_app. right. exact Hk. }
      pose proof (lo_found_rows _ _ _ _ _ _ _ _ L k Hin) as Fd. destruct (mfind (kName k) (dNames d)) as [k'|] eqn:E; [|congruence].
      exists k'. split; [|exact (wf_own d W _ _ E)]. apply (loaded_iff d k' W). rewrite (wf_own d W _ _ E). exact E.
  Qed.

  (** ** Names *)
  Lemma name_found : forall s, mfind s (dNames d) <> None -> Wf d -> findByName d s <> None.
  Proof.
    intros s H W. unfold findByName. destruct (mfind s (dCompat d)) as [n|] eqn:E; [|exact H].
    destruct (wf_target d W s n E) as [x [X _]]. congruence.
  Qed.
  Lemma rows_found : forall r, In r (jouyouRows f ++ jinmeiRows f ++ extraRows f) -> findByName d (krName r) <> None.
  Proof.
    intros r Hr. destruct (loadData_loaded _ _ _ _ _ _ Hf Hl) as [O [M [js [ms [xs [lss [kss L]]]]]]]. pose proof (lo_wf _ _ _ _ _ _ _ _ L) as W.
    apply name_found; [|exact W].
    assert (K : exists k, In k (js ++ ms ++ xs) /\ kName k = krName r).
    { apply in_app_or in Hr. destruct Hr as [Hr|Hr].
      - destruct (forall2_in _ _ _ _ _ _ (lo_js _ _ _ _ _ _ _ _ L) Hr) as [k [K1 K2]]. exists k.
        split; [apply in_or_app; left; exact K1|apply (jouyou_fields _ _ _ K2)].
      - apply in_app_or in Hr. destruct Hr as [Hr|Hr].
        + destruct (forall2_in _ _ _ _ _ _ (lo_ms _ _ _ _ _ _ _ _ L) Hr) as [k [K1 K2]]. exists k.
          split; [apply in_or_app; right; apply in_or_app; left; exact K1|apply (jinmei_fields _ _ _ K2)].
        + destruct (forall2_in _ _ _ _ _ _ (lo_xs _ _ _ _ _ _ _ _ L) Hr) as [k [K1 K2]]. exists k.
          split; [apply in_or_app; right; apply in_or_app; right; exact K1|apply (extra_fields _ _ _ K2)]. }
    destruct K as [k [K1 <-]]. exact (lo_found_rows _ _ _ _ _ _ _ _ L k K1).
  Qed.
  Lemma old_names_found : forall k j, loaded_kanji d k -> kType k = Jouyou \/ kType k = Jinmei -> In j (kOldNames k) -> findByName d j <> None.
  Proof.
    intros k j Hk T Hj. destruct (loadData_loaded _ _ _ _ _ _ Hf Hl) as [O [M [js [ms [xs [lss [kss L]]]]]]]. pose proof (lo_wf _ _ _ _ _ _ _ _ L) as W.
    apply (loaded_iff d k W) in Hk. destruct T as [T|T].
    - eapply (lo_found_old _ _ _ _ _ _ _ _ L); eauto.
    - apply name_found; [|exact W]. eapply (lo_found_old_jinmei _ _ _ _ _ _ _ _ L); [|exact Hj]. apply (lo_from_ms _ _ _ _ _ _ _ _ L _ _ Hk T).
  Qed.
  Lemma lines_found : forall j s, linked_names (linkedFile f) j s -> findByName d j <> None /\ findByName d s <> None.
  Proof.
    intros j s [ls [line [rest [H1 [H2 H3]]]]]. destruct (loadData_loaded _ _ _ _ _ _ Hf Hl) as [O [M [js [ms [xs [lss [kss L]]]]]]]. pose proof (lo_wf _ _ _ _ _ _ _ _ L) as W.
    apply cut_getlines in H1, H3. subst ls. destruct (lo_found_lines _ _ _ _ _ _ _ _ L line H2) as [j' [s' [r' [Q1 [Q2 Q3]]]]].
    rewrite Q1 in H3. inversion H3; subst. split; apply name_found; assumption.
  Qed.
  Lemma lists_found_all : forall s, (exists v, listed (levelFiles f) v s) \/ (exists v, listed (kyuFiles f) v s) \/ (exists ws, words (frequencyFile f) ws /\ In s ws) ->
    findByName d s <> None.
  Proof.
    intros s H. destruct (loadData_loaded _ _ _ _ _ _ Hf Hl) as [O [M [js [ms [xs [lss [kss L]]]]]]]. pose proof (lo_wf _ _ _ _ _ _ _ _ L) as W.
    destruct H as [[v [c [ws [H1 [H2 H3]]]]]|[[v [c [ws [H1 [H2 H3]]]]]|[ws [H1 H2]]]].
    - destruct (list_for_file _ _ _ _ _ (en_levels f e O) H1) as [g [G1 G2]]. pose proof (words_unique c ws _ H2 G2). subst ws.
      eapply lists_found; [exact W|apply L|exact G1|exact H3].
    - destruct (list_for_file _ _ _ _ _ (en_kyus f e O) H1) as [g [G1 G2]]. pose proof (words_unique c ws _ H2 G2). subst ws.
      eapply lists_found; [exact W|apply (lo_kyus _ _ _ _ _ _ _ _ L)|exact G1|exact H3].
    - pose proof (words_unique _ _ _ H1 (en_freq f e O)). subst ws. apply (lo_found_freq _ _ _ _ _ _ _ _ L). exact H2.
  Qed.

  (** ** Unicode *)
  Lemma loadUcd_holds : forall rows u0 us u, Forall row_bytes rows -> sorted_data u0 -> UcdSpec.holds u0 us ->
    NoDup (map ucdName us) -> NoDup (map fst (jinmei_links us)) -> loadUcd rows u0 = Val u ->
    exists vs, Forall2 row_is rows vs /\ UcdSpec.holds u (us ++ vs) /\ sorted_data u.
  Proof.
    induction rows as [|r rows IH]; intros u0 us u Hb Sd Hh N1 N2 H; cbn [loadUcd] in H.
    - inversion H; subst. exists []. rewrite app_nil_r. auto.
    - apply Forall_cons_iff in Hb. destruct Hb as [Hr Hb]. rewrite loadRow_add in H by exact Hr. destruct (exact_row r Hr) as [X1 _].
      destruct (rowUcd r) as [v| | |] eqn:E; cbn [obind] in H; try discriminate. pose proof (proj1 (X1 v) eq_refl) as Rv.
      destruct (addUcd v u0) as [u1| | |] eqn:E1; cbn [obind] in H; try discriminate.
      destruct (addUcd_spec v u0 us Sd Hh N1 N2) as [A1 A2].
      destruct (ListDec.NoDup_dec bytes_eq_dec (map ucdName (us ++ [v]))) as [P1|P1]; [|exfalso; assert (KK := A2 ltac:(tauto)); rewrite E1 in KK; discriminate KK].
      destruct (ListDec.NoDup_dec bytes_eq_dec (map fst (jinmei_links (us ++ [v])))) as [P2|P2]; [|exfalso; assert (KK := A2 ltac:(tauto)); rewrite E1 in KK; discriminate KK].
      destruct (A1 P1 P2) as [u2 [K [S1 Hd1]]]. rewrite E1 in K. injection K as <-.
      destruct (IH u1 (us ++ [v]) u Hb S1 Hd1 P1 P2 H) as [vs [V1 [V2 V3]]]. exists (v :: vs). split; [constructor; assumption|].
      split; [|exact V3]. rewrite <- app_assoc in V2. exact V2.
  Qed.
  Lemma env_unicode : Forall row_bytes (ucdRows f) -> exists us, Forall2 row_is (ucdRows f) us /\ UcdSpec.holds (envUcd e) us /\ msorted (ucdMap (envUcd e)).
  Proof.
    intro Hb. destruct (loadData_loaded _ _ _ _ _ _ Hf Hl) as [O _].
    assert (S0 : sorted_data emptyUcdData) by (repeat split; apply msorted_nil).
    assert (H0 : UcdSpec.holds emptyUcdData []).
    { split; [|split]; cbn; [intros n u|intros l n|intro l]; [split; [discriminate|tauto]|split; [discriminate|tauto]|reflexivity]. }
    destruct (loadUcd_holds (ucdRows f) emptyUcdData [] (envUcd e) Hb S0 H0 ltac:(constructor) ltac:(constructor) (en_ucd f e O)) as [vs [V1 [V2 [V3 _]]]].
    exists vs. auto.
  Qed.
  Lemma unicode_found : Forall row_bytes (ucdRows f) -> forall r, In r (ucdRows f) -> findByName d (rName r) <> None.
  Proof.
    intros Hb r Hr. destruct (env_unicode Hb) as [us [U1 [[U2 _] U3]]]. destruct (loadData_loaded _ _ _ _ _ _ Hf Hl) as [O [M [js [ms [xs [lss [kss L]]]]]]].
    destruct (forall2_in _ _ _ _ _ _ U1 Hr) as [u [Hu Ru]]. pose proof (proj1 (is_name _ _ Ru)) as En. rewrite <- En.
    eapply (lo_found_ucd _ _ _ _ _ _ _ _ L (ucdName u)). apply In_mfind. apply U2. auto.
  Qed.
  Lemma unicode_exact : Forall row_bytes (ucdRows f) -> forall r u k, In r (ucdRows f) -> row_is r u -> loaded_kanji d k -> kName k = rName r -> from_unicode u k.
  Proof.
    intros Hb r u k Hr Ru Hk En. destruct (env_unicode Hb) as [us [U1 [U2 U3]]]. destruct (loadData_loaded _ _ _ _ _ _ Hf Hl) as [O [M [js [ms [xs [lss [kss L]]]]]]].
    destruct (forall2_in _ _ _ _ _ _ U1 Hr) as [v [Hv Rv]]. rewrite Forall_forall in Hb. pose proof (row_unique r u v (Hb r Hr) Ru Rv). subst v.
    apply (loaded_iff d k (lo_wf _ _ _ _ _ _ _ _ L)) in Hk. pose proof (is_name _ _ Ru) as [N1 [N2 _]].
    eapply made_unicode; [exact O|exact U2|exact U3|exact (M _ _ Hk)|congruence|exact Hv|congruence].
  Qed.

  (** ** Linked Kanji *)
  Lemma linked_old : forall k, loaded_kanji d k -> kType k = LinkedOld ->
    exists link, loaded_kanji d link /\ kType link = Jouyou /\ In (kName k) (kOldNames link) /\ linked_to k link.
  Proof.
    intros k Hk T. destruct (loadData_loaded _ _ _ _ _ _ Hf Hl) as [O [M [js [ms [xs [lss [kss L]]]]]]]. pose proof (lo_wf _ _ _ _ _ _ _ _ L) as W.
    apply (loaded_iff d k W) in Hk. destruct (lo_from_old _ _ _ _ _ _ _ _ L _ _ Hk T) as [lk [Q1 [Q2 Q3]]]. exists lk.
    apply linked_fields in Q3. destruct Q3 as [_ [_ [_ [R1 [R3|[R3 _]]]]]]; [|discriminate].
    split; [apply (loaded_iff d lk W); exact Q1|]. split; [exact R3|]. split; [exact Q2|exact R1].
  Qed.
  Lemma linked_jinmei : forall k, loaded_kanji d k -> kType k = LinkedJinmei ->
    exists link, linked_to k link
    /\ ((loaded_kanji d link /\ (kType link = Jouyou \/ kType link = Jinmei) /\ linked_names (linkedFile f) (kName link) (kName k))
        \/ (In link (type_list d Jinmei) /\ In (kName k) (kOldNames link))).
  Proof.
    intros k Hk T. destruct (loadData_loaded _ _ _ _ _ _ Hf Hl) as [O [M [js [ms [xs [lss [kss L]]]]]]]. pose proof (lo_wf _ _ _ _ _ _ _ _ L) as W.
    apply (loaded_iff d k W) in Hk. destruct (lo_from_linked _ _ _ _ _ _ _ _ L _ _ Hk T) as [[li [j [rs [lk [Q1 [Q2 [Q3 Q4]]]]]]]|[lk [Q1 [Q2 Q3]]]]; exists lk.
    - apply linked_fields in Q4. destruct Q4 as [_ [_ [_ [R1 R3]]]]. split; [exact R1|]. left.
      pose proof (wf_own d W _ _ Q3) as Nj. subst j. split; [apply (loaded_iff d lk W); exact Q3|]. split; [tauto|].
      exists (getlines 10 (linkedFile f)), li, rs. split; [apply cut_getlines; reflexivity|]. split; [exact Q1|]. apply cut_getlines. symmetry. exact Q2.
    - apply linked_fields in Q3. destruct Q3 as [_ [_ [_ [R1 _]]]]. split; [exact R1|]. right. rewrite (lo_ms_list _ _ _ _ _ _ _ _ L). auto.
  Qed.
End Loading.
