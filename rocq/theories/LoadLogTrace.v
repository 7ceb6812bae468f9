(** Lemmas about the messages of loading: they do not change what is loaded, and they follow from the sequence of
    insertions. *)
From Verif Require Import BaseFacts MapProofs DataModel DataSpec DataProofs LoadModel LoadSpec LoadProofs LoadAttr LoadPhases LoadLists LoadLogModel.
Arguments N.mul : simpl never. Arguments N.add : simpl never. Arguments N.sub : simpl never.
Arguments N.div : simpl never.

(** ** The result is that of the function without messages *)
Lemma lbind_snd : forall A B (m : L A) (f : A -> L B), snd (lbind m f) = (x <- snd m ;; snd (f x)).
Proof.
  intros A B [w r] f. unfold lbind. destruct r; cbn [snd obind]; try reflexivity. destruct (f a). reflexivity.
Qed.
Lemma lbind_val : forall A B (m : L A) (f : A -> L B) y, snd (lbind m f) = Val y ->
  exists x, snd m = Val x /\ snd (f x) = Val y /\ fst (lbind m f) = fst m ++ fst (f x).
Proof.
  intros A B [w r] f y H. unfold lbind in *. destruct r; try discriminate. exists a. cbn [fst snd] in *.
  destruct (f a) as [w' r']. cbn [fst snd] in *. auto.
Qed.
Lemma obind_ext : forall A B (x : out A) (f g : A -> out B), (forall a, f a = g a) -> (y <- x ;; f y) = (y <- x ;; g y).
Proof. intros A B x f g H. destruct x; cbn [obind]; [apply H|reflexivity..]. Qed.
Ltac erase := rewrite lbind_snd; cbn [llift lsay snd].

Lemma insertAll_erase : forall e ks d, snd (insertAllL e d ks) = insertAll d ks.
Proof.
  intros e. induction ks as [|k ks IH]; intro d; cbn [insertAllL insertAll]; [reflexivity|].
  erase. cbn [checkInsertL snd]. apply obind_ext. intros [d' b]. apply IH.
Qed.
Lemma loadPlain_erase : forall e make t rows d, snd (loadPlainL e make t rows d) = loadPlain make t rows d.
Proof.
  intros. unfold loadPlainL, loadPlain. erase. apply obind_ext. intro ks. erase. rewrite insertAll_erase. reflexivity.
Qed.
Lemma loadLinkedLines_erase : forall e lines d, snd (loadLinkedLinesL e lines d) = loadLinkedLines e lines d.
Proof.
  intros e. induction lines as [|line r IH]; intro d; cbn [loadLinkedLinesL loadLinkedLines]; [reflexivity|].
  destruct (getlines 9 line) as [|j [|s t]]; try reflexivity. destruct (mfind j (dNames d)) as [i|]; [|reflexivity].
  erase. apply obind_ext. intro k. erase. cbn [checkInsertTypeL snd]. apply obind_ext. intros [d' b]. apply IH.
Qed.
Lemma loadOldNames_erase : forall e link names d, snd (loadOldNamesL e link names d) = loadOldNames e link names d.
Proof.
  intros e link. induction names as [|j r IH]; intro d; cbn [loadOldNamesL loadOldNames]; [reflexivity|].
  destruct (findByName d j); [apply IH|]. erase. apply obind_ext. intro k. erase. cbn [checkInsertTypeL snd].
  apply obind_ext. intros [d' b]. apply IH.
Qed.
Lemma loadOld_erase : forall e l d, snd (loadOldL e l d) = loadOld e l d.
Proof.
  intros e. induction l as [|[n k] l IH]; intro d; cbn [loadOldL loadOld]; [reflexivity|].
  erase. rewrite loadOldNames_erase. apply obind_ext. intro d'. apply IH.
Qed.
Lemma loadLinkedNames_erase : forall e link names d, snd (loadLinkedNamesL e link names d) = loadLinkedNames e link names d.
Proof.
  intros e link. induction names as [|j r IH]; intro d; cbn [loadLinkedNamesL loadLinkedNames]; [reflexivity|].
  erase. apply obind_ext. intro k. erase. cbn [checkInsertTypeL snd]. apply obind_ext. intros [d' b]. apply IH.
Qed.
Lemma insertJinmei_erase : forall e ks d, snd (insertJinmeiL e ks d) = insertJinmei e ks d.
Proof.
  intros e. induction ks as [|k ks IH]; intro d; cbn [insertJinmeiL insertJinmei]; [reflexivity|].
  erase. cbn [checkInsertL snd]. apply obind_ext. intros [d' b]. erase. rewrite loadLinkedNames_erase.
  apply obind_ext. intro d2. apply IH.
Qed.
Lemma loadJinmei_erase : forall e rows d, snd (loadJinmeiL e rows d) = loadJinmei e rows d.
Proof.
  intros. unfold loadJinmeiL, loadJinmei. erase. apply obind_ext. intro ks. erase. rewrite insertJinmei_erase. reflexivity.
Qed.
Lemma processLoop_erase : forall e kind make l i d s,
  (x <- snd (processLoopL e kind make i l d s) ;; Val (fst x)) = processLoop kind make i l d.
Proof.
  intros e kind make. induction l as [|name r IH]; intros i d s; cbn [processLoopL processLoop]; [reflexivity|].
  assert (Next : forall d1 k s1,
    (x <- snd (let* d := llift (match kind with
                       | DataModel.KyuList _ => addToKyus d1 k
                       | DataModel.LevelList => addToLevels d1 k
                       | FrequencyList => Val (addToFrequencies d1 k)
                       end) in processLoopL e kind make (i + 1) r d s1) ;; Val (fst x))
    = (d <- match kind with
            | DataModel.KyuList _ => addToKyus d1 k
            | DataModel.LevelList => addToLevels d1 k
            | FrequencyList => Val (addToFrequencies d1 k)
            end ;; processLoop kind make (i + 1) r d)).
  { intros d1 k s1. erase. destruct (match kind with DataModel.LevelList => _ | _ => _ end); cbn [obind]; try reflexivity. apply IH. }
  erase. destruct (findByName d name) as [k|].
  - cbn [llift snd obind]. apply Next.
  - erase. destruct (make (i + 1) name) as [k| | |]; cbn [obind]; try reflexivity.
    erase. cbn [checkInsertTypeL snd]. destruct (checkInsertType d _ k) as [[d' b]| | |]; cbn [obind]; try reflexivity.
    cbn [llift snd obind]. apply Next.
Qed.
Lemma processList_erase : forall full e kind name make l d, snd (processListL full e kind name make l d) = processList kind make l d.
Proof.
  intros. unfold processListL, processList. erase. rewrite <- (processLoop_erase e kind make l 0 d nothingSeen).
  apply obind_ext. intros [d' s]. erase. reflexivity.
Qed.
Lemma processLevels_erase : forall full e l d, snd (processLevelsL full e l d) = processLevels e l d.
Proof.
  intros full e. induction l as [|[v f] l IH]; intro d; cbn [processLevelsL processLevels]; [reflexivity|].
  erase. rewrite processList_erase. apply obind_ext. intro. apply IH.
Qed.
Lemma processKyus_erase : forall full e l d, snd (processKyusL full e l d) = processKyus e l d.
Proof.
  intros full e. induction l as [|[v f] l IH]; intro d; cbn [processKyusL processKyus]; [reflexivity|].
  erase. rewrite processList_erase. apply obind_ext. intro. apply IH.
Qed.
Lemma processUcd_erase : forall e l d, snd (processUcdL e l d) = processUcd e l d.
Proof.
  intros e. induction l as [|[n u] l IH]; intro d; cbn [processUcdL processUcd]; [reflexivity|].
  destruct (findByName d (ucdName u)); [apply IH|]. erase. apply obind_ext. intro k. erase. cbn [checkInsertTypeL snd].
  apply obind_ext. intros [d' b]. apply IH.
Qed.
Lemma loadKanji_erase : forall full e f d, snd (loadKanjiL full e f d) = loadKanji e f d.
Proof.
  intros full e f d. unfold loadKanjiL, loadKanji.
  erase. rewrite loadPlain_erase. apply obind_ext. intro d1. erase. rewrite loadLinkedLines_erase. apply obind_ext. intro d2.
  erase. rewrite loadOld_erase. apply obind_ext. intro d3. erase. rewrite loadJinmei_erase. apply obind_ext. intro d4.
  erase. rewrite loadPlain_erase. apply obind_ext. intro d5. erase. rewrite processLevels_erase. apply obind_ext. intro d6.
  erase. rewrite processList_erase. apply obind_ext. intro d7. erase. rewrite processKyus_erase. apply obind_ext. intro d8.
  apply processUcd_erase.
Qed.
Lemma loadData_erase : forall sort mode ltr f st max, snd (loadDataL sort mode ltr f st max)
  = ('(e, d) <- loadData ltr f st max ;; _ <- finishedLoadingData sort mode e d ;; Val (e, d)).
Proof.
  intros. unfold loadDataL, loadData. erase. cbn [obind]. erase. destruct (loadEnv ltr f st) as [e| | |]; cbn [obind]; try reflexivity.
  erase. rewrite loadKanji_erase. destruct (loadKanji e f (newData max)) as [d| | |]; cbn [obind]; try reflexivity.
  erase. apply obind_ext. intro t. erase. reflexivity.
Qed.

(** ** The messages of a sequence of insertions *)
Definition said (k : Kanji) (e : Env) (before : list Kanji) : list Msg :=
  if existsb (beq (kName k)) (names_of before) then [ToErr (b_ "failed to insert '" ++ kName k ++ b_ "' into map")]
  else sanityChecks e k
       ++ (if selected_name k && existsb (variant_of (compatibilityName k)) (accepted before)
           then [ToErr (b_ "failed to insert variant '" ++ kName k ++ b_ "' into map")] else []).
Fixpoint saidAll (e : Env) (before ks : list Kanji) : list Msg :=
  match ks with [] => [] | k :: r => said k e before ++ saidAll e (before ++ [k]) r end.
Lemma saidAll_app : forall e a b before, saidAll e before (a ++ b) = saidAll e before a ++ saidAll e (before ++ a) b.
Proof.
  intros e. induction a as [|k a IH]; intros b before; cbn [app saidAll]; [rewrite app_nil_r; reflexivity|].
  rewrite IH, <- !app_assoc. reflexivity.
Qed.
Lemma find_existsb : forall A (p : A -> bool) l, existsb p l = match find p l with Some _ => true | None => false end.
Proof. intros A p. induction l as [|x l IH]; cbn [existsb find]; [reflexivity|]. destruct (p x); [reflexivity|exact IH]. Qed.
Lemma existsb_names : forall s ks, existsb (beq s) (names_of ks) = match find (fun k => beq (kName k) s) ks with Some _ => true | None => false end.
Proof.
  intros s ks. destruct (find (fun k => beq (kName k) s) ks) as [k|] eqn:E.
  - apply existsb_In. apply find_some in E. destruct E as [E1 E2]. apply beq_eq in E2. subst s. apply in_map. exact E1.
  - apply find_name_None in E. destruct (existsb (beq s) (names_of ks)) eqn:K; [|reflexivity]. apply existsb_In in K. contradiction.
Qed.
Lemma said_insert : forall e ks d k, Rep ks d -> insertMsgs e d k = said k e ks.
Proof.
  intros e ks d k R. unfold insertMsgs, said. rewrite existsb_names, (rep_names _ _ R).
  destruct (find (fun x => beq (kName x) (kName k)) ks); [reflexivity|]. f_equal.
  rewrite variant_total, (rep_compat _ _ R), find_existsb. destruct (selected_name k); [|reflexivity]. cbn [andb].
  destruct (find (variant_of (compatibilityName k)) (accepted ks)); reflexivity.
Qed.
Lemma Rep_same : forall ks d d', Rep ks d -> dNames d' = dNames d -> dCompat d' = dCompat d -> dMoro d' = dMoro d ->
  dNelson d' = dNelson d -> dGrades d' = dGrades d -> Rep ks d'.
Proof. intros ks d d' [r1 r2 r3 r4 r5 r6 r7] H1 H2 H3 H4 H5. split; rewrite ?H1, ?H2; auto; intros; [rewrite H3|rewrite H4|rewrite H5]; auto. Qed.
Lemma Rep_step : forall ks d k d' b, Rep ks d -> checkInsert d k = Val (d', b) -> Rep (ks ++ [k]) d'.
Proof. intros ks d k d' b R H. destruct (Rep_insert ks d k R) as [d1 [b1 [H1 [R1 _]]]]. rewrite H1 in H. injection H as <- <-. exact R1. Qed.
Lemma Rep_typed : forall ks d t k d' b, Rep ks d -> checkInsertType d t k = Val (d', b) -> Rep (ks ++ [k]) d'.
Proof.
  intros ks d t k d' b R H. unfold checkInsertType in H. destruct (Rep_insert ks d k R) as [d1 [b1 [H1 [R1 _]]]]. rewrite H1 in H.
  cbn [obind] in H. destruct b1; injection H as <- <-; [|exact R1]. eapply Rep_same; [exact R1|reflexivity..].
Qed.

(** [m] loads [d'] by inserting [new] after [ks] and says only what these insertions do *)
Definition Traced (e : Env) (ks new : list Kanji) (m : L Data) (d' : Data) : Prop :=
  Rep (ks ++ new) d' /\ fst m = saidAll e ks new.
Lemma Traced_nil : forall e ks d, Rep ks d -> Traced e ks [] (llift (Val d)) d.
Proof. intros e ks d R. split; [rewrite app_nil_r; exact R|reflexivity]. Qed.

Ltac step H x E E2 Fm := apply lbind_val in H; destruct H as [x [E [H Fm]]].

Lemma insertAll_traced : forall e ks d d' before, Rep before d -> snd (insertAllL e d ks) = Val d' -> Traced e before ks (insertAllL e d ks) d'.
Proof.
  intros e. induction ks as [|k ks IH]; intros d d' before R H; cbn [insertAllL] in *.
  - injection H as <-. apply Traced_nil. exact R.
  - apply lbind_val in H. destruct H as [[d1 b] [E [H Fm]]]. cbn [checkInsertL snd] in E.
    destruct (IH d1 d' (before ++ [k]) (Rep_step _ _ _ _ _ R E) H) as [R' M]. split.
    + rewrite <- app_assoc in R'. exact R'.
    + rewrite Fm, M. cbn [checkInsertL fst saidAll]. rewrite (said_insert e before d k R). reflexivity.
Qed.
Lemma loadPlain_traced : forall e make t rows d d' before, Rep before d -> snd (loadPlainL e make t rows d) = Val d' ->
  exists ks, fromRows make rows = Val ks /\ Traced e before ks (loadPlainL e make t rows d) d'.
Proof.
  intros e make t rows d d' before R H. unfold loadPlainL in *.
  apply lbind_val in H. destruct H as [ks [E [H Fm]]]. cbn [llift snd fst] in *. exists ks. split; [exact E|].
  apply lbind_val in H. destruct H as [d1 [E1 [H Fm1]]]. cbn [llift snd fst] in *. injection H as <-.
  destruct (insertAll_traced e ks d d1 before R E1) as [R' M]. split; [eapply Rep_same; [exact R'|reflexivity..]|].
  rewrite Fm, Fm1, M, app_nil_r. reflexivity.
Qed.
(** one Kanji is added to a list *)
Lemma typed_step : forall e before d t k A (f : Data * bool -> L A) y, Rep before d -> snd (lbind (checkInsertTypeL e d t k) f) = Val y ->
  exists d1 b, checkInsertType d t k = Val (d1, b) /\ Rep (before ++ [k]) d1 /\ snd (f (d1, b)) = Val y
    /\ fst (lbind (checkInsertTypeL e d t k) f) = said k e before ++ fst (f (d1, b)).
Proof.
  intros e before d t k A f y R H. apply lbind_val in H. destruct H as [[d1 b] [E [H Fm]]]. cbn [checkInsertTypeL snd] in E.
  exists d1, b. split; [exact E|]. split; [eapply Rep_typed; eauto|]. split; [exact H|].
  rewrite Fm. cbn [checkInsertTypeL fst]. rewrite (said_insert e before d k R). reflexivity.
Qed.
Lemma lift_step : forall A B (x : out A) (f : A -> L B) y, snd (lbind (llift x) f) = Val y ->
  exists a, x = Val a /\ snd (f a) = Val y /\ fst (lbind (llift x) f) = fst (f a).
Proof. intros A B x f y H. apply lbind_val in H. destruct H as [a [E [H Fm]]]. exists a. auto. Qed.

(** the name of a line is its second field *)
Definition second_field (line name : bytes) : Prop := exists j rest, getlines 9 line = j :: name :: rest.
Lemma loadLinkedLines_traced : forall e lines d d' before, Rep before d -> snd (loadLinkedLinesL e lines d) = Val d' ->
  exists ks, Forall2 second_field lines (map kName ks) /\ Forall (fun k => kType k = LinkedJinmei) ks
    /\ Traced e before ks (loadLinkedLinesL e lines d) d'.
Proof.
  intros e. induction lines as [|line r IH]; intros d d' before R H; cbn [loadLinkedLinesL] in *.
  - injection H as <-. exists []. split; [constructor|]. split; [constructor|]. apply Traced_nil. exact R.
  - destruct (getlines 9 line) as [|j [|s t]] eqn:G; try discriminate. destruct (mfind j (dNames d)) as [i|] eqn:F; [|discriminate].
    apply lift_step in H. destruct H as [k [E [H F1]]]. apply (typed_step e before) in H; [|exact R].
    destruct H as [d1 [b [E1 [R1 [H F2]]]]]. destruct (IH d1 d' _ R1 H) as [ks [Q1 [Q2 [Q3 Q4]]]].
    destruct (linked_fields e false s i k E) as [K1 [K2 _]].
    exists (k :: ks). split; [|split; [|split]].
    + cbn [map]. constructor; [|exact Q1]. exists j, t. rewrite K1. exact G.
    + constructor; assumption.
    + rewrite <- app_assoc in Q3. exact Q3.
    + rewrite F1, F2, Q4. reflexivity.
Qed.
(** Kanji that were not found before they were inserted *)
Fixpoint fresh (before ks : list Kanji) : Prop :=
  match ks with [] => True | k :: r => ~ In (kName k) (names_of before) /\ fresh (before ++ [k]) r end.
Lemma fresh_app : forall a b before, fresh before a -> fresh (before ++ a) b -> fresh before (a ++ b).
Proof.
  induction a as [|k a IH]; intros b before H1 H2; cbn [app fresh] in *; [rewrite app_nil_r in H2; exact H2|].
  destruct H1 as [H1 H3]. split; [exact H1|]. apply IH; [exact H3|]. rewrite <- app_assoc. exact H2.
Qed.
Lemma not_found_fresh : forall before d s, Rep before d -> Wf d -> findByName d s = None -> ~ In s (names_of before).
Proof.
  intros before d s R W F. destruct (not_found_new d s W F) as [H _]. rewrite (rep_names _ _ R) in H. apply find_name_None. exact H.
Qed.
Lemma loadOldNames_traced : forall e link names d d' before, Rep before d -> Wf d -> Auto d -> snd (loadOldNamesL e link names d) = Val d' ->
  exists ks, fresh before ks /\ Forall (fun k => kType k = LinkedOld) ks /\ Traced e before ks (loadOldNamesL e link names d) d'.
Proof.
  intros e link. induction names as [|j r IH]; intros d d' before R W A H; cbn [loadOldNamesL] in *.
  - injection H as <-. exists []. split; [exact I|]. split; [constructor|]. apply Traced_nil. exact R.
  - destruct (findByName d j) eqn:F; [apply IH; assumption|].
    apply lift_step in H. destruct H as [k [E [H F1]]]. apply (typed_step e before) in H; [|exact R].
    destruct H as [d1 [b [E1 [R1 [H F2]]]]].
    destruct (linked_fields e true j link k E) as [K1 [K2 _]].
    destruct (stage_typed d d1 LinkedOld k b W A ltac:(right; left; reflexivity) K2 E1) as [S1 _].
    destruct (IH d1 d' _ R1 (sg_wf _ _ _ _ S1) (sg_auto _ _ _ _ S1) H) as [ks [Q1 [Q2 [Q3 Q4]]]].
    exists (k :: ks). split; [|split; [|split]].
    + split; [|exact Q1]. rewrite K1. eapply not_found_fresh; eauto.
    + constructor; assumption.
    + rewrite <- app_assoc in Q3. exact Q3.
    + rewrite F1, F2, Q4. reflexivity.
Qed.
Lemma loadOld_traced : forall e l d d' before, Rep before d -> Wf d -> Auto d -> snd (loadOldL e l d) = Val d' ->
  exists ks, fresh before ks /\ Forall (fun k => kType k = LinkedOld) ks /\ Traced e before ks (loadOldL e l d) d'.
Proof.
  intros e. induction l as [|[n k] l IH]; intros d d' before R W A H; cbn [loadOldL] in *.
  - injection H as <-. exists []. split; [exact I|]. split; [constructor|]. apply Traced_nil. exact R.
  - apply lbind_val in H. destruct H as [d1 [E [H Fm]]].
    destruct (loadOldNames_traced e k _ d d1 before R W A E) as [a [A1 [A2 [A3 A4]]]].
    rewrite loadOldNames_erase in E. destruct (loadOldNames_stage e k _ d d1 W A E) as [S1 _].
    destruct (IH d1 d' _ A3 (sg_wf _ _ _ _ S1) (sg_auto _ _ _ _ S1) H) as [b [B1 [B2 [B3 B4]]]].
    exists (a ++ b). split; [apply fresh_app; assumption|]. split; [apply Forall_app; auto|]. split.
    + rewrite app_assoc. exact B3.
    + rewrite Fm, A4, B4, saidAll_app. reflexivity.
Qed.
Lemma loadLinkedNames_traced : forall e link names d d' before, Rep before d -> snd (loadLinkedNamesL e link names d) = Val d' ->
  exists ks, map kName ks = names /\ Forall (fun k => kType k = LinkedJinmei) ks /\ Traced e before ks (loadLinkedNamesL e link names d) d'.
Proof.
  intros e link. induction names as [|j r IH]; intros d d' before R H; cbn [loadLinkedNamesL] in *.
  - injection H as <-. exists []. split; [reflexivity|]. split; [constructor|]. apply Traced_nil. exact R.
  - apply lift_step in H. destruct H as [k [E [H F1]]]. apply (typed_step e before) in H; [|exact R].
    destruct H as [d1 [b [E1 [R1 [H F2]]]]]. destruct (IH d1 d' _ R1 H) as [ks [Q1 [Q2 [Q3 Q4]]]].
    destruct (linked_fields e false j link k E) as [K1 [K2 _]].
    exists (k :: ks). split; [cbn [map]; congruence|]. split; [constructor; assumption|]. split.
    + rewrite <- app_assoc in Q3. exact Q3.
    + rewrite F1, F2, Q4. reflexivity.
Qed.
Lemma insertJinmei_traced : forall e ks d d' before, Forall (fun k => kType k = Jinmei) ks -> Rep before d -> snd (insertJinmeiL e ks d) = Val d' ->
  exists all, map kName all = flat_map (fun k => kName k :: kOldNames k) ks
    /\ Forall (fun k => kType k = Jinmei \/ kType k = LinkedJinmei) all /\ Traced e before all (insertJinmeiL e ks d) d'.
Proof.
  intros e. induction ks as [|k ks IH]; intros d d' before T R H; cbn [insertJinmeiL] in *.
  - injection H as <-. exists []. split; [reflexivity|]. split; [constructor|]. apply Traced_nil. exact R.
  - apply lbind_val in H. destruct H as [[d1 b] [E [H Fm]]]. cbn [checkInsertL snd] in E.
    apply lbind_val in H. destruct H as [d2 [E2 [H Fm2]]].
    apply Forall_cons_iff in T. destruct T as [T1 T2].
    destruct (loadLinkedNames_traced e k _ d1 d2 _ (Rep_step _ _ _ _ _ R E) E2) as [a [A1 [A2 [A3 A4]]]].
    destruct (IH d2 d' _ T2 A3 H) as [c [C1 [C2 [C3 C4]]]].
    exists (k :: a ++ c). split; [|split; [|split]].
    + cbn [map flat_map]. rewrite map_app, A1, C1. reflexivity.
    + constructor; [left; exact T1|]. apply Forall_app. split; [|exact C2]. eapply Forall_impl; [|exact A2]. intros x Hx. right. exact Hx.
    + rewrite <- !app_assoc in C3. exact C3.
    + rewrite Fm, Fm2, A4, C4. cbn [checkInsertL fst]. rewrite (said_insert e before d k R). cbn [saidAll]. rewrite saidAll_app. reflexivity.
Qed.
Lemma loadJinmei_traced : forall e rows d d' before, Rep before d -> snd (loadJinmeiL e rows d) = Val d' ->
  exists ks all, fromRows (makeJinmei e) rows = Val ks /\ map kName all = flat_map (fun k => kName k :: kOldNames k) ks
    /\ Forall (fun k => kType k = Jinmei \/ kType k = LinkedJinmei) all /\ Traced e before all (loadJinmeiL e rows d) d'.
Proof.
  intros e rows d d' before R H. unfold loadJinmeiL in *. apply lift_step in H. destruct H as [ks [E [H Fm]]].
  apply lbind_val in H. destruct H as [d1 [E1 [H Fm1]]]. cbn [llift snd fst] in *. injection H as <-.
  assert (T : Forall (fun k => kType k = Jinmei) ks).
  { apply fromRows_spec in E. clear -E. induction E as [|r k rows ks Hx Hr IH]; constructor; [apply (jinmei_fields e r k Hx)|exact IH]. }
  destruct (insertJinmei_traced e ks d d1 before T R E1) as [all [A1 [A2 [A3 A4]]]].
  exists ks, all. split; [exact E|]. split; [exact A1|]. split; [exact A2|]. split; [eapply Rep_same; [exact A3|reflexivity..]|].
  rewrite Fm, Fm1, A4, app_nil_r. reflexivity.
Qed.
Lemma processUcd_traced : forall e l d d' before, Rep before d -> Wf d -> Auto d -> snd (processUcdL e l d) = Val d' ->
  exists ks, fresh before ks /\ Forall (fun k => kType k = UcdType) ks /\ Traced e before ks (processUcdL e l d) d'.
Proof.
  intros e. induction l as [|[n u] r IH]; intros d d' before R W A H; cbn [processUcdL] in *.
  - injection H as <-. exists []. split; [exact I|]. split; [constructor|]. apply Traced_nil. exact R.
  - destruct (findByName d (ucdName u)) eqn:F; [apply IH; assumption|].
    apply lift_step in H. destruct H as [k [E [H F1]]]. apply (typed_step e before) in H; [|exact R].
    destruct H as [d1 [b [E1 [R1 [H F2]]]]].
    destruct (ucdkanji_fields e u k E) as [K1 [K2 _]].
    destruct (stage_typed d d1 UcdType k b W A ltac:(unfold made_singly; auto) K2 E1) as [S1 _].
    destruct (IH d1 d' _ R1 (sg_wf _ _ _ _ S1) (sg_auto _ _ _ _ S1) H) as [ks [Q1 [Q2 [Q3 Q4]]]].
    exists (k :: ks). split; [|split; [|split]].
    + split; [|exact Q1]. rewrite K1. eapply not_found_fresh; eauto.
    + constructor; assumption.
    + rewrite <- app_assoc in Q3. exact Q3.
    + rewrite F1, F2, Q4. reflexivity.
Qed.
