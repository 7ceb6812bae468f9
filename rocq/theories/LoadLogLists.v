(** Lemmas about the messages of loading: the lists. *)
From Verif Require Import BaseFacts MapProofs DataModel DataSpec DataProofs LoadModel LoadSpec LoadProofs LoadAttr LoadPhases LoadLists LoadLogModel LoadLogSpec LoadLogTrace.
Import DataProofs.
Arguments N.mul : simpl never. Arguments N.add : simpl never. Arguments N.sub : simpl never.
Arguments N.div : simpl never.

(** the Kanji for the names of a list: the first component says whether it is new *)
Definition places : Type := list (bool * Kanji).
(** the Kanji of [p] was found for [n], and has this name if it is new *)
Definition placed (d : Data) (n : bytes) (p : bool * Kanji) : Prop := found_then d n (snd p) /\ (fst p = true -> kName (snd p) = n).
Definition created (ps : places) : list Kanji := map snd (filter fst ps).
Definition found_types (l : list bytes) (ps : places) : list (KanjiTypes * bytes) :=
  flat_map (fun '(s, (b, k)) => if b : bool then [] else match kType k with Jouyou => [] | t => [(t, s)] end) (combine l ps).
Definition seen_after (kind : ListKind) (l : list bytes) (ps : places) (s : Seen) : Seen :=
  if isKyu kind then s else MkSeen (sCreated s ++ map kName (created ps)) (sFound s ++ found_types l ps).

Lemma processLoop_traced : forall e kind make,
  (forall i s k, make i s = Val k -> kName k = s /\ kType k = kind_new kind) ->
  forall l i d s before d' s', Rep before d -> Wf d -> Auto d -> snd (processLoopL e kind make i l d s) = Val (d', s') ->
  exists ps, Forall2 (placed d') l ps /\ Forall (kind_has kind) (map snd ps)
    /\ fresh before (created ps) /\ Forall (fun k => kType k = kind_new kind) (created ps)
    /\ Forall (fun k => exists i s, make i s = Val k) (created ps)
    /\ Rep (before ++ created ps) d' /\ Grow d d'
    /\ fst (processLoopL e kind make i l d s) = saidAll e before (created ps)
    /\ s' = seen_after kind l ps s.
Proof.
  intros e kind make Hm. induction l as [|name l IH]; intros i d s before d' s' R W A H; cbn [processLoopL] in *.
  - cbn [llift snd] in H. injection H as <- <-. exists []. cbn [created map filter]. rewrite app_nil_r.
    do 5 (split; [constructor|]). split; [exact R|]. split; [split; auto|]. split; [reflexivity|].
    unfold seen_after. destruct (isKyu kind); [reflexivity|]. cbn. rewrite !app_nil_r. destruct s. reflexivity.
  - apply lbind_val in H. destruct H as [[[d1 k] s1] [E [H Fm]]].
    (* adding it to a list *)
    apply lift_step in H. destruct H as [d2 [E2 [H Fm2]]].
    assert (S2 : dNames d2 = dNames d1 /\ dCompat d2 = dCompat d1 /\ dMoro d2 = dMoro d1 /\ dNelson d2 = dNelson d1 /\ dGrades d2 = dGrades d1
                 /\ dTypes d2 = dTypes d1 /\ kind_has kind k).
    { destruct kind; cbn [kind_has].
      - unfold addToLevels in E2. destruct (hasLevel k) eqn:Hl; inversion E2; subst d2. repeat split; assumption.
      - unfold addToKyus in E2. destruct (hasKyu k) eqn:Hl; inversion E2; subst d2. repeat split; assumption.
      - inversion E2; subst d2. repeat split. }
    destruct S2 as [N1 [N2 [N3 [N4 [N5 [N6 Hk]]]]]].
    assert (Hsing : made_singly (kind_new kind)) by (destruct kind; unfold made_singly; cbn; auto).
    destruct (findByName d name) as [k0|] eqn:F.
    + (* found *)
      cbn [llift snd] in E. change (fst (llift (Val (d, k0, addFound kind k0 name s)))) with (@nil Msg) in Fm. cbn [app] in Fm. injection E as E3 E4 E5. subst d1 k s1.
      assert (R2 : Rep before d2) by (eapply Rep_same; eauto).
      assert (W2 : Wf d2) by (destruct W as [w1 w2 w3 w4]; split; rewrite ?N1, ?N2; auto).
      assert (A2 : Auto d2) by (intros t Ht; destruct (A t Ht) as [a1 a2]; unfold type_list in *; rewrite N1, N6; split; assumption).
      assert (G2 : Grow d d2) by (split; rewrite ?N1, ?N2; auto).
      assert (F2 : findByName d2 name = Some k0) by (unfold findByName in *; rewrite N1, N2; exact F).
      destruct (IH _ _ _ _ _ _ R2 W2 A2 H) as [ps [Q1 [Q2 [Q3 [Q4 [Q5 [Q6 [Q7 [Q8 Q9]]]]]]]]].
      exists ((false, k0) :: ps). rewrite Fm, Fm2, Q8. unfold created in *. cbn [filter fst map snd].
      split; [constructor; [split; [exists d2; auto|cbn [fst snd]; try discriminate; auto]|exact Q1]|]. split; [constructor; assumption|]. split; [exact Q3|]. split; [exact Q4|]. split; [exact Q5|].
      split; [exact Q6|]. split; [eapply Grow_trans; eauto|]. split; [reflexivity|].
      rewrite Q9. unfold seen_after, addFound. destruct (isKyu kind); [reflexivity|].
      unfold found_types, created. cbn [combine flat_map filter fst map snd].
      destruct (kType k0); cbn [sCreated sFound app]; rewrite <- ?app_assoc; reflexivity.
    + (* new *)
      apply lift_step in E. destruct E as [k1 [E0 [E Fm0]]]. apply (typed_step e before) in E; [|exact R].
      destruct E as [d3 [b [E1 [R1 [E Fm1]]]]]. cbn [llift snd] in E. change (fst (llift _)) with (@nil Msg) in Fm1. injection E as E3 E4 E5. subst d3 k1 s1.
      destruct (Hm _ _ _ E0) as [M1 M2].
      assert (M3 : checkInsertType d (kind_new kind) k = Val (d1, b)) by (destruct kind; exact E1).
      destruct (stage_typed d d1 (kind_new kind) k b W A Hsing M2 M3) as [S [_ [_ Q]]]. rewrite M1 in Q. destruct (Q F) as [Q0 _].
      assert (R2 : Rep (before ++ [k]) d2) by (eapply Rep_same; eauto).
      assert (W2 : Wf d2) by (destruct (sg_wf _ _ _ _ S) as [w1 w2 w3 w4]; split; rewrite ?N1, ?N2; auto).
      assert (A2 : Auto d2) by (intros t Ht; destruct (sg_auto _ _ _ _ S t Ht) as [a1 a2]; unfold type_list in *; rewrite N1, N6; split; assumption).
      assert (G2 : Grow d1 d2) by (split; rewrite ?N1, ?N2; auto). assert (G1 : Grow d d1) by apply S.
      assert (F2 : findByName d2 name = Some k) by (unfold findByName in *; rewrite N1, N2; exact Q0).
      destruct (IH _ _ _ _ _ _ R2 W2 A2 H) as [ps [Q1 [Q2 [Q3 [Q4 [Q5 [Q6 [Q7 [Q8 Q9]]]]]]]]].
      exists ((true, k) :: ps). rewrite Fm, Fm0, Fm1, Fm2, Q8, app_nil_r. unfold created in *. cbn [filter fst map snd].
      split; [constructor; [split; [exists d2; auto|cbn [fst snd]; try discriminate; auto]|exact Q1]|]. split; [constructor; assumption|].
      split; [split; [rewrite M1; eapply not_found_fresh; eauto|exact Q3]|]. split; [constructor; assumption|].
      split; [constructor; [eauto|exact Q5]|]. split; [rewrite <- app_assoc in Q6; exact Q6|].
      split; [eapply Grow_trans; [exact G1|eapply Grow_trans; eauto]|].
      split; [reflexivity|].
      rewrite Q9. unfold seen_after, addCreated. destruct (isKyu kind); [reflexivity|].
      unfold found_types, created. cbn [combine flat_map filter fst map snd sCreated sFound app]. rewrite <- ?app_assoc, M1. reflexivity.
Qed.

Lemma created_names_eq : forall kind l ps, isKyu kind = false -> sCreated (seen_after kind l ps nothingSeen) = map kName (created ps).
Proof. intros kind l ps H. unfold seen_after. rewrite H. reflexivity. Qed.

(** what a list says, and what it inserts *)
Lemma processList_traced : forall full e kind name make,
  (forall i s k, make i s = Val k -> kName k = s /\ kType k = kind_new kind) ->
  forall l d before d', Rep before d -> Wf d -> Auto d -> snd (processListL full e kind name make l d) = Val d' ->
  exists ps, Forall2 (placed d') l ps /\ Forall (kind_has kind) (map snd ps)
    /\ fresh before (created ps) /\ Forall (fun k => kType k = kind_new kind) (created ps)
    /\ Forall (fun k => exists i s, make i s = Val k) (created ps)
    /\ Rep (before ++ created ps) d' /\ Grow d d'
    /\ fst (processListL full e kind name make l d)
       = saidAll e before (created ps) ++ printListData full e kind name (seen_after kind l ps nothingSeen).
Proof.
  intros full e kind name make Hm l d before d' R W A H. unfold processListL in *.
  apply lbind_val in H. destruct H as [[d1 s1] [E [H Fm]]]. apply lbind_val in H. destruct H as [u [_ [H Fm1]]].
  cbn [llift lsay snd fst] in *. injection H as ->.
  destruct (processLoop_traced e kind make Hm l 0 d nothingSeen before d' s1 R W A E) as [ps [Q1 [Q2 [Q3 [Q4 [Q5 [Q6 [Q7 [Q8 Q9]]]]]]]]].
  exists ps. do 7 (split; [assumption|]). rewrite Fm, Fm1, Q8, Q9, app_nil_r. reflexivity.
Qed.

Lemma frequency_make : forall e i s k, makeFrequency e i s = Val k -> kName k = s /\ kType k = FrequencyType.
Proof. intros e i s k H. destruct (frequency_fields e i s k H) as [H1 [H2 _]]. auto. Qed.
Lemma kentei_make : forall e v i s k, (fun (_ : N) s => makeKentei e v s) i s = Val k -> kName k = s /\ kType k = Kentei.
Proof. intros e v i s k H. destruct (kentei_fields e v s k H) as [H1 [H2 _]]. auto. Qed.

(** a level list makes no Kanji *)
Lemma level_created : forall e ps, Forall (kind_has DataModel.LevelList) (map snd ps) ->
  Forall (fun k => exists i s, makeFrequency e i s = Val k) (created ps) -> created ps = [].
Proof.
  intros e ps H1 H2. destruct (created ps) as [|k r] eqn:E; [reflexivity|]. exfalso.
  apply Forall_cons_iff in H2. destruct H2 as [[i [s Hk]] _].
  assert (Hin : In k (map snd ps)).
  { assert (K : In k (created ps)) by (rewrite E; left; reflexivity). unfold created in K. apply in_map_iff in K.
    destruct K as [p [<- Hp]]. apply filter_In in Hp. apply in_map. apply Hp. }
  rewrite Forall_forall in H1. specialize (H1 k Hin). cbn [kind_has] in H1.
  destruct (frequency_fields e i s k Hk) as [_ [_ [_ [_ [_ Lv]]]]]. unfold hasLevel in H1. rewrite Lv in H1. discriminate.
Qed.
Lemma forall2_places_grow : forall l d d' (ps : places), Grow d d' -> Forall2 (placed d) l ps ->
  Forall2 (placed d') l ps.
Proof. intros l d d' ps G H. induction H as [|a b la lb [Q1 Q2] _ IH]; constructor; [split; [eapply found_then_grow; eauto|exact Q2]|exact IH]. Qed.

Definition level_msgs (full : bool) (e : Env) (l : list (JlptLevels * ListFile)) (pss : list places) : list Msg :=
  flat_map (fun '((v, f), ps) => printListData full e DataModel.LevelList (levelToString v) (seen_after DataModel.LevelList (listOf f) ps nothingSeen))
    (combine l pss).
Lemma processLevels_traced : forall full e l d before d', Rep before d -> Wf d -> Auto d -> snd (processLevelsL full e l d) = Val d' ->
  exists pss, Forall2 (fun p ps => Forall2 (placed d') (listOf (snd p)) ps
                                   /\ Forall (fun k => hasLevel k = true) (map snd ps) /\ created ps = []) l pss
    /\ Rep before d' /\ Grow d d' /\ fst (processLevelsL full e l d) = level_msgs full e l pss.
Proof.
  intros full e. induction l as [|[v f] l IH]; intros d before d' R W A H; cbn [processLevelsL] in *.
  - cbn [llift snd] in H. injection H as <-. exists []. split; [constructor|]. split; [exact R|]. split; [split; auto|reflexivity].
  - apply lbind_val in H. destruct H as [d1 [E [H Fm]]].
    destruct (processList_traced full e DataModel.LevelList (levelToString v) (fun i s => makeFrequency e i s) (frequency_make e) _ d before d1 R W A E)
      as [ps [Q1 [Q2 [Q3 [Q4 [Q5 [Q6 [Q7 Q8]]]]]]]].
    rewrite processList_erase in E. destruct (processLoop_stage DataModel.LevelList _ (frequency_make e) _ 0 d d1 W A E) as [ks [S1 _]].
    pose proof (level_created e ps Q2 Q5) as C. rewrite C, app_nil_r in Q6. rewrite C in Q8. cbn [saidAll app] in Q8.
    destruct (IH d1 before d' Q6 (sg_wf _ _ _ _ S1) (sg_auto _ _ _ _ S1) H) as [pss [P1 [P2 [P3 P4]]]].
    exists (ps :: pss). split; [|split; [exact P2|split; [eapply Grow_trans; eauto|]]].
    + constructor; [|exact P1]. cbn [snd]. split; [eapply forall2_places_grow; eauto|]. split; [exact Q2|exact C].
    + rewrite Fm, P4, Q8. reflexivity.
Qed.

(** ** Errors and output apart *)
Lemma errors_app : forall a b, errors (a ++ b) = errors a ++ errors b.
Proof. induction a as [|[s|s] a IH]; intro b; cbn [app errors]; [reflexivity|apply IH|rewrite IH; reflexivity]. Qed.
Lemma output_app : forall a b, outputText (a ++ b) = outputText a ++ outputText b.
Proof. induction a as [|[s|s] a IH]; intro b; cbn [app outputText]; [reflexivity|rewrite IH, app_assoc; reflexivity|apply IH]. Qed.
Lemma said_output : forall k e before, outputText (said k e before) = [].
Proof.
  intros k e before. unfold said. destruct (existsb _ _); [reflexivity|]. rewrite output_app.
  replace (outputText (sanityChecks e k)) with (@nil N); [destruct (selected_name k && _); reflexivity|].
  unfold sanityChecks, sanityError. destruct (ucdFind (envUcd e) (kName k)) as [[u|]| | |]; try reflexivity.
  destruct (kType k); try reflexivity; [destruct (joyo u)|destruct (jinmei u)|destruct (jinmei u)]; try reflexivity. cbn [negb].
  destruct (hasLinks u); reflexivity.
Qed.
Lemma saidAll_output : forall e ks before, outputText (saidAll e before ks) = [].
Proof. intros e. induction ks as [|k ks IH]; intros before; cbn [saidAll]; [reflexivity|]. rewrite output_app, said_output, IH. reflexivity. Qed.
Lemma printListData_errors : forall full e kind name s, errors (printListData full e kind name s) = [].
Proof. intros full e kind name s. unfold printListData. destruct full; reflexivity. Qed.
Lemma level_msgs_errors : forall full e l pss, errors (level_msgs full e l pss) = [].
Proof.
  intros full e l pss. unfold level_msgs. induction (combine l pss) as [|[[v f] ps] r IH]; cbn [flat_map]; [reflexivity|].
  rewrite errors_app, printListData_errors, IH. reflexivity.
Qed.
Lemma processKyus_traced : forall full e l d before d', Rep before d -> Wf d -> Auto d -> snd (processKyusL full e l d) = Val d' ->
  exists new, fresh before new /\ Forall (fun k => kType k = Kentei) new /\ Rep (before ++ new) d' /\ Grow d d'
    /\ errors (fst (processKyusL full e l d)) = errors (saidAll e before new) /\ outputText (fst (processKyusL full e l d)) = [].
Proof.
  intros full e. induction l as [|[v f] l IH]; intros d before d' R W A H; cbn [processKyusL] in *.
  - cbn [llift snd] in H. injection H as <-. exists []. rewrite app_nil_r. split; [exact I|]. split; [constructor|]. split; [exact R|]. split; [split; auto|]. split; reflexivity.
  - apply lbind_val in H. destruct H as [d1 [E [H Fm]]].
    destruct (processList_traced full e (DataModel.KyuList v) (kyuToString v) (fun _ s => makeKentei e v s) (kentei_make e v) _ d before d1 R W A E)
      as [ps [Q1 [Q2 [Q3 [Q4 [Q5 [Q6 [Q7 Q8]]]]]]]].
    rewrite processList_erase in E. destruct (processLoop_stage (DataModel.KyuList v) _ (kentei_make e v) _ 0 d d1 W A E) as [ks [S1 _]].
    destruct (IH d1 _ d' Q6 (sg_wf _ _ _ _ S1) (sg_auto _ _ _ _ S1) H) as [new [P1 [P2 [P3 [P4 [P5 P6]]]]]].
    exists (created ps ++ new). split; [apply fresh_app; assumption|]. split; [apply Forall_app; auto|]. split; [rewrite app_assoc; exact P3|].
    split; [eapply Grow_trans; eauto|]. split.
    + rewrite Fm, Q8, !errors_app, P5, printListData_errors, app_nil_r, saidAll_app, errors_app. reflexivity.
    + rewrite Fm, Q8, !output_app, P6, saidAll_output, app_nil_r. cbn [app seen_after isKyu]. unfold printListData. destruct full; reflexivity.
Qed.
