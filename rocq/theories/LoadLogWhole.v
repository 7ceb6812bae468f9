(** Lemmas about the messages of loading: everything. *)
From Verif Require Import BaseFacts MapProofs DataModel DataSpec DataProofs LoadModel LoadSpec LoadProofs LoadAttr LoadPhases LoadLists LoadEnv LoadWhole.
From Verif Require Import LoadLogModel LoadLogSpec LoadLogTrace LoadLogLists.
Import DataProofs.
Arguments N.mul : simpl never. Arguments N.add : simpl never. Arguments N.sub : simpl never.
Arguments N.div : simpl never.

Definition late (t : KanjiTypes) : Prop := t = FrequencyType \/ t = Kentei \/ t = UcdType.
Record LoadTrace (full : bool) (f : Files) (e : Env) (d : Data) (ms : list Msg)
    (js ls os jm all xs : list Kanji) (pss : list places) (fps : places) (ws : list Kanji) : Prop := {
  lt_js : fromRows (makeJouyou e) (jouyouRows f) = Val js;
  lt_ls : Forall2 second_field (getlines 10 (linkedFile f)) (map kName ls); lt_ls_type : Forall (fun k => kType k = LinkedJinmei) ls;
  lt_os : fresh (js ++ ls) os; lt_os_type : Forall (fun k => kType k = LinkedOld) os;
  lt_jm : fromRows (makeJinmei e) (jinmeiRows f) = Val jm;
  lt_all : map kName all = flat_map (fun k => kName k :: kOldNames k) jm;
  lt_all_type : Forall (fun k => kType k = Jinmei \/ kType k = LinkedJinmei) all;
  lt_xs : fromRows (makeExtra e) (extraRows f) = Val xs;
  lt_levels : Forall2 (fun p ps => Forall2 (placed d) (listOf (snd p)) ps /\ Forall (fun k => hasLevel k = true) (map snd ps) /\ created ps = [])
    (envLevels e) pss;
  lt_freq : Forall2 (placed d) (listOf (envFrequency e)) fps;
  lt_freq_type : Forall (fun k => kType k = FrequencyType) (created fps);
  lt_ws : exists r, ws = created fps ++ r /\ Forall (fun k => kType k = Kentei \/ kType k = UcdType) r;
  lt_ws_fresh : fresh (js ++ ls ++ os ++ all ++ xs) ws;
  lt_rep : Rep (js ++ ls ++ os ++ all ++ xs ++ ws) d;
  lt_errors : errors ms = errors (saidAll e [] (js ++ ls ++ os ++ all ++ xs ++ ws));
  lt_output : outputText ms = outputText (level_msgs full e (envLevels e) pss)
    ++ outputText (printListData full e FrequencyList (b_ "Frequency") (seen_after FrequencyList (listOf (envFrequency e)) fps nothingSeen))
}.
Lemma loadKanji_traced : forall full f e m d, snd (loadKanjiL full e f (newData m)) = Val d ->
  exists js ls os jm all xs pss fps ws, LoadTrace full f e d (fst (loadKanjiL full e f (newData m))) js ls os jm all xs pss fps ws.
Proof.
  intros full f e m d H. unfold loadKanjiL in *. set (d0 := newData m) in *.
  assert (W0 : Wf d0) by apply Wf_new. assert (A0 : Auto d0) by apply Auto_new. assert (R0 : Rep [] d0) by apply Rep_new.
  apply lbind_val in H. destruct H as [d1 [E1 [H F1]]]. apply lbind_val in H. destruct H as [d2 [E2 [H F2]]].
  apply lbind_val in H. destruct H as [d3 [E3 [H F3]]]. apply lbind_val in H. destruct H as [d4 [E4 [H F4]]].
  apply lbind_val in H. destruct H as [d5 [E5 [H F5]]]. apply lbind_val in H. destruct H as [d6 [E6 [H F6]]].
  apply lbind_val in H. destruct H as [d7 [E7 [H F7]]]. apply lbind_val in H. destruct H as [d8 [E8 [E9 F8]]].
  destruct (loadPlain_traced e _ _ _ d0 d1 [] R0 E1) as [js [J1 [R1 M1]]]. cbn [app] in R1.
  rewrite loadPlain_erase in E1.
  destruct (loadPlain_stage (makeJouyou e) Jouyou _ d0 d1 not_single_jouyou (fun r k K => proj1 (proj2 (jouyou_fields e r k K))) W0 A0 E1) as [js' [_ [_ [S1 _]]]].
  destruct (loadLinkedLines_traced e _ d1 d2 _ R1 E2) as [ls [L1 [L2 [R2 M2]]]].
  rewrite loadLinkedLines_erase in E2. destruct (loadLinkedLines_stage e _ d1 d2 (sg_wf _ _ _ _ S1) (sg_auto _ _ _ _ S1) E2) as [S2 _].
  destruct (loadOld_traced e _ d2 d3 _ R2 (sg_wf _ _ _ _ S2) (sg_auto _ _ _ _ S2) E3) as [os [O1 [O2 [R3 M3]]]].
  rewrite loadOld_erase in E3. destruct (loadOld_stage e _ d2 d3 (sg_wf _ _ _ _ S2) (sg_auto _ _ _ _ S2) E3) as [S3 _].
  destruct (loadJinmei_traced e _ d3 d4 _ R3 E4) as [jm [all [N1 [N2 [N3 [R4 M4]]]]]].
  rewrite loadJinmei_erase in E4. destruct (loadJinmei_stage e _ d3 d4 (sg_wf _ _ _ _ S3) (sg_auto _ _ _ _ S3) E4) as [jm' [_ [_ [S4 _]]]].
  destruct (loadPlain_traced e _ _ _ d4 d5 _ R4 E5) as [xs [X1 [R5 M5]]].
  rewrite loadPlain_erase in E5.
  destruct (loadPlain_stage (makeExtra e) Extra _ d4 d5 not_single_extra (fun r k K => proj1 (proj2 (extra_fields e r k K))) (sg_wf _ _ _ _ S4) (sg_auto _ _ _ _ S4) E5) as [xs' [_ [_ [S5 _]]]].
  destruct (processLevels_traced full e _ d5 _ d6 R5 (sg_wf _ _ _ _ S5) (sg_auto _ _ _ _ S5) E6) as [pss [P1 [R6 [G6 M6]]]].
  rewrite processLevels_erase in E6. destruct (processLevels_stage e _ d5 d6 (sg_wf _ _ _ _ S5) (sg_auto _ _ _ _ S5) E6) as [lss [S6 _]].
  destruct (processList_traced full e FrequencyList (b_ "Frequency") (fun i s => makeFrequency e i s) (frequency_make e) _ d6 _ d7 R6 (sg_wf _ _ _ _ S6) (sg_auto _ _ _ _ S6) E7)
    as [fps [Q1 [Q2 [Q3 [Q4 [Q5 [R7 [G7 M7]]]]]]]].
  rewrite processList_erase in E7. destruct (processFrequency_stage e d6 d7 (sg_wf _ _ _ _ S6) (sg_auto _ _ _ _ S6) E7) as [fs [S7 _]].
  destruct (processKyus_traced full e _ d7 _ d8 R7 (sg_wf _ _ _ _ S7) (sg_auto _ _ _ _ S7) E8) as [ks [K1 [K2 [R8 [G8 [M8 T8]]]]]].
  rewrite processKyus_erase in E8. destruct (processKyus_stage e _ d7 d8 (sg_wf _ _ _ _ S7) (sg_auto _ _ _ _ S7) E8) as [kss [S8 _]].
  destruct (processUcd_traced e _ d8 d _ R8 (sg_wf _ _ _ _ S8) (sg_auto _ _ _ _ S8) E9) as [us [U1 [U2 [R9 M9]]]].
  rewrite processUcd_erase in E9. destruct (processUcd_stage e _ d8 d (sg_wf _ _ _ _ S8) (sg_auto _ _ _ _ S8) E9) as [S9 _].
  assert (G9 : Grow d8 d) by apply S9.
  assert (G79 : Grow d7 d) by (eapply Grow_trans; eauto). assert (G69 : Grow d6 d) by (eapply Grow_trans; eauto).
  exists js, ls, os, jm, all, xs, pss, fps, (created fps ++ ks ++ us).
  split; try assumption.
  - clear -P1 G69. induction P1 as [|p ps l pss [Q1 [Q2 Q3]] _ IH]; constructor; [|exact IH].
    split; [eapply forall2_places_grow; eauto|auto].
  - eapply forall2_places_grow; [exact G79|exact Q1].
  - exists (ks ++ us). split; [reflexivity|]. apply Forall_app.
    split; [eapply Forall_impl; [|exact K2]; intros k Hk; left; exact Hk|eapply Forall_impl; [|exact U2]; intros k Hk; right; exact Hk].
  - repeat rewrite <- app_assoc in Q3. repeat rewrite <- app_assoc in K1. repeat rewrite <- app_assoc in U1.
    apply fresh_app; [exact Q3|]. apply fresh_app; repeat rewrite <- app_assoc; assumption.
  - repeat rewrite <- app_assoc in R9. repeat rewrite <- app_assoc. exact R9.
  - rewrite F1, F2, F3, F4, F5, F6, F7, F8, M1, M2, M3, M4, M5, M6, M7, M9, !errors_app, M8, level_msgs_errors, printListData_errors.
    rewrite !saidAll_app, !errors_app, !app_nil_r. cbn [app]. repeat rewrite <- app_assoc. cbn [app]. reflexivity.
  - rewrite F1, F2, F3, F4, F5, F6, F7, F8, M1, M2, M3, M4, M5, M6, M7, M9, !output_app, T8, !saidAll_output, !app_nil_r. reflexivity.
Qed.
