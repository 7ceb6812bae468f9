(** Lemmas about loading Kanji: everything. *)
From Verif Require Import BaseFacts MapProofs ListProofs DataModel DataSpec DataProofs LoadModel LoadSpec LoadProofs LoadAttr LoadPhases LoadLists LoadEnv.
Arguments N.mul : simpl never. Arguments N.add : simpl never. Arguments N.sub : simpl never.
Arguments N.div : simpl never.

Definition All (P : Kanji -> Prop) (d : Data) : Prop := forall s k, mfind s (dNames d) = Some k -> P k.
Lemma All_stage : forall (P Q : Kanji -> Prop) T d d', All P d -> Stage T Q d d' -> (forall k, Q k -> P k) -> All P d'.
Proof. intros P Q T d d' A S H s k K. destruct (sg_new _ _ _ _ S s k K) as [L|[_ L]]; [exact (A s k L)|auto]. Qed.
(** the Kanji of a type come from these *)
Definition From_ (t : KanjiTypes) (P : Kanji -> Prop) (d : Data) : Prop := All (fun k => kType k = t -> P k) d.
Lemma From_none : forall t P m, From_ t P (newData m).
Proof. intros t P m s k H. discriminate. Qed.
Lemma From_other : forall t P T Q d d', From_ t P d -> Stage T Q d d' -> ~ In t T -> From_ t P d'.
Proof.
  intros t P T Q d d' F S H s k K L. destruct (ev_new _ _ _ (sg_ev _ _ _ _ S) s k K) as [M|[_ M]]; [exact (F s k M L)|].
  exfalso. apply H. rewrite <- L. exact M.
Qed.
Lemma From_stage : forall t (P Q : Kanji -> Prop) T d d', From_ t P d -> Stage T Q d d' -> (forall k, kType k = t -> Q k -> P k) -> From_ t P d'.
Proof. intros t P Q T d d' F S H s k K L. destruct (sg_new _ _ _ _ S s k K) as [M|[_ M]]; [exact (F s k M L)|auto]. Qed.

(** where the linked Kanji come from *)
Definition old_source (e : Env) (d : Data) (k : Kanji) : Prop :=
  exists link, mfind (kName link) (dNames d) = Some link /\ In (kName k) (kOldNames link) /\ makeLinked e true (kName k) link = Val k.
Definition line_source (e : Env) (lines : list bytes) (d : Data) (k : Kanji) : Prop :=
  exists line j rest link, In line lines /\ getlines 9 line = j :: kName k :: rest
  /\ mfind j (dNames d) = Some link /\ makeLinked e false (kName k) link = Val k.
Definition row_source (e : Env) (ms : list Kanji) (k : Kanji) : Prop :=
  exists link, In link ms /\ In (kName k) (kOldNames link) /\ makeLinked e false (kName k) link = Val k.

Definition from_rows (make : KanjiRow -> out Kanji) (rows : list KanjiRow) (ks : list Kanji) : Prop :=
  Forall2 (fun r k => make r = Val k) rows ks.
Record Loaded (e : Env) (f : Files) (d : Data) (js ms xs : list Kanji) (lss kss : list (list Kanji)) : Prop := {
  lo_wf : Wf d; lo_auto : Auto d;
  lo_js : from_rows (makeJouyou e) (jouyouRows f) js; lo_js_list : type_list d Jouyou = js;
  lo_ms : from_rows (makeJinmei e) (jinmeiRows f) ms; lo_ms_list : type_list d Jinmei = ms;
  lo_xs : from_rows (makeExtra e) (extraRows f) xs; lo_xs_list : type_list d Extra = xs;
  lo_from_js : From_ Jouyou (fun k => In k js) d; lo_from_ms : From_ Jinmei (fun k => In k ms) d; lo_from_xs : From_ Extra (fun k => In k xs) d;
  lo_from_old : From_ LinkedOld (old_source e d) d;
  lo_from_linked : From_ LinkedJinmei (fun k => line_source e (getlines 10 (linkedFile f)) d k \/ row_source e ms k) d;
  lo_attr : All (attr e) d;
  lo_levels : Forall2 (fun p ks => Forall2 (found_then d) (listOf (snd p)) ks) (envLevels e) lss;
  lo_level_has : Forall (fun k => hasLevel k = true) (concat lss);
  lo_level_lists : forall x, alist N.eqb x (dLevels d) = level_at x (concat lss);
  lo_kyus : Forall2 (fun p ks => Forall2 (found_then d) (listOf (snd p)) ks) (envKyus e) kss;
  lo_kyu_has : Forall (fun k => hasKyu k = true) (concat kss);
  lo_kyu_lists : forall x, alist N.eqb x (dKyus d) = kyu_at x (concat kss);
  lo_found_rows : forall k, In k (js ++ ms ++ xs) -> mfind (kName k) (dNames d) <> None;
  lo_found_old_jinmei : forall k j, In k ms -> In j (kOldNames k) -> mfind j (dNames d) <> None;
  lo_found_old : forall k j, mfind (kName k) (dNames d) = Some k -> kType k = Jouyou -> In j (kOldNames k) -> findByName d j <> None;
  lo_found_lines : forall line, In line (getlines 10 (linkedFile f)) -> exists j s rest, getlines 9 line = j :: s :: rest
       /\ mfind j (dNames d) <> None /\ mfind s (dNames d) <> None;
  lo_found_freq : forall s, In s (listOf (envFrequency e)) -> findByName d s <> None;
  lo_found_ucd : forall n u, In (n, u) (ucdMap (envUcd e)) -> findByName d (ucdName u) <> None
}.

Lemma concat_forall : forall A (P : A -> Prop) ls, Forall (Forall P) ls -> Forall P (concat ls).
Proof. intros A P ls H. induction H; cbn [concat]; [constructor|]. apply Forall_app. auto. Qed.
Lemma forall2_in : forall A B (R : A -> B -> Prop) la lb a, Forall2 R la lb -> In a la -> exists b, In b lb /\ R a b.
Proof.
  intros A B R la lb a H. induction H as [|x y la lb Hr _ IH]; intro Hin; [destruct Hin|].
  destruct Hin as [<-|Hin]; [exists y; split; [left; reflexivity|exact Hr]|]. destruct (IH Hin) as [b [Q1 Q2]]. exists b. split; [right; exact Q1|exact Q2].
Qed.
Lemma forall2_in_r : forall A B (R : A -> B -> Prop) la lb b, Forall2 R la lb -> In b lb -> exists a, In a la /\ R a b.
Proof.
  intros A B R la lb b H. induction H as [|x y la lb Hr _ IH]; intro Hin; [destruct Hin|].
  destruct Hin as [<-|Hin]; [exists x; split; [left; reflexivity|exact Hr]|]. destruct (IH Hin) as [a [Q1 Q2]]. exists a. split; [right; exact Q1|exact Q2].
Qed.
Lemma forall2_grow : forall l d d' (ks : list Kanji), Grow d d' -> Forall2 (found_then d) l ks -> Forall2 (found_then d') l ks.
Proof. intros l d d' ks G H. induction H; constructor; [eapply found_then_grow; eauto|assumption]. Qed.
Lemma forall2s_grow : forall A (ls : list (A * ListFile)) d d' kss, Grow d d' ->
  Forall2 (fun p ks => Forall2 (found_then d) (listOf (snd p)) ks) ls kss ->
  Forall2 (fun p ks => Forall2 (found_then d') (listOf (snd p)) ks) ls kss.
Proof. intros A ls d d' kss G H. induction H; constructor; [eapply forall2_grow; eauto|assumption]. Qed.
Lemma lists_found : forall A (ls : list (A * ListFile)) d kss v g s, Wf d ->
  Forall2 (fun p ks => Forall2 (found_then d) (listOf (snd p)) ks) ls kss -> In (v, g) ls -> In s (listOf g) -> findByName d s <> None.
Proof.
  intros A ls d kss v g s W H Hg Hs. destruct (forall2_in _ _ _ _ _ _ H Hg) as [ks [_ F]]. cbn [snd] in F.
  destruct (forall2_in _ _ _ _ _ _ F Hs) as [k [_ K]]. eapply found_then_now; eauto.
Qed.
Lemma split_and : forall A (ls : list (A * ListFile)) kss (P : A * ListFile -> list Kanji -> Prop) Q,
  Forall2 (fun p ks => P p ks /\ Forall Q ks) ls kss -> Forall2 P ls kss /\ Forall Q (concat kss).
Proof.
  intros A ls kss P Q H. induction H as [|p ks ls kss [H1 H2] _ [IH1 IH2]]; [split; constructor|].
  split; [constructor; assumption|]. cbn [concat]. apply Forall_app. auto.
Qed.
Lemma grow_found : forall s d d', Grow d d' -> mfind s (dNames d) <> None -> mfind s (dNames d') <> None.
Proof. intros s d d' [G _] H. destruct (mfind s (dNames d)) as [k|] eqn:E; [|congruence]. rewrite (G s k E). discriminate. Qed.
Lemma jouyou_from_rows : forall e rows ks, from_rows (makeJouyou e) rows ks -> Forall (fun k => kType k = Jouyou /\ attr e k) ks.
Proof. intros e rows ks H. induction H as [|r k rows ks Hx _ IH]; constructor; [apply (jouyou_fields e r k Hx)|exact IH]. Qed.
Lemma jinmei_from_rows : forall e rows ks, from_rows (makeJinmei e) rows ks -> Forall (fun k => kType k = Jinmei /\ attr e k) ks.
Proof. intros e rows ks H. induction H as [|r k rows ks Hx _ IH]; constructor; [apply (jinmei_fields e r k Hx)|exact IH]. Qed.
Lemma extra_from_rows : forall e rows ks, from_rows (makeExtra e) rows ks -> Forall (fun k => kType k = Extra /\ attr e k) ks.
Proof. intros e rows ks H. induction H as [|r k rows ks Hx _ IH]; constructor; [apply (extra_fields e r k Hx)|exact IH]. Qed.

Ltac notin := let H := fresh in intro H; repeat (destruct H as [H|H]; [discriminate|]); exact H.

Lemma loadKanji_loaded : forall f e m d, env_ok f e -> loadKanji e f (newData m) = Val d ->
  exists js ms xs lss kss, Loaded e f d js ms xs lss kss.
Proof.
  intros f e m d O H. unfold loadKanji in H. set (d0 := newData m) in *.
  peel H d1 E1. peel H d2 E2. peel H d3 E3. peel H d4 E4. peel H d5 E5. peel H d6 E6. peel H d7 E7. peel H d8 E8. rename d into d9.
  assert (W0 : Wf d0) by apply Wf_new. assert (A0 : Auto d0) by apply Auto_new.
  destruct (loadPlain_stage (makeJouyou e) Jouyou _ d0 d1 not_single_jouyou (fun r k K => proj1 (proj2 (jouyou_fields e r k K))) W0 A0 E1) as [js [J1 [J2 [S1 [M1 P1]]]]].
  destruct (loadLinkedLines_stage e _ d1 d2 (sg_wf _ _ _ _ S1) (sg_auto _ _ _ _ S1) E2) as [S2 [M2 P2]].
  destruct (loadOld_stage e _ d2 d3 (sg_wf _ _ _ _ S2) (sg_auto _ _ _ _ S2) E3) as [S3 [M3 P3]].
  destruct (loadJinmei_stage e _ d3 d4 (sg_wf _ _ _ _ S3) (sg_auto _ _ _ _ S3) E4) as [ms [N1 [N2 [S4 [M4 P4]]]]].
  destruct (loadPlain_stage (makeExtra e) Extra _ d4 d5 not_single_extra (fun r k K => proj1 (proj2 (extra_fields e r k K))) (sg_wf _ _ _ _ S4) (sg_auto _ _ _ _ S4) E5) as [xs [X1 [X2 [S5 [M5 P5]]]]].
  destruct (processLevels_stage e _ d5 d6 (sg_wf _ _ _ _ S5) (sg_auto _ _ _ _ S5) E6) as [lss [S6 [L6 [T6 K6]]]].
  destruct (processFrequency_stage e d6 d7 (sg_wf _ _ _ _ S6) (sg_auto _ _ _ _ S6) E7) as [fs [S7 [L7 [T7 K7]]]].
  destruct (processKyus_stage e _ d7 d8 (sg_wf _ _ _ _ S7) (sg_auto _ _ _ _ S7) E8) as [kss [S8 [L8 [T8 K8]]]].
  destruct (processUcd_stage e _ d8 d9 (sg_wf _ _ _ _ S8) (sg_auto _ _ _ _ S8) H) as [S9 [M9 P9]].
  assert (G9 : Grow d8 d9) by apply S9. assert (G8 : Grow d7 d9) by (eapply Grow_trans; [apply S8|exact G9]).
  assert (G7 : Grow d6 d9) by (eapply Grow_trans; [apply S7|exact G8]). assert (G6 : Grow d5 d9) by (eapply Grow_trans; [apply S6|exact G7]).
  assert (G5 : Grow d4 d9) by (eapply Grow_trans; [apply S5|exact G6]). assert (G4 : Grow d3 d9) by (eapply Grow_trans; [apply S4|exact G5]).
  assert (G3 : Grow d2 d9) by (eapply Grow_trans; [apply S3|exact G4]). assert (G2 : Grow d1 d9) by (eapply Grow_trans; [apply S2|exact G3]).
  assert (W9 : Wf d9) by apply S9. assert (W8 : Wf d8) by apply S8. assert (W7 : Wf d7) by apply S7. assert (W6 : Wf d6) by apply S6.
  assert (W3 : Wf d3) by apply S3. assert (W2 : Wf d2) by apply S2.
  destruct (split_and _ _ _ _ _ L6) as [L6a L6b]. destruct (split_and _ _ _ _ _ L8) as [L8a L8b].
  (* names in the lists are found *)
  assert (Fl : forall v g s, In (v, g) (envLevels e) -> In s (listOf g) -> findByName d6 s <> None) by (intros; eapply lists_found; eauto).
  assert (Ff : forall s, In s (listOf (envFrequency e)) -> findByName d7 s <> None).
  { intros s Hs. destruct (forall2_in _ _ _ _ _ _ L7 Hs) as [k [_ K]]. eapply found_then_now; eauto. }
  assert (Fk : forall v g s, In (v, g) (envKyus e) -> In s (listOf g) -> findByName d8 s <> None) by (intros; eapply lists_found; eauto).
  pose proof (list_for_inv _ _ _ (en_levels f e O)) as Il. pose proof (list_for_inv _ _ _ (en_kyus f e O)) as Ik.
  assert (NoLev : forall s, findByName d6 s = None -> level e s = NoLevel).
  { intros s K. apply levelIn_none; [exact Il|]. intros v g Hg Hs. exact (Fl v g s Hg Hs K). }
  destruct (getIndex_spec _ (en_freq_inv f e O)) as [Ix1 [Ix2 _]].
  assert (NoFr : forall s, findByName d7 s = None -> frequency e s = 0).
  { intros s K. apply Ix2. intro Hs. exact (Ff s Hs K). }
  assert (back : forall a b s, Wf a -> Wf b -> Grow a b -> findByName b s = None -> findByName a s = None).
  { intros a b s Wa Wb G K. destruct (findByName a s) eqn:L; [|reflexivity]. exfalso. apply (found_grow a b s Wa G); [congruence|exact Wb|exact K]. }
  assert (G78 : Grow d7 d8) by apply S8. assert (G67 : Grow d6 d7) by apply S7.
  (* attributes *)
  assert (At : All (attr e) d9).
  { pose proof (jouyou_from_rows e _ js J1) as Tj. pose proof (jinmei_from_rows e _ ms N1) as Tm. pose proof (extra_from_rows e _ xs X1) as Tx.
    rewrite Forall_forall in Tj, Tm, Tx.
    assert (B0 : All (attr e) d0) by (intros s k K; discriminate).
    assert (B1 : All (attr e) d1) by (eapply All_stage; [exact B0|exact S1|]; intros k K; apply (Tj k K)).
    assert (B2 : All (attr e) d2).
    { eapply All_stage; [exact B1|exact S2|]. intros k [li [j [s [rs [lk [Q1 [Q2 [Q3 Q4]]]]]]]]. apply linked_fields in Q4. apply Q4. }
    assert (B3 : All (attr e) d3).
    { eapply All_stage; [exact B2|exact S3|]. intros k [lk [j [Q1 [Q2 Q3]]]]. apply linked_fields in Q3. apply Q3. }
    assert (B4 : All (attr e) d4).
    { eapply All_stage; [exact B3|exact S4|]. intros k [K|[lk [j [Q1 [Q2 Q3]]]]]; [apply (Tm k K)|]. apply linked_fields in Q3. apply Q3. }
    assert (B5 : All (attr e) d5) by (eapply All_stage; [exact B4|exact S5|]; intros k K; apply (Tx k K)).
    assert (B6 : All (attr e) d6) by (eapply All_stage; [exact B5|exact S6|]; intros k []).
    assert (B7 : All (attr e) d7).
    { eapply All_stage; [exact B6|exact S7|]. intros k [j [s [Q1 [Q2 [_ [Q3 _]]]]]].
      destruct (frequency_fields e _ s k Q3) as [R1 [R2 [R3 [R4 [R5 R6]]]]].
      assert (Fr : kFrequency k = frequency e s).
      { rewrite R3. unfold frequency. rewrite (Ix1 j s Q1). pose proof (en_freq_inv f e O) as [_ [_ [Hm _]]].
        assert (Hj : (j < List.length (listOf (envFrequency e)))%nat) by (apply nth_error_Some; congruence).
        unfold len, MaxEntries in Hm. unfold u16. rewrite N.mod_small; lia. }
      split; rewrite ?R1, ?R2; auto; try discriminate; try congruence; try (intros [K|[K|K]]; discriminate).
      - intros _ _ _. rewrite R6. symmetry. apply NoLev. exact Q2.
      - rewrite R4. split; congruence. }
    assert (B8 : All (attr e) d8).
    { eapply All_stage; [exact B7|exact S8|]. intros k [bf [v [g [af [s [Q1 [Q2 [Q3 [Q4 Q5]]]]]]]]].
      destruct (kentei_fields e v s k Q5) as [R1 [R2 [R3 [R4 [R5 R6]]]]].
      assert (Ky : kyu e s = v).
      { unfold kyu. eapply kyuIn_some; [exact Ik|apply O| |exact Q2]. rewrite Q1. apply in_or_app. right. left. reflexivity. }
      split; rewrite ?R1, ?R2; auto; try discriminate; try congruence; try (intros [K|[K|K]]; discriminate).
      - intros _. rewrite R3. symmetry. apply NoFr. exact Q3.
      - intros _ _ _. rewrite R6. symmetry. apply NoLev. apply (back d6 d7 s W6 W7 G67 Q3).
      - rewrite R4. split; congruence. }
    eapply All_stage; [exact B8|exact S9|]. intros k [n [u [Q1 [Q2 Q3]]]].
    destruct (ucdkanji_fields e u k Q3) as [R1 [R2 [R3 [R4 [R5 R6]]]]].
    pose proof (back d7 d8 _ W7 W8 G78 Q2) as Q4. pose proof (back d6 d7 _ W6 W7 G67 Q4) as Q5.
    split; rewrite ?R1, ?R2; auto; try discriminate; try congruence; try (intros [K|[K|K]]; discriminate).
    - rewrite R5. symmetry. apply kyuIn_none; [exact Ik|]. intros v g Hg Hs. exact (Fk v g _ Hg Hs Q2).
    - intros _. rewrite R3. symmetry. apply NoFr. exact Q4.
    - intros _ _ _. rewrite R6. symmetry. apply NoLev. exact Q5.
    - rewrite R4. split; congruence. }
  (* types and sources *)
  assert (Tj : forall k, In k js -> kType k = Jouyou) by (pose proof (jouyou_from_rows e _ js J1) as T; rewrite Forall_forall in T; intros k K; exact (proj1 (T k K))).
  assert (Tm : forall k, In k ms -> kType k = Jinmei) by (pose proof (jinmei_from_rows e _ ms N1) as T; rewrite Forall_forall in T; intros k K; exact (proj1 (T k K))).
  assert (Tx : forall k, In k xs -> kType k = Extra) by (pose proof (extra_from_rows e _ xs X1) as T; rewrite Forall_forall in T; intros k K; exact (proj1 (T k K))).
  assert (From29 : forall t P, From_ t P d1 -> ~ In t [LinkedJinmei; LinkedOld; Jinmei; Extra; FrequencyType; Kentei; UcdType] -> From_ t P d9).
  { intros t P F K.
    assert (F2 : From_ t P d2) by (eapply From_other; [exact F|exact S2|]; intros [<-|[]]; apply K; cbn; tauto).
    assert (F3 : From_ t P d3) by (eapply From_other; [exact F2|exact S3|]; intros [<-|[]]; apply K; cbn; tauto).
    assert (F4 : From_ t P d4) by (eapply From_other; [exact F3|exact S4|]; intros [<-|[<-|[]]]; apply K; cbn; tauto).
    assert (F5 : From_ t P d5) by (eapply From_other; [exact F4|exact S5|]; intros [<-|[]]; apply K; cbn; tauto).
    assert (F6 : From_ t P d6) by (eapply From_other; [exact F5|exact S6|]; intros [<-|[]]; apply K; cbn; tauto).
    assert (F7 : From_ t P d7) by (eapply From_other; [exact F6|exact S7|]; intros [<-|[]]; apply K; cbn; tauto).
    assert (F8 : From_ t P d8) by (eapply From_other; [exact F7|exact S8|]; intros [<-|[]]; apply K; cbn; tauto).
    eapply From_other; [exact F8|exact S9|]; intros [<-|[]]; apply K; cbn; tauto. }
  assert (FJ : From_ Jouyou (fun k => In k js) d9).
  { apply From29; [|notin]. eapply From_stage; [apply From_none|exact S1|auto]. }
  assert (From49 : forall t P, From_ t P d4 -> ~ In t [Extra; FrequencyType; Kentei; UcdType] -> From_ t P d9).
  { intros t P F4 K.
    assert (F5 : From_ t P d5) by (eapply From_other; [exact F4|exact S5|]; intros [<-|[]]; apply K; cbn; tauto).
    assert (F6 : From_ t P d6) by (eapply From_other; [exact F5|exact S6|]; intros [<-|[]]; apply K; cbn; tauto).
    assert (F7 : From_ t P d7) by (eapply From_other; [exact F6|exact S7|]; intros [<-|[]]; apply K; cbn; tauto).
    assert (F8 : From_ t P d8) by (eapply From_other; [exact F7|exact S8|]; intros [<-|[]]; apply K; cbn; tauto).
    eapply From_other; [exact F8|exact S9|]; intros [<-|[]]; apply K; cbn; tauto. }
  assert (Lk : forall b j lk k, makeLinked e b j lk = Val k -> kType k = linked_type b /\ kName k = j) by (intros b j lk k K; apply linked_fields in K; tauto).
  assert (FM : From_ Jinmei (fun k => In k ms) d9).
  { apply From49; [|notin].
    assert (F1 : From_ Jinmei (fun k => In k ms) d1) by (eapply From_other; [apply From_none|exact S1|notin]).
    assert (F2 : From_ Jinmei (fun k => In k ms) d2) by (eapply From_other; [exact F1|exact S2|notin]).
    assert (F3 : From_ Jinmei (fun k => In k ms) d3) by (eapply From_other; [exact F2|exact S3|notin]).
    eapply From_stage; [exact F3|exact S4|]. intros k Tk [K|[lk [j [_ [_ K]]]]]; [exact K|]. apply Lk in K. destruct K as [K _]. cbn in K. congruence. }
  assert (FX : From_ Extra (fun k => In k xs) d9).
  { assert (F1 : From_ Extra (fun k => In k xs) d1) by (eapply From_other; [apply From_none|exact S1|notin]).
    assert (F2 : From_ Extra (fun k => In k xs) d2) by (eapply From_other; [exact F1|exact S2|notin]).
    assert (F3 : From_ Extra (fun k => In k xs) d3) by (eapply From_other; [exact F2|exact S3|notin]).
    assert (F4 : From_ Extra (fun k => In k xs) d4) by (eapply From_other; [exact F3|exact S4|notin]).
    assert (F5 : From_ Extra (fun k => In k xs) d5) by (eapply From_stage; [exact F4|exact S5|auto]).
    assert (F6 : From_ Extra (fun k => In k xs) d6) by (eapply From_other; [exact F5|exact S6|notin]).
    assert (F7 : From_ Extra (fun k => In k xs) d7) by (eapply From_other; [exact F6|exact S7|notin]).
    assert (F8 : From_ Extra (fun k => In k xs) d8) by (eapply From_other; [exact F7|exact S8|notin]).
    eapply From_other; [exact F8|exact S9|notin]. }
  assert (FO : From_ LinkedOld (old_source e d9) d9).
  { apply From49; [|notin].
    assert (F1 : From_ LinkedOld (old_source e d9) d1) by (eapply From_other; [apply From_none|exact S1|notin]).
    assert (F2 : From_ LinkedOld (old_source e d9) d2) by (eapply From_other; [exact F1|exact S2|notin]).
    assert (F3 : From_ LinkedOld (old_source e d9) d3).
    { eapply From_stage; [exact F2|exact S3|]. intros k Tk [lk [j [Q1 [Q2 Q3]]]]. pose proof (proj2 (Lk _ _ _ _ Q3)) as Nk. subst j.
      exists lk. split; [|auto]. apply in_map_iff in Q1. destruct Q1 as [[n y] [Y1 Y2]]. cbn [snd] in Y1. subst y.
      pose proof (mfind_In _ _ _ (wf_names d2 W2) Y2) as F. rewrite (wf_own d2 W2 n lk F). apply (proj1 G3). exact F. }
    eapply From_other; [exact F3|exact S4|notin]. }
  assert (FL : From_ LinkedJinmei (fun k => line_source e (getlines 10 (linkedFile f)) d9 k \/ row_source e ms k) d9).
  { apply From49; [|notin].
    assert (F1 : From_ LinkedJinmei (fun k => line_source e (getlines 10 (linkedFile f)) d9 k \/ row_source e ms k) d1) by (eapply From_other; [apply From_none|exact S1|notin]).
    assert (F2 : From_ LinkedJinmei (fun k => line_source e (getlines 10 (linkedFile f)) d9 k \/ row_source e ms k) d2).
    { eapply From_stage; [exact F1|exact S2|]. intros k Tk [li [j [s [rs [lk [Q1 [Q2 [Q3 Q4]]]]]]]]. left. pose proof (proj2 (Lk _ _ _ _ Q4)) as Nk. subst s.
      exists li, j, rs, lk. split; [exact Q1|]. split; [exact Q2|]. split; [apply (proj1 G3); exact Q3|exact Q4]. }
    assert (F3 : From_ LinkedJinmei (fun k => line_source e (getlines 10 (linkedFile f)) d9 k \/ row_source e ms k) d3) by (eapply From_other; [exact F2|exact S3|notin]).
    eapply From_stage; [exact F3|exact S4|]. intros k Tk [K|[lk [j [Q1 [Q2 Q3]]]]]; [exfalso; pose proof (Tm k K); congruence|].
    right. pose proof (proj2 (Lk _ _ _ _ Q3)) as Nk. subst j. exists lk. auto. }
  (* the lists by type *)
  assert (TL : forall t, ~ In t [LinkedJinmei; LinkedOld; FrequencyType; Kentei; UcdType] ->
     (t <> Extra -> t <> Jinmei -> type_list d9 t = type_list d1 t) /\ (t <> Extra -> type_list d9 t = type_list d4 t) /\ type_list d9 t = type_list d5 t).
  { intros t K.
    assert (Z9 : type_list d9 t = type_list d8 t) by (apply (ev_types _ _ _ (sg_ev _ _ _ _ S9)); intros [<-|[]]; apply K; cbn; tauto).
    assert (Z8 : type_list d8 t = type_list d7 t) by (apply (ev_types _ _ _ (sg_ev _ _ _ _ S8)); intros [<-|[]]; apply K; cbn; tauto).
    assert (Z7 : type_list d7 t = type_list d6 t) by (apply (ev_types _ _ _ (sg_ev _ _ _ _ S7)); intros [<-|[]]; apply K; cbn; tauto).
    assert (Z6 : type_list d6 t = type_list d5 t) by (apply (ev_types _ _ _ (sg_ev _ _ _ _ S6)); intros [<-|[]]; apply K; cbn; tauto).
    assert (Z5 : t <> Extra -> type_list d5 t = type_list d4 t) by (intro N5; apply (ev_types _ _ _ (sg_ev _ _ _ _ S5)); intros [Z|[]]; congruence).
    assert (Z4 : t <> Jinmei -> type_list d4 t = type_list d3 t) by (intro N4; apply (ev_types _ _ _ (sg_ev _ _ _ _ S4)); intros [Z|[<-|[]]]; [congruence|apply K; cbn; tauto]).
    assert (Z3 : type_list d3 t = type_list d2 t) by (apply (ev_types _ _ _ (sg_ev _ _ _ _ S3)); intros [<-|[]]; apply K; cbn; tauto).
    assert (Z2 : type_list d2 t = type_list d1 t) by (apply (ev_types _ _ _ (sg_ev _ _ _ _ S2)); intros [<-|[]]; apply K; cbn; tauto).
    split; [|split]; [intros N5 N4; rewrite Z9, Z8, Z7, Z6, Z5, Z4, Z3, Z2 by assumption; reflexivity
                     |intros N5; rewrite Z9, Z8, Z7, Z6, Z5 by assumption; reflexivity|congruence]. }
  exists js, ms, xs, lss, kss. split; auto.
  - apply S9.
  - rewrite <- J2. apply (TL Jouyou ltac:(notin)); discriminate.
  - rewrite <- N2. apply (TL Jinmei ltac:(notin)); discriminate.
  - rewrite <- X2. apply (TL Extra ltac:(notin)).
  - eapply forall2s_grow; [exact G7|exact L6a].
  - intro x. destruct M9 as [M9 _]. rewrite M9, K8, T7, T6. destruct M1 as [Ma _], M2 as [Mb _], M3 as [Mc _], M4 as [Md _], M5 as [Me _].
    rewrite Me, Md, Mc, Mb, Ma. reflexivity.
  - eapply forall2s_grow; [exact G9|exact L8a].
  - intro x. destruct M9 as [_ [M9 _]]. rewrite M9, T8, K7, K6. destruct M1 as [_ [Ma _]], M2 as [_ [Mb _]], M3 as [_ [Mc _]], M4 as [_ [Md _]], M5 as [_ [Me _]].
    rewrite Me, Md, Mc, Mb, Ma. reflexivity.
  - intros k K. apply in_app_or in K. destruct K as [K|K]; [eapply grow_found; [exact G2|apply P1; exact K]|].
    apply in_app_or in K. destruct K as [K|K]; [eapply grow_found; [exact G5|apply P4; exact K]|eapply grow_found; [exact G6|apply P5; exact K]].
  - intros k j K Hj. eapply grow_found; [exact G5|]. apply (P4 k K). exact Hj.
  - intros k j K Tk Hj. eapply found_grow; [exact W3|exact G4| |exact W9].
    assert (K2 : mfind (kName k) (dNames d2) = Some k).
    { assert (back2 : forall T Q a b, Stage T Q a b -> ~ In Jouyou T -> mfind (kName k) (dNames b) = Some k -> mfind (kName k) (dNames a) = Some k).
      { intros T Q a b S Hn F. destruct (ev_new _ _ _ (sg_ev _ _ _ _ S) _ _ F) as [M|[_ M]]; [exact M|]. rewrite Tk in M. contradiction. }
      eapply back2; [exact S3|notin|]. eapply back2; [exact S4|notin|]. eapply back2; [exact S5|notin|]. eapply back2; [exact S6|notin|].
      eapply back2; [exact S7|notin|]. eapply back2; [exact S8|notin|]. eapply back2; [exact S9|notin|]. exact K. }
    apply In_mfind in K2. eapply P3; eauto.
  - intros li Hl. destruct (P2 li Hl) as [j [s [rs [Q1 [Q2 Q3]]]]]. exists j, s, rs. split; [exact Q1|]. split; (eapply grow_found; [exact G3|assumption]).
  - intros s Hs. eapply found_grow; [exact W7|exact G8|apply Ff; exact Hs|exact W9].
Qed.
