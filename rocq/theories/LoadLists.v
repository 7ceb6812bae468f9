(** Lemmas about loading Kanji: the lists and the Unicode data. *)
From Verif Require Import BaseFacts MapProofs DataModel DataSpec DataProofs LoadModel LoadSpec LoadProofs LoadAttr LoadPhases.
Arguments N.mul : simpl never. Arguments N.add : simpl never. Arguments N.sub : simpl never.
Arguments N.div : simpl never.

Definition kind_new (kind : ListKind) : KanjiTypes := match kind with DataModel.KyuList _ => Kentei | _ => FrequencyType end.
Definition kind_has (kind : ListKind) (k : Kanji) : Prop :=
  match kind with DataModel.LevelList => hasLevel k = true | DataModel.KyuList _ => hasKyu k = true | FrequencyList => True end.
(** the Kanji made for the entry at position j *)
Definition made_at (kind : ListKind) (make : N -> bytes -> out Kanji) (i : N) (l : list bytes) (d : Data) (k : Kanji) : Prop :=
  exists j s, nth_error l j = Some s /\ findByName d s = None /\ ~ In s (firstn j l)
  /\ make (i + N.of_nat j + 1) s = Val k /\ kind_has kind k.
(** the Kanji [k] was found for [s] at some time *)
Definition found_then (d' : Data) (s : bytes) (k : Kanji) : Prop :=
  exists dt, Wf dt /\ Grow dt d' /\ findByName dt s = Some k.
Lemma found_then_grow : forall d d' s k, Grow d d' -> found_then d s k -> found_then d' s k.
Proof. intros d d' s k G [dt [W [G' F]]]. exists dt. split; [exact W|]. split; [eapply Grow_trans; eauto|exact F]. Qed.
Lemma found_then_now : forall d s k, Wf d -> found_then d s k -> findByName d s <> None.
Proof. intros d s k W [dt [W' [G F]]]. eapply found_grow; [exact W'|exact G|congruence|exact W]. Qed.
Lemma found_then_own : forall d s k, Wf d -> found_then d s k -> own_name d s -> findByName d s = Some k /\ kName k = s.
Proof.
  intros d s k W Ft O. pose proof (found_then_now d s k W Ft) as F. destruct Ft as [dt [W' [G F']]].
  destruct (findByName d s) as [k'|] eqn:E; [|congruence]. specialize (O k' E).
  pose proof (found_same dt d s k k' W' W G F' E O). subst k'. auto.
Qed.

Definition level_at (x : N) (ks : list Kanji) : list Kanji := filter (fun k => levelNumber (kLevel k) =? x) ks.
Definition kyu_at (x : N) (ks : list Kanji) : list Kanji := filter (fun k => kyuNumber (kKyu k) =? x) ks.
(** how the tables change when [ks] are processed *)
Definition tables (kind : ListKind) (ks : list Kanji) (d d' : Data) : Prop :=
  (forall x, alist N.eqb x (dLevels d') = alist N.eqb x (dLevels d) ++ match kind with DataModel.LevelList => level_at x ks | _ => [] end)
  /\ (forall x, alist N.eqb x (dKyus d') = alist N.eqb x (dKyus d) ++ match kind with DataModel.KyuList _ => kyu_at x ks | _ => [] end).

Lemma processLoop_stage : forall kind make,
  (forall i s k, make i s = Val k -> kName k = s /\ kType k = kind_new kind) ->
  forall l i d d', Wf d -> Auto d -> processLoop kind make i l d = Val d' ->
  exists ks, Stage [kind_new kind] (made_at kind make i l d) d d'
  /\ Forall2 (found_then d') l ks /\ Forall (kind_has kind) ks /\ tables kind ks d d'.
Proof.
  intros kind make Hm. induction l as [|name l IH]; intros i d d' W A H; cbn [processLoop] in H.
  - inversion H; subst. exists []. split; [apply Stage_refl; assumption|]. split; [constructor|]. split; [constructor|].
    split; intro x; destruct kind; cbn; rewrite ?app_nil_r; reflexivity.
  - peel H p E. destruct p as [d1 k]. peel H d2 E2.
    assert (Hsing : made_singly (kind_new kind)) by (destruct kind; unfold made_singly; cbn; auto).
    (* the Kanji of the first name *)
    assert (S1 : Stage [kind_new kind] (fun y => y = k /\ findByName d name = None /\ make (i + 1) name = Val y) d d1
                 /\ Same d d1 /\ findByName d1 name = Some k).
    { destruct (findByName d name) as [k0|] eqn:F.
      - inversion E; subst. split; [apply Stage_refl; assumption|]. split; [apply Same_refl|exact F].
      - peel E k0 E0. peel E p E1. destruct p as [d0 b]. inversion E; subst d0 k0. destruct (Hm _ _ _ E0) as [M1 M2].
        assert (M3 : checkInsertType d (kind_new kind) k = Val (d1, b)) by (destruct kind; exact E1).
        destruct (stage_typed d d1 (kind_new kind) k b W A Hsing M2 M3) as [S [Sm [_ Q]]].
        rewrite M1 in Q. destruct (Q F) as [Q1 _]. split; [|split; [exact Sm|exact Q1]].
        eapply Stage_weaken; [apply incl_refl| |exact S]. intros y <-. auto. }
    destruct S1 as [S1 [Sm1 F1]].
    (* adding it to a list changes no name *)
    assert (S2 : dNames d2 = dNames d1 /\ dCompat d2 = dCompat d1 /\ dTypes d2 = dTypes d1 /\ kind_has kind k /\ tables kind [k] d1 d2).
    { unfold tables. destruct kind; cbn [kind_has level_at kyu_at filter].
      - unfold addToLevels in E2. destruct (hasLevel k) eqn:Hl; inversion E2; subst d2; cbn [dNames dCompat dTypes dLevels dKyus].
        repeat split; auto; intro x; rewrite ?app_nil_r; try reflexivity. rewrite (alist_append N.eqb N.eqb_eq).
        destruct (levelNumber (kLevel k) =? x); reflexivity.
      - unfold addToKyus in E2. destruct (hasKyu k) eqn:Hl; inversion E2; subst d2; cbn [dNames dCompat dTypes dLevels dKyus].
        repeat split; auto; intro x; rewrite ?app_nil_r; try reflexivity. rewrite (alist_append N.eqb N.eqb_eq).
        destruct (kyuNumber (kKyu k) =? x); reflexivity.
      - inversion E2; subst d2. unfold addToFrequencies. cbn [dNames dCompat dTypes dLevels dKyus].
        repeat split; auto; intro x; rewrite app_nil_r; reflexivity. }
    destruct S2 as [N1 [N2 [N3 [Hk Tb2]]]].
    assert (W2 : Wf d2).
    { destruct (sg_wf _ _ _ _ S1) as [w1 w2 w3 w4]. split; rewrite ?N1, ?N2; auto. }
    assert (A2 : Auto d2).
    { intros t Ht. destruct (sg_auto _ _ _ _ S1 t Ht) as [a1 a2]. unfold type_list in *. rewrite N1, N3. split; assumption. }
    assert (G12 : Grow d1 d2) by (split; rewrite ?N1, ?N2; auto).
    assert (E12 : Stage [kind_new kind] (fun _ => False) d1 d2).
    { split; auto; [split; auto|].
      - intros s y K. left. rewrite N1 in K. exact K.
      - intros t _. unfold type_list. rewrite N3. reflexivity.
      - intros s y K. left. rewrite N1 in K. exact K. }
    assert (F2 : findByName d2 name = Some k) by (unfold findByName in *; rewrite N1, N2; exact F1).
    destruct (IH (i + 1) d2 d' W2 A2 H) as [ks [S3 [Ff [Hh Tb3]]]].
    assert (G1 : Grow d d1) by apply S1. assert (G3 : Grow d2 d') by apply S3.
    exists (k :: ks). split; [|split; [|split]].
    + apply Stage_trans with d1; [|apply Stage_trans with d2].
      * eapply Stage_weaken; [apply incl_refl| |exact S1]. intros y [-> [Q1 Q2]]. exists 0%nat, name.
        split; [reflexivity|]. split; [exact Q1|]. split; [intros []|]. replace (i + N.of_nat 0 + 1) with (i + 1) by lia. auto.
      * eapply Stage_weaken; [apply incl_refl| |exact E12]. intros y [].
      * eapply Stage_weaken; [apply incl_refl| |exact S3]. intros y [j [s [Q1 [Q2 [Q3 [Q4 Q5]]]]]]. exists (S j), s.
        split; [exact Q1|]. split.
        { destruct (findByName d s) eqn:K; [|reflexivity]. exfalso.
          apply (found_grow d d2 s W (Grow_trans _ _ _ G1 G12)); [congruence|exact W2|exact Q2]. }
        split; [intros [K|K]; [subst s; congruence|exact (Q3 K)]|].
        replace (i + N.of_nat (S j) + 1) with (i + 1 + N.of_nat j + 1) by lia. auto.
    + constructor; [|exact Ff]. exists d2. auto.
    + constructor; assumption.
    + destruct Tb2 as [T1 T2], Tb3 as [T3 T4], Sm1 as [M1 [M2 _]]. split; intro x.
      * rewrite T3, T1, M1, <- app_assoc. f_equal. destruct kind; try reflexivity.
        unfold level_at. cbn [filter]. destruct (levelNumber (kLevel k) =? x); reflexivity.
      * rewrite T4, T2, M2, <- app_assoc. f_equal. destruct kind; try reflexivity.
        unfold kyu_at. cbn [filter]. destruct (kyuNumber (kKyu k) =? x); reflexivity.
Qed.

(** ** The levels: no Kanji is made *)
Lemma processLevels_stage : forall e l d d', Wf d -> Auto d -> processLevels e l d = Val d' ->
  exists kss, Stage [FrequencyType] (fun _ => False) d d'
  /\ Forall2 (fun f ks => Forall2 (found_then d') (listOf (snd f)) ks /\ Forall (fun k => hasLevel k = true) ks) l kss
  /\ (forall x, alist N.eqb x (dLevels d') = alist N.eqb x (dLevels d) ++ level_at x (concat kss))
  /\ dKyus d' = dKyus d.
Proof.
  intros e. induction l as [|[v f] l IH]; intros d d' W A H; cbn [processLevels] in H.
  - inversion H; subst. exists []. split; [apply Stage_refl; assumption|]. split; [constructor|].
    split; [|reflexivity]. intro x. cbn. rewrite app_nil_r. reflexivity.
  - peel H d1 E. unfold processLevel, processList in E.
    destruct (processLoop_stage DataModel.LevelList _ (fun i s k K => conj (proj1 (frequency_fields e i s k K)) (proj1 (proj2 (frequency_fields e i s k K)))) _ 0 d d1 W A E) as [ks [S1 [F1 [H1 T1]]]].
    assert (S1' : Stage [FrequencyType] (fun _ => False) d d1).
    { eapply Stage_weaken; [apply incl_refl| |exact S1]. intros k [j [s [_ [_ [_ [Q1 Q2]]]]]].
      destruct (frequency_fields e _ s k Q1) as [_ [_ [_ [_ [_ L]]]]]. cbn [kind_has] in Q2. unfold hasLevel in Q2. rewrite L in Q2. discriminate. }
    destruct (IH d1 d' (sg_wf _ _ _ _ S1) (sg_auto _ _ _ _ S1) H) as [kss [S2 [F2 [T2 K2]]]].
    assert (G2 : Grow d1 d') by apply S2.
    assert (K1 : dKyus d1 = dKyus d).
    { clear - E. revert E. generalize 0 as i. generalize (listOf f) as l. intro l. revert d.
      induction l as [|n l IH]; intros d i E; cbn [processLoop] in E; [inversion E; reflexivity|].
      peel E p E1. destruct p as [d2 k]. peel E d3 E2. rewrite (IH _ _ E). unfold addToLevels in E2. destruct (hasLevel k); inversion E2; subst d3. cbn [dKyus].
      destruct (findByName d n); [inversion E1; reflexivity|]. peel E1 k0 E3. peel E1 p E4. destruct p as [d4 b]. inversion E1; subst. clear -E4.
      unfold checkInsertType, checkInsert in E4. destruct (mfind (kName k) (dNames d)); cbn [obind] in E4; [inversion E4; reflexivity|].
      destruct (variant k); cbn [obind] in E4; inversion E4; reflexivity. }
    exists (ks :: kss). split; [eapply Stage_trans; eauto|]. split; [|split; [|congruence]].
    + constructor; [|exact F2]. cbn [snd]. split; [|exact H1].
      clear -F1 G2. induction F1; constructor; [eapply found_then_grow; eauto|exact IHF1].
    + intro x. rewrite T2. destruct T1 as [T1 _]. rewrite T1, <- app_assoc. cbn [concat]. unfold level_at. rewrite filter_app. reflexivity.
Qed.
(** ** The frequency list *)
Lemma processFrequency_stage : forall e d d', Wf d -> Auto d -> processFrequency e d = Val d' ->
  exists ks, Stage [FrequencyType] (made_at FrequencyList (fun i s => makeFrequency e i s) 0 (listOf (envFrequency e)) d) d d'
  /\ Forall2 (found_then d') (listOf (envFrequency e)) ks
  /\ (forall x, alist N.eqb x (dLevels d') = alist N.eqb x (dLevels d))
  /\ (forall x, alist N.eqb x (dKyus d') = alist N.eqb x (dKyus d)).
Proof.
  intros e d d' W A H. unfold processFrequency, processList in H.
  destruct (processLoop_stage FrequencyList _ (fun i s k K => conj (proj1 (frequency_fields e i s k K)) (proj1 (proj2 (frequency_fields e i s k K)))) _ 0 d d' W A H) as [ks [S1 [F1 [_ [T1 T2]]]]].
  exists ks. split; [exact S1|]. split; [exact F1|]. split; intro x; [rewrite T1|rewrite T2]; apply app_nil_r.
Qed.
(** ** The kyus *)
Definition made_kentei (e : Env) (l : list (KenteiKyus * ListFile)) (d : Data) (k : Kanji) : Prop :=
  exists before v f after s, l = before ++ (v, f) :: after /\ In s (listOf f) /\ findByName d s = None
  /\ (forall p, In p before -> ~ In s (listOf (snd p)))
  /\ makeKentei e v s = Val k.
Lemma processKyus_stage : forall e l d d', Wf d -> Auto d -> processKyus e l d = Val d' ->
  exists kss, Stage [Kentei] (made_kentei e l d) d d'
  /\ Forall2 (fun f ks => Forall2 (found_then d') (listOf (snd f)) ks /\ Forall (fun k => hasKyu k = true) ks) l kss
  /\ (forall x, alist N.eqb x (dKyus d') = alist N.eqb x (dKyus d) ++ kyu_at x (concat kss))
  /\ (forall x, alist N.eqb x (dLevels d') = alist N.eqb x (dLevels d)).
Proof.
  intros e. induction l as [|[v f] l IH]; intros d d' W A H; cbn [processKyus] in H.
  - inversion H; subst. exists []. split; [apply Stage_refl; assumption|]. split; [constructor|].
    split; [|reflexivity]. intro x. cbn. rewrite app_nil_r. reflexivity.
  - peel H d1 E. unfold processKyu, processList in E.
    destruct (processLoop_stage (DataModel.KyuList v) _ (fun i s k K => conj (proj1 (kentei_fields e v s k K)) (proj1 (proj2 (kentei_fields e v s k K)))) _ 0 d d1 W A E) as [ks [S1 [F1 [H1 [T0 T1]]]]].
    assert (Fd : forall s, In s (listOf f) -> findByName d1 s <> None).
    { intros s Hs. assert (W1 : Wf d1) by apply S1. clear -F1 Hs W1. induction F1 as [|a b la lb Q F IH]; [destruct Hs|].
      destruct Hs as [<-|Hs]; [eapply found_then_now; eauto|apply IH; exact Hs]. }
    destruct (IH d1 d' (sg_wf _ _ _ _ S1) (sg_auto _ _ _ _ S1) H) as [kss [S2 [F2 [T2 L2]]]].
    assert (G1 : Grow d d1) by apply S1. assert (G2 : Grow d1 d') by apply S2.
    exists (ks :: kss). split; [|split; [|split]].
    + apply Stage_trans with d1.
      * eapply Stage_weaken; [apply incl_refl| |exact S1]. intros k [j [s [Q1 [Q2 [Q3 [Q4 Q5]]]]]].
        exists [], v, f, l, s. split; [reflexivity|]. split; [eapply nth_error_In; exact Q1|]. split; [exact Q2|]. split; [intros p []|exact Q4].
      * eapply Stage_weaken; [apply incl_refl| |exact S2]. intros k [b [v' [f' [a [s [Q1 [Q2 [Q3 [Q4 Q5]]]]]]]]].
        exists ((v, f) :: b), v', f', a, s. split; [rewrite Q1; reflexivity|]. split; [exact Q2|]. split.
        { destruct (findByName d s) eqn:K; [|reflexivity]. exfalso.
          apply (found_grow d d1 s W G1); [congruence|apply S1|exact Q3]. }
        split; [|exact Q5]. intros p [<-|Hp]; [|apply Q4; exact Hp]. cbn [snd]. intro K. exact (Fd s K Q3).
    + constructor; [|exact F2]. cbn [snd]. split; [|exact H1].
      clear -F1 G2. induction F1; constructor; [eapply found_then_grow; eauto|exact IHF1].
    + intro x. rewrite T2, T1, <- app_assoc. cbn [concat]. unfold kyu_at. rewrite filter_app. reflexivity.
    + intro x. rewrite L2, T0. apply app_nil_r.
Qed.
(** ** The Unicode data *)
Lemma processUcd_stage : forall e l d d', Wf d -> Auto d -> processUcd e l d = Val d' ->
  Stage [UcdType] (fun k => exists n u, In (n, u) l /\ findByName d (ucdName u) = None /\ makeUcdKanji e u = Val k) d d' /\ Same d d'
  /\ forall n u, In (n, u) l -> findByName d' (ucdName u) <> None.
Proof.
  intros e. induction l as [|[n u] l IH]; intros d d' W A H; cbn [processUcd] in H.
  - inversion H; subst. split; [apply Stage_refl; assumption|]. split; [apply Same_refl|intros n u []].
  - destruct (findByName d (ucdName u)) as [z|] eqn:F.
    + destruct (IH d d' W A H) as [S2 [Sm2 P2]]. split; [|split; [exact Sm2|]].
      * eapply Stage_weaken; [apply incl_refl| |exact S2]. intros k [n' [u' [Q1 Q2]]]. exists n', u'. split; [right; exact Q1|exact Q2].
      * intros n' u' [Q|Q]; [|eapply P2; eauto]. inversion Q; subst n' u'. eapply found_grow; [exact W|apply S2| |apply S2]. congruence.
    + peel H k E. peel H p E1. destruct p as [d1 b].
      destruct (ucdkanji_fields e u k E) as [K1 [K2 _]].
      destruct (stage_typed d d1 UcdType k b W A ltac:(unfold made_singly; auto) K2 E1) as [S1 [Sm1 [P1 Q1]]].
      rewrite K1 in Q1. destruct (Q1 F) as [Q2 _].
      destruct (IH d1 d' (sg_wf _ _ _ _ S1) (sg_auto _ _ _ _ S1) H) as [S2 [Sm2 P2]].
      assert (G1 : Grow d d1) by apply S1.
      split; [|split; [eapply Same_trans; eauto|]].
      * apply Stage_trans with d1.
        -- eapply Stage_weaken; [apply incl_refl| |exact S1]. intros y <-. exists n, u. split; [left; reflexivity|auto].
        -- eapply Stage_weaken; [apply incl_refl| |exact S2]. intros y [n' [u' [R1 [R2 R3]]]]. exists n', u'. split; [right; exact R1|]. split; [|exact R3].
           destruct (findByName d (ucdName u')) eqn:K; [|reflexivity]. exfalso.
           apply (found_grow d d1 (ucdName u') W G1); [congruence|apply S1|exact R2].
      * intros n' u' [Q|Q]; [|eapply P2; eauto]. inversion Q; subst n' u'. eapply found_grow; [apply S1|apply S2| |apply S2]. congruence.
Qed.
