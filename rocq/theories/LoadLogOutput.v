(** Lemmas about the output of loading. *)
From Verif Require Import BaseFacts MapProofs ListProofs DataModel DataSpec DataProofs LoadModel LoadSpec LoadProofs LoadAttr LoadPhases LoadLists LoadEnv LoadWhole LoadFacts.
From Verif Require Import LoadLogModel LoadLogSpec LoadLogTrace LoadLogLists LoadLogWhole LoadLogErrors LoadLogExact.
Import DataProofs LoadSpec.
Arguments N.mul : simpl never. Arguments N.add : simpl never. Arguments N.sub : simpl never.
Arguments N.div : simpl never.

Lemma printNames_line : forall ws what c list, printNames ws what (c :: list) = found_line ws what (c :: list).
Proof.
  intros [|w ws] what c list; [reflexivity|]. unfold printNames, found_line, line, ReportSpec.names_of.
  repeat (progress (rewrite <- ?app_assoc; cbn [app b_])). reflexivity.
Qed.
(** what the trace of a list says about the words *)
Definition shows (d : Data) (s : bytes) (p : bool * Kanji) : Prop :=
  findByName d s = Some (snd p) /\ kName (snd p) = s /\ (fst p = true <-> kType (snd p) = FrequencyType).
Lemma found_filter : forall d t l ps, t <> Jouyou -> t <> FrequencyType ->
  Forall2 (fun s p => findByName d s = Some (snd p) /\ (fst p = true -> kType (snd p) = FrequencyType)) l ps ->
  map snd (filter (fun p => kanjiTypeNumber (fst p) =? kanjiTypeNumber t) (found_types l ps)) = filter (finds_type d t) l.
Proof.
  intros d t l ps T1 T2 H. induction H as [|s [b k] l ps [F B] _ IH]; [reflexivity|].
  cbn [fst snd] in F, B. unfold found_types in *. cbn [combine flat_map filter fst snd] in *. rewrite filter_app, map_app, IH. unfold finds_type at 2. rewrite F. unfold type_is.
  destruct b.
  - rewrite (B eq_refl). destruct t; try contradiction; reflexivity.
  - destruct (kType k) eqn:E; destruct t; try contradiction; reflexivity.
Qed.
Lemma created_filter : forall d l ps, Forall2 (shows d) l ps -> map kName (created ps) = filter (finds_type d FrequencyType) l.
Proof.
  intros d l ps H. unfold created. induction H as [|s [b k] l ps [F [Nm B]] _ IH]; [reflexivity|].
  cbn [filter fst snd] in *. unfold finds_type at 1. rewrite F. unfold type_is. destruct b.
  - rewrite (proj1 B eq_refl). rewrite N.eqb_refl. cbn [map snd]. rewrite Nm. f_equal. exact IH.
  - destruct (kType k) eqn:E; try exact IH. exfalso. assert (false = true) by (apply B; reflexivity). discriminate.
Qed.
Lemma filter_none : forall A (p : A -> bool) l, (forall x, In x l -> p x = false) -> filter p l = [].
Proof. intros A p l H. induction l as [|x l IH]; [reflexivity|]. cbn [filter]. rewrite (H x (or_introl eq_refl)). apply IH. intros y Hy. apply H. right. exact Hy. Qed.
Lemma filter_twice : forall A (p q : A -> bool) l, filter p (filter q l) = filter (fun x => q x && p x) l.
Proof. intros A p q l. induction l as [|x l IH]; [reflexivity|]. cbn [filter]. destruct (q x); cbn [filter andb]; [destruct (p x); rewrite IH; reflexivity|exact IH]. Qed.
Lemma filter_eq : forall A (p q : A -> bool) l, (forall x, In x l -> p x = q x) -> filter p l = filter q l.
Proof.
  intros A p q l H. induction l as [|x l IH]; [reflexivity|]. cbn [filter]. rewrite (H x (or_introl eq_refl)), IH; [reflexivity|].
  intros y Hy. apply H. right. exact Hy.
Qed.
Lemma level_name : forall v, exists c r, levelToString v = c :: r.
Proof. destruct v; eexists; eexists; reflexivity. Qed.

Lemma nodup_flags : forall (l : list bytes) (ps : places), Forall2 (fun s p => kName (snd p) = s) l ps -> NoDup l ->
  forall p, In p ps -> In (snd p) (created ps) -> fst p = true.
Proof.
  assert (Nm : forall (l : list bytes) (ps : places) p, Forall2 (fun s p => kName (snd p) = s) l ps -> In p ps -> In (kName (snd p)) l).
  { intros l ps p H. induction H as [|s q l ps E _ IH]; intros I; [destruct I|]. destruct I as [->|I]; [left; auto|right; auto]. }
  assert (Cr : forall k (ps : places), In k (created ps) -> exists p, In p ps /\ snd p = k).
  { intros k ps H. unfold created in H. apply in_map_iff in H. destruct H as [p [<- H]]. apply filter_In in H. exists p. split; [apply H|reflexivity]. }
  intros l ps H. induction H as [|s q l ps E H IH]; intros Nd p I C; [destruct I|]. inversion Nd as [|? ? N1 N2]; subst.
  destruct (fst q) eqn:Q.
  - destruct I as [->|I]; [exact Q|]. unfold created in C. cbn [filter] in C. rewrite Q in C. cbn [map] in C. destruct C as [C|C]; [|apply IH; auto].
    exfalso. apply N1. rewrite C. eapply Nm; eauto.
  - unfold created in C. cbn [filter] in C. rewrite Q in C. fold (created ps) in C. destruct I as [->|I]; [|apply IH; auto].
    exfalso. apply N1. destruct (Cr _ _ C) as [p' [P1 P2]]. rewrite <- P2. eapply Nm; eauto.
Qed.

Section All.
  Variables (ltr : bool) (f : Files) (st : list_static) (m : N) (e : Env) (d : Data) (full : bool) (ms : list Msg).
  Variables (js ls os jm all xs : list Kanji) (pss : list places) (fps : places) (ws : list Kanji).
  Hypothesis Hf : files_ok f.
  Hypothesis Hl : loadData ltr f st m = Val (e, d).
  Hypothesis T : LoadTrace full f e d ms js ls os jm all xs pss fps ws.
  Hypothesis Ol : forall v s, listed (levelFiles f) v s -> own_name d s.
  Hypothesis Of : forall l s, words (frequencyFile f) l -> In s l -> own_name d s.

  Lemma out_parts : env_ok f e /\ Wf d /\ All (attr e) d.
  Proof. destruct (loadData_loaded _ _ _ _ _ _ Hf Hl) as [O [M [js' [ms' [xs' [lss [kss Lo]]]]]]]. split; [exact O|]. split; apply Lo. Qed.
  Lemma out_attr : forall s k, findByName d s = Some k -> kName k = s -> attr e k.
  Proof.
    intros s k F Nm. destruct out_parts as [_ [W A]]. pose proof (found_loaded d s k W F) as K. apply (loaded_iff d k W) in K. exact (A _ _ K).
  Qed.
  Lemma freq_words : words (frequencyFile f) (listOf (envFrequency e)) /\ NoDup (listOf (envFrequency e)).
  Proof. destruct out_parts as [O _]. split; [apply O|]. apply (en_freq_inv _ _ O). Qed.
  Lemma frequency_new : forall k, loaded_kanji d k -> kType k = FrequencyType -> In k (created fps).
  Proof.
    intros k K1 K2. pose proof (trace_rep f e d full ms js ls os jm all xs pss fps ws T) as R.
    apply (loaded_split _ d k R) in K1. destruct K1 as [a [c [E _]]].
    destruct (trace_types ltr f st m e d full ms js ls os jm all xs pss fps ws Hf Hl T) as [_ [_ [_ [Tj Tx]]]].
    pose proof (lt_ls_type _ _ _ _ _ _ _ _ _ _ _ _ _ _ T) as T1. pose proof (lt_os_type _ _ _ _ _ _ _ _ _ _ _ _ _ _ T) as T2.
    pose proof (lt_all_type _ _ _ _ _ _ _ _ _ _ _ _ _ _ T) as T3. destruct (lt_ws _ _ _ _ _ _ _ _ _ _ _ _ _ _ T) as [r [Hr T4]].
    rewrite Forall_forall in Tj, Tx, T1, T2, T3, T4.
    assert (I : In k ((js ++ ls ++ os ++ all ++ xs) ++ ws)) by (rewrite E; apply in_app_iff; right; left; reflexivity). rewrite Hr, !in_app_iff in I.
    destruct I as [[I|[I|[I|[I|I]]]]|[I|I]]; [|..| |]; try exact I; exfalso.
    - specialize (Tj k I). congruence.
    - specialize (T1 k I). congruence.
    - specialize (T2 k I). congruence.
    - destruct (T3 k I); congruence.
    - specialize (Tx k I). congruence.
    - destruct (T4 k I); congruence.
  Qed.
  Lemma placed_find : forall s p, placed d s p -> own_name d s -> findByName d s = Some (snd p) /\ kName (snd p) = s.
  Proof. intros s p [H1 _] O. destruct out_parts as [_ [W _]]. apply (found_then_own d s (snd p) W H1 O). Qed.
  Lemma placed_all : forall l (ps : places), Forall2 (placed d) l ps -> (forall s, In s l -> own_name d s) ->
    Forall2 (fun s p => findByName d s = Some (snd p) /\ kName (snd p) = s) l ps.
  Proof.
    intros l ps H. induction H as [|s p l ps P _ IH]; intro O; constructor; [apply placed_find; [exact P|apply O; left; reflexivity]|].
    apply IH. intros x Hx. apply O. right. exact Hx.
  Qed.
  Lemma shows_all : forall l (ps : places), Forall2 (fun s p => findByName d s = Some (snd p) /\ kName (snd p) = s) l ps ->
    (forall p, In p ps -> fst p = true <-> kType (snd p) = FrequencyType) -> Forall2 (shows d) l ps.
  Proof.
    intros l ps H. induction H as [|s p l ps [P1 P2] _ IH]; intro O; constructor; [split; [exact P1|split; [exact P2|apply O; left; reflexivity]]|].
    apply IH. intros x Hx. apply O. right. exact Hx.
  Qed.
  Lemma freq_shows : Forall2 (shows d) (listOf (envFrequency e)) fps.
  Proof.
    destruct freq_words as [W Nd]. pose proof (placed_all _ _ (lt_freq _ _ _ _ _ _ _ _ _ _ _ _ _ _ T) (fun s => Of _ s W)) as P.
    apply shows_all; [exact P|]. pose proof (lt_freq_type _ _ _ _ _ _ _ _ _ _ _ _ _ _ T) as Ft. rewrite Forall_forall in Ft.
    intros p I. split.
    - intro B. apply Ft. unfold created. apply in_map. apply filter_In. auto.
    - intro K. eapply nodup_flags; [eapply F2_impl; [|exact P]; intros x y [_ Q]; exact Q|exact Nd|exact I|].
      apply frequency_new; [|exact K]. destruct out_parts as [_ [Wd _]]. clear -P I Wd.
      induction P as [|s q l ps [P1 P2] _ IH]; [destruct I|]. destruct I as [->|I]; [|auto]. eapply found_loaded; eauto.
  Qed.
  Lemma shows_found : forall l ps, Forall2 (shows d) l ps ->
    Forall2 (fun s p => findByName d s = Some (snd p) /\ (fst p = true -> kType (snd p) = FrequencyType)) l ps.
  Proof. intros l ps H. eapply F2_impl; [|exact H]. intros s p [H1 [_ H2]]. split; [exact H1|]. apply H2. Qed.
  (** only words of level lists have a level *)
  Lemma level_listed : forall s, level e s <> NoLevel -> exists v c, In (v, c) (envLevels e) /\ In s (listOf c).
  Proof.
    intros s. unfold level. destruct out_parts as [O _]. pose proof (list_for_inv _ _ _ (en_levels _ _ O)) as Li. clear -Li.
    induction (envLevels e) as [|[v c] r IH]; cbn [levelIn]; [congruence|]. inversion Li as [|? ? L1 L2]; subst. destruct (list_exists c s) eqn:E; intro H.
    - exists v, c. split; [left; reflexivity|]. apply (getIndex_spec c L1). exact E.
    - destruct (IH L2 H) as [v' [c' [I1 I2]]]. exists v', c'. split; [right|]; assumption.
  Qed.
  Lemma level_found : forall v c s, In (v, c) (envLevels e) -> In s (listOf c) -> exists k, findByName d s = Some k /\ kName k = s /\ hasLevel k = true.
  Proof.
    intros v c s I1 I2. pose proof (lt_levels _ _ _ _ _ _ _ _ _ _ _ _ _ _ T) as P. destruct out_parts as [O _].
    destruct (list_for_in _ _ _ _ _ (en_levels _ _ O) I1) as [c' [C1 C2]].
    assert (Ow : own_name d s) by (apply (Ol v); exists c', (listOf c); auto).
    clear -P I1 I2 Ow Hf Hl. induction P as [|q ps l pss [Q1 [Q2 Q3]] _ IH]; [destruct I1|]. destruct I1 as [->|I1]; [|auto]. cbn [snd] in Q1. clear IH.
    induction Q1 as [|x p l' ps P _ IH]; [destruct I2|]. inversion Q2 as [|? ? L1 L2]; subst. destruct I2 as [->|I2].
    - destruct (placed_find s p P Ow) as [F Nm]. exists (snd p). auto.
    - apply IH; [exact I2|exact L2|]. unfold created in *. cbn [filter] in Q3. destruct (fst p); [discriminate|exact Q3].
  Qed.
  Lemma linked_no_level : forall s k, findByName d s = Some k -> kName k = s -> kType k = LinkedJinmei -> level e s = NoLevel.
  Proof.
    intros s k F Nm K. destruct (level e s) eqn:E; try reflexivity; exfalso;
      (destruct (level_listed s) as [v [c [I1 I2]]]; [congruence|]); destruct (level_found v c s I1 I2) as [k' [F' [_ L']]];
      assert (k' = k) by congruence; subst k'; pose proof (at_hidden _ _ (out_attr s k F Nm) ltac:(auto)) as H; unfold hasLevel in L'; rewrite H in L'; discriminate.
  Qed.
  Lemma jinmei_level : forall s, In s (listOf (envFrequency e)) -> finds_type d Jinmei s = true ->
    negb (levelNumber (level e s) =? levelNumber NoLevel) = finds_level d s.
  Proof.
    intros s I K. unfold finds_type, finds_level in *. destruct (findByName d s) as [k|] eqn:F; [|discriminate].
    destruct freq_words as [W _]. pose proof (Of _ s W I k F) as Nm. unfold type_is in K. apply N.eqb_eq in K.
    assert (Kt : kType k = Jinmei) by (destruct (kType k); try discriminate; reflexivity).
    pose proof (at_level _ _ (out_attr s k F Nm)) as H. rewrite Kt in H. specialize (H ltac:(discriminate) ltac:(discriminate) ltac:(discriminate)).
    rewrite Nm in H. unfold hasLevel. rewrite H. destruct (level e s); reflexivity.
  Qed.
  Lemma frequency_output : full = true ->
    outputText (printListData full e FrequencyList (b_ "Frequency") (seen_after FrequencyList (listOf (envFrequency e)) fps nothingSeen))
    = frequency_text d (listOf (envFrequency e)).
  Proof.
    intros Ef. unfold printListData. rewrite Ef. unfold seen_after, jinmeiText, foundOf. cbn [isKyu nothingSeen sCreated sFound app outputText].
    rewrite app_nil_r, (created_filter _ _ _ freq_shows). rewrite !(found_filter d) by (try discriminate; apply shows_found; exact freq_shows).
    unfold frequency_text. rewrite !filter_twice.
    replace (b_ "Frequency") with (70 :: b_ "requency") by reflexivity. rewrite !printNames_line. f_equal. f_equal. cbn [app]. rewrite <- !app_assoc.
    pose proof (shows_found _ _ freq_shows) as Sh. f_equal; [|f_equal; [|]].
    - f_equal. apply filter_eq. intros s I. destruct (finds_type d Jinmei s) eqn:K; [cbn [andb]|reflexivity]. apply jinmei_level; assumption.
    - f_equal. apply filter_eq. intros s I. destruct (finds_type d Jinmei s) eqn:K; [cbn [andb]|reflexivity]. rewrite <- jinmei_level by assumption.
      rewrite Bool.negb_involutive. reflexivity.
    - assert (Z : forall s, In s (listOf (envFrequency e)) -> finds_type d LinkedJinmei s = true -> levelNumber (level e s) =? levelNumber NoLevel = true).
      { intros s I K. unfold finds_type in K. destruct (findByName d s) as [k|] eqn:F; [|discriminate].
        destruct freq_words as [W _]. pose proof (Of _ s W I k F) as Nm. unfold type_is in K. apply N.eqb_eq in K.
        rewrite (linked_no_level s k F Nm); [reflexivity|]. destruct (kType k); try discriminate; reflexivity. }
      rewrite (filter_none _ (fun x => finds_type d LinkedJinmei x && negb _)).
      + cbn [found_line app]. f_equal. apply filter_eq. intros s I. destruct (finds_type d LinkedJinmei s) eqn:K; [cbn [andb]|reflexivity]. apply Z; assumption.
      + intros s I. destruct (finds_type d LinkedJinmei s) eqn:K; [cbn [andb]|reflexivity]. rewrite Z by assumption. reflexivity.
  Qed.
  Lemma level_output : full = true ->
    outputText (level_msgs full e (envLevels e) pss) = flat_map (fun p => level_text d (fst p) (listOf (snd p))) (envLevels e).
  Proof.
    intro Ef. destruct out_parts as [O [Wd _]].
    assert (Ow : forall v c s, In (v, c) (envLevels e) -> In s (listOf c) -> own_name d s).
    { intros v c s I1 I2. destruct (list_for_in _ _ _ _ _ (en_levels _ _ O) I1) as [c' [C1 C2]]. apply (Ol v). exists c', (listOf c). auto. }
    pose proof (lt_levels _ _ _ _ _ _ _ _ _ _ _ _ _ _ T) as P. clear -P Ow Wd Hf Hl Ef.
    induction P as [|[v c] ps l pss [Q1 [Q2 Q3]] _ IH]; [reflexivity|]. unfold level_msgs in *. cbn [combine flat_map fst snd] in *.
    rewrite output_app, IH by (intros v' c' s' I; apply (Ow v'); right; exact I). f_equal. clear IH.
    pose proof (placed_all _ _ Q1 (fun s => Ow v c s (or_introl eq_refl))) as Pl.
    assert (Sh : Forall2 (fun s p => findByName d s = Some (snd p) /\ (fst p = true -> kType (snd p) = FrequencyType)) (listOf c) ps).
    { clear -Pl Q3. unfold created in Q3. induction Pl as [|s p l' ps [F _] _ IH]; constructor; cbn [filter] in Q3; (destruct (fst p); [discriminate|]); [split; [exact F|discriminate]|auto]. }
    assert (Nl : forall t, t = LinkedJinmei \/ t = LinkedOld -> filter (finds_type d t) (listOf c) = []).
    { intros t Ht. apply filter_none. intros s I. unfold finds_type. destruct (findByName d s) as [k|] eqn:F; [|reflexivity]. unfold type_is.
      destruct (kanjiTypeNumber (kType k) =? kanjiTypeNumber t) eqn:K; [|reflexivity]. exfalso. apply N.eqb_eq in K.
      assert (Kt : kType k = LinkedJinmei \/ kType k = LinkedOld) by (destruct Ht; subst t; destruct (kType k); try discriminate; auto).
      assert (Lv : hasLevel k = true /\ kName k = s).
      { clear -Pl Q2 F I. induction Pl as [|x p l' ps [P1 P2] _ IH]; [destruct I|]. inversion Q2; subst. destruct I as [<-|I]; [|apply IH; auto].
        assert (snd p = k) by congruence. subst k. auto. }
      destruct Lv as [Lv Nm]. pose proof (at_hidden _ _ (out_attr s k F Nm) ltac:(tauto)) as H. unfold hasLevel in Lv. rewrite H in Lv. discriminate. }
    unfold printListData. rewrite Ef. unfold seen_after, foundOf. cbn [isKyu nothingSeen sCreated sFound app outputText]. rewrite Q3. cbn [map].
    rewrite !(found_filter d) by (try discriminate; exact Sh). rewrite (Nl LinkedOld), (Nl LinkedJinmei) by auto. cbn [printNames app]. rewrite !app_nil_r. unfold level_text.
    destruct (level_name v) as [a [r ->]]. apply printNames_line.
  Qed.
End All.

(** ** The constructor *)
Lemma loadData_trace : forall sort mode ltr f st m e d, loadData ltr f st m = Val (e, d) ->
  exists ms js ls os jm all xs pss fps ws, LoadTrace (isFull mode) f e d ms js ls os jm all xs pss fps ws
    /\ fst (loadDataL sort mode ltr f st m)
       = (if isFull mode then [ToOut (b_ ">>>
>>> Begin Loading Data
>>>
")] else []) ++ ms ++ match finishedLoadingData sort mode e d with Val t => [ToOut t] | _ => [] end.
Proof.
  intros sort mode ltr f st m e d H. unfold loadData in H. peel H e' E. 
  match type of H with obind ?x _ = _ => destruct x as [d'| | |] eqn:E2; try discriminate end. cbn [obind] in H. injection H as H1 H2. subst e' d'.
  pose proof (loadKanji_erase (isFull mode) e f (newData m)) as Er. rewrite E2 in Er.
  destruct (loadKanji_traced _ _ _ _ _ Er) as [js [ls [os [jm [all [xs [pss [fps [ws Tr]]]]]]]]].
  exists (fst (loadKanjiL (isFull mode) e f (newData m))), js, ls, os, jm, all, xs, pss, fps, ws. split; [exact Tr|].
  unfold loadDataL. rewrite E. destruct (loadKanjiL (isFull mode) e f (newData m)) as [w r] eqn:El. cbn [snd] in Er. subst r.
  destruct (isFull mode); cbn [lsay llift lbind app]; rewrite El; cbn [lbind]; destruct (finishedLoadingData sort mode e d); cbn [lbind fst app]; rewrite ?app_nil_r; reflexivity.
Qed.
Lemma errors_all : forall sort mode ltr f st m e d ns, files_ok f -> Forall row_bytes (ucdRows f) -> loadData ltr f st m = Val (e, d) ->
  (forall k, loaded_kanji d k -> bytes_ok (kName k)) -> line_names (linkedFile f) ns ->
  forall s, In s (errors (fst (loadDataL sort mode ltr f st m))) <-> complaint (envUcd e) d ns s.
Proof.
  intros sort mode ltr f st m e d ns H1 H2 H3 H4 H5 s.
  destruct (loadData_trace sort mode _ _ _ _ _ _ H3) as [ms [js [ls [os [jm [all [xs [pss [fps [ws [Tr ->]]]]]]]]]]].
  rewrite !errors_app. replace (errors (if isFull mode then _ else [])) with (@nil bytes) by (destruct (isFull mode); reflexivity).
  replace (errors (match finishedLoadingData sort mode e d with Val t => [ToOut t] | _ => [] end)) with (@nil bytes) by (destruct (finishedLoadingData sort mode e d); reflexivity).
  rewrite app_nil_r. cbn [app]. eapply errors_spec; eauto.
Qed.
Lemma words_fun : forall c a b, words c a -> words c b -> a = b.
Proof. intros c a b [la [A ->]] [lb [B ->]]. apply file_words_fun in A, B. congruence. Qed.
Lemma level_msgs_quiet : forall e l pss, level_msgs false e l pss = [].
Proof. intros e l pss. unfold level_msgs. induction (combine l pss) as [|[[v c] ps] r IH]; [reflexivity|exact IH]. Qed.
Lemma output_all : forall sort mode ltr f st m e d t lws ws, files_ok f -> loadData ltr f st m = Val (e, d) ->
  finishedLoadingData sort mode e d = Val t ->
  (forall v s, listed (levelFiles f) v s -> own_name d s) -> (forall s, In s ws -> own_name d s) ->
  Forall2 (fun p q => fst q = fst p /\ words (snd p) (snd q)) (levelFiles f) lws -> words (frequencyFile f) ws ->
  outputText (fst (loadDataL sort mode ltr f st m)) = begin_text mode d lws ws ++ t.
Proof.
  intros sort mode ltr f st m e d t lws ws H1 H2 H3 H4 H5 H6 H7.
  destruct (loadData_trace sort mode _ _ _ _ _ _ H2) as [ms [js [ls [os [jm [all [xs [pss [fps [ws' [Tr ->]]]]]]]]]]].
  assert (Of : forall l s, words (frequencyFile f) l -> In s l -> own_name d s).
  { intros l s Hw Hi. rewrite (words_fun _ _ _ Hw H7) in Hi. auto. }
  rewrite !output_app, H3, (lt_output _ _ _ _ _ _ _ _ _ _ _ _ _ _ Tr). cbn [outputText]. rewrite app_nil_r.
  destruct (out_parts ltr f st m e d H1 H2) as [O _]. unfold begin_text.
  destruct mode; cbn [isFull] in *.
  - rewrite (level_output ltr f st m e d true ms js ls os jm all xs pss fps ws' H1 H2 Tr H4 eq_refl).
    rewrite (frequency_output ltr f st m e d true ms js ls os jm all xs pss fps ws' H1 H2 Tr H4 Of eq_refl).
    rewrite (words_fun _ _ _ (en_freq _ _ O) H7).
    replace (flat_map (fun p => level_text d (fst p) (listOf (snd p))) (envLevels e)) with (flat_map (fun q => level_text d (fst q) (snd q)) lws);
      [cbn [outputText]; rewrite <- !app_assoc; reflexivity|].
    pose proof (en_levels _ _ O) as Le. clear -Le H6. revert lws H6. induction Le as [|p q lf le [L1 [L2 L3]] _ IH]; intros lws H; inversion H as [|? r ? lws' [R1 R2] R3]; subst; [reflexivity|].
    cbn [flat_map]. rewrite (IH _ R3). f_equal. rewrite R1, (words_fun _ _ _ R2 L2). f_equal. auto.
  - rewrite level_msgs_quiet. reflexivity.
  - rewrite level_msgs_quiet. reflexivity.
Qed.
Lemma errors_numbered : forall ms n, errorText n ms = error_lines (n + 1) (errors ms).
Proof.
  induction ms as [|[s|s] ms IH]; intro n; cbn [errorText errors error_lines]; [reflexivity|apply IH|]. unfold error_line. rewrite IH.
  unfold putSetw. cbn [app]. repeat (progress (rewrite <- ?app_assoc; cbn [app])). reflexivity.
Qed.

Lemma errors_exact_all : forall sort mode ltr f st m e d ns, files_ok f -> Forall row_bytes (ucdRows f) -> loadData ltr f st m = Val (e, d) ->
  (forall k, loaded_kanji d k -> bytes_ok (kName k)) -> line_names (linkedFile f) ns ->
  all_complaints (envUcd e) d ns (errors (fst (loadDataL sort mode ltr f st m))).
Proof.
  intros sort mode ltr f st m e d ns H1 H2 H3 H4 H5.
  destruct (loadData_trace sort mode _ _ _ _ _ _ H3) as [ms [js [ls [os [jm [all [xs [pss [fps [ws [Tr ->]]]]]]]]]]].
  rewrite !errors_app. replace (errors (if isFull mode then _ else [])) with (@nil bytes) by (destruct (isFull mode); reflexivity).
  replace (errors (match finishedLoadingData sort mode e d with Val t => [ToOut t] | _ => [] end)) with (@nil bytes) by (destruct (finishedLoadingData sort mode e d); reflexivity).
  rewrite app_nil_r. cbn [app]. eapply errors_exact; eauto.
Qed.

(** ** The mode *)
Definition alike {A} (x y : L A) : Prop := errors (fst x) = errors (fst y) /\ snd x = snd y.
Lemma alike_refl : forall A (x : L A), alike x x.
Proof. split; reflexivity. Qed.
Lemma alike_bind : forall A B (x y : L A) (f g : A -> L B), alike x y -> (forall a, alike (f a) (g a)) -> alike (lbind x f) (lbind y g).
Proof.
  intros A B [wx rx] [wy ry] f g [H1 H2] Hf. cbn [fst snd] in H1, H2. subst ry. destruct rx as [a| | |]; cbn [lbind]; try (split; [exact H1|reflexivity]).
  specialize (Hf a). destruct (f a) as [w1 r1], (g a) as [w2 r2]. destruct Hf as [F1 F2]. cbn [fst snd] in F1, F2. subst r2. split; [|reflexivity].
  cbn [fst]. rewrite !errors_app, H1, F1. reflexivity.
Qed.
Lemma alike_list : forall x y e kind name make l d, alike (processListL x e kind name make l d) (processListL y e kind name make l d).
Proof.
  intros. unfold processListL. apply alike_bind; [apply alike_refl|]. intros [d' s]. apply alike_bind; [|intro; apply alike_refl].
  split; [cbn [lsay fst]; rewrite !printListData_errors; reflexivity|reflexivity].
Qed.
Lemma alike_levels : forall x y e l d, alike (processLevelsL x e l d) (processLevelsL y e l d).
Proof. intros x y e. induction l as [|[v c] l IH]; intro d; cbn [processLevelsL]; [apply alike_refl|]. apply alike_bind; [apply alike_list|intro; apply IH]. Qed.
Lemma alike_kyus : forall x y e l d, alike (processKyusL x e l d) (processKyusL y e l d).
Proof. intros x y e. induction l as [|[v c] l IH]; intro d; cbn [processKyusL]; [apply alike_refl|]. apply alike_bind; [apply alike_list|intro; apply IH]. Qed.
Lemma alike_kanji : forall x y e f d, alike (loadKanjiL x e f d) (loadKanjiL y e f d).
Proof.
  intros. unfold loadKanjiL. do 5 (apply alike_bind; [apply alike_refl|intro]). apply alike_bind; [apply alike_levels|intro].
  apply alike_bind; [apply alike_list|intro]. apply alike_bind; [apply alike_kyus|intro]. apply alike_refl.
Qed.
Lemma errors_bind : forall A B (x y : L A) (f g : A -> L B), alike x y -> (forall a, errors (fst (f a)) = errors (fst (g a))) ->
  errors (fst (lbind x f)) = errors (fst (lbind y g)).
Proof.
  intros A B [wx rx] [wy ry] f g [H1 H2] Hf. cbn [fst snd] in H1, H2. subst ry. destruct rx as [a| | |]; cbn [lbind]; try exact H1.
  specialize (Hf a). destruct (f a) as [w1 r1], (g a) as [w2 r2]. cbn [fst] in *. rewrite !errors_app, H1, Hf. reflexivity.
Qed.
Lemma errors_mode : forall sort x y ltr f st m, errors (fst (loadDataL sort x ltr f st m)) = errors (fst (loadDataL sort y ltr f st m)).
Proof.
  intros sort x y ltr f st m. unfold loadDataL. apply errors_bind; [split; [destruct (isFull x), (isFull y); reflexivity|reflexivity]|]. intros _.
  apply errors_bind; [apply alike_refl|]. intro e. apply errors_bind; [apply alike_kanji|]. intro d.
  destruct (finishedLoadingData sort x e d), (finishedLoadingData sort y e d); reflexivity.
Qed.
