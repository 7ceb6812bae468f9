(** Lemmas about the programs: nothing is written in normal mode, and there are always ten frequency lists. *)
From Verif Require Import BaseFacts LoadModel LoadAttr LoadLogModel LoadLogLists LoadLogTrace DirModel QuizDataModel ReportModel ReportProps.
Open Scope N_scope.

(** ** Nothing is written to the output *)
Definition quiet {A} (m : L A) : Prop := outputText (fst m) = [].
Lemma quiet_lift : forall A (x : out A), quiet (llift x).
Proof. reflexivity. Qed.
Lemma quiet_bind : forall A B (m : L A) (f : A -> L B), quiet m -> (forall x, quiet (f x)) -> quiet (lbind m f).
Proof.
  intros A B [w r] f H K. unfold quiet in *. unfold lbind. destruct r; cbn [fst] in *; try exact H.
  specialize (K a). destruct (f a). cbn [fst] in *. rewrite output_app, H, K. reflexivity.
Qed.
Lemma insert_quiet : forall e d k, outputText (insertMsgs e d k) = [].
Proof.
  intros e d k. unfold insertMsgs. destruct (mfind _ _); [reflexivity|]. rewrite output_app.
  replace (outputText (sanityChecks e k)) with (@nil N); [destruct (variant k) as [[|]| | |]; try reflexivity; destruct (mfind _ _); reflexivity|].
  unfold sanityChecks, sanityError. destruct (ucdFind _ _) as [[u|]| | |]; try reflexivity.
  destruct (kType k); try reflexivity; [destruct (joyo u)|destruct (jinmei u)|destruct (negb (jinmei u)); [|destruct (hasLinks u)]]; reflexivity.
Qed.
Lemma insert_type_quiet : forall e d t k, quiet (checkInsertTypeL e d t k).
Proof. intros. apply insert_quiet. Qed.
Lemma insert_plain_quiet : forall e d k, quiet (checkInsertL e d k).
Proof. intros. apply insert_quiet. Qed.
Ltac hush := repeat match goal with
  | |- quiet (llift _) => apply quiet_lift
  | |- quiet (checkInsertTypeL _ _ _ _) => apply insert_type_quiet
  | |- quiet (checkInsertL _ _ _) => apply insert_plain_quiet
  | |- quiet (lbind _ _) => apply quiet_bind; [|intros]
  | |- quiet (let '(_, _) := ?p in _) => destruct p
  | |- quiet (match ?x with _ => _ end) => destruct x
  end.
Lemma insert_all_quiet : forall e ks d, quiet (insertAllL e d ks).
Proof. intros e. induction ks as [|k ks IH]; intros d; cbn [insertAllL]; hush. apply IH. Qed.
Lemma linked_lines_quiet : forall e lines d, quiet (loadLinkedLinesL e lines d).
Proof. intros e. induction lines as [|l lines IH]; intros d; cbn [loadLinkedLinesL]; hush. apply IH. Qed.
Lemma old_names_quiet : forall e k names d, quiet (loadOldNamesL e k names d).
Proof. intros e k. induction names as [|l names IH]; intros d; cbn [loadOldNamesL]; hush; apply IH. Qed.
Lemma old_quiet : forall e l d, quiet (loadOldL e l d).
Proof. intros e. induction l as [|[n k] l IH]; intros d; cbn [loadOldL]; hush; [apply old_names_quiet|apply IH]. Qed.
Lemma linked_names_quiet : forall e k names d, quiet (loadLinkedNamesL e k names d).
Proof. intros e k. induction names as [|l names IH]; intros d; cbn [loadLinkedNamesL]; hush; apply IH. Qed.
Lemma jinmei_quiet : forall e ks d, quiet (insertJinmeiL e ks d).
Proof. intros e. induction ks as [|k ks IH]; intros d; cbn [insertJinmeiL]; hush; [apply linked_names_quiet|apply IH]. Qed.
Lemma process_quiet : forall e kind make l i d s, quiet (processLoopL e kind make i l d s).
Proof. intros e kind make. induction l as [|n l IH]; intros i d s; cbn [processLoopL]; hush. all: apply IH. Qed.
Lemma list_quiet : forall e kind name make l d, quiet (processListL false e kind name make l d).
Proof. intros. unfold processListL. apply quiet_bind; [apply process_quiet|]. intros [d' s]. hush. reflexivity. Qed.
Lemma levels_quiet : forall e l d, quiet (processLevelsL false e l d).
Proof. intros e. induction l as [|[v f] l IH]; intros d; cbn [processLevelsL]; hush; [apply list_quiet|apply IH]. Qed.
Lemma kyus_quiet : forall e l d, quiet (processKyusL false e l d).
Proof. intros e. induction l as [|[v f] l IH]; intros d; cbn [processKyusL]; hush; [apply list_quiet|apply IH]. Qed.
Lemma ucd_quiet : forall e l d, quiet (processUcdL e l d).
Proof. intros e. induction l as [|[v u] l IH]; intros d; cbn [processUcdL]; hush; apply IH. Qed.
Lemma dir_quiet : forall fs writable reg sort ltr dir st max, quiet (loadDir fs writable reg sort DebugNone ltr dir st max).
Proof.
  intros. unfold loadDir, readKanji, readPlain, readJinmei. cbn [isFull]. apply quiet_bind; [reflexivity|intros _]. apply quiet_bind; [apply quiet_lift|intros e].
  apply quiet_bind.
  - hush; first [apply insert_all_quiet|apply linked_lines_quiet|apply old_quiet|apply jinmei_quiet|apply levels_quiet|apply list_quiet|apply kyus_quiet|apply ucd_quiet].
  - intros d. destruct (C100_info sort e d) as [E _]. rewrite E. reflexivity.
Qed.
Lemma missing_quiet : forall find r names, outputText (missingMembers find r names) = [].
Proof. intros find r. induction names as [|n names IH]; [reflexivity|]. cbn [missingMembers]. destruct (find n); exact IH. Qed.
Lemma row_quiet : forall find t r, quiet (rowGroupL find t r).
Proof. intros. unfold rowGroupL. hush. apply missing_quiet. Qed.
Lemma meaning_quiet : forall find rows m l, quiet (loadMeaningL find rows m l).
Proof. intros find. induction rows as [|r rows IH]; intros m l; cbn [loadMeaningL]; hush; [apply row_quiet|apply IH]. Qed.
Lemma pattern_add_quiet : forall g ks m, quiet (addPatternL g ks m).
Proof. intros g. induction ks as [|k ks IH]; intros m; cbn [addPatternL]; hush; [|apply IH]. unfold quiet. cbn [lsay fst]. destruct (mfind _ _); reflexivity. Qed.
Lemma pattern_quiet : forall find rows m l, quiet (loadPatternL find rows m l).
Proof. intros find. induction rows as [|r rows IH]; intros m l; cbn [loadPatternL]; hush; [apply row_quiet|apply pattern_add_quiet|apply IH]. Qed.
Lemma groups_quiet : forall fs writable reg f dir d, quiet (newGroupData fs writable reg DebugNone f dir d).
Proof. intros. unfold newGroupData, loadFromL. cbn [isDebug]. hush; [apply meaning_quiet|apply pattern_quiet]. Qed.
Lemma jukugo_quiet : forall fs f dir d, quiet (newJukugoData fs DebugNone f dir d).
Proof.
  intros. unfold newJukugoData. cbn [isDebug].
  assert (H : forall l jd, quiet (jukugoFiles fs false (joinPath dir (b_ "jukugo")) l jd)).
  { induction l as [|[n g] l IH]; intros jd; cbn [jukugoFiles]; unfold jukugoFile; hush; [reflexivity|apply IH]. }
  hush; [reflexivity|apply H|reflexivity].
Qed.

(** ** Ten lists *)
Definition ten (d : Data) : Prop := List.length (dFreqs d) = 10%nat.
Lemma append_length : forall A i (x : A) l, List.length (appendAt i x l) = List.length l.
Proof. intros A. induction i as [|i IH]; intros x [|a l]; cbn [appendAt List.length]; auto. Qed.
Lemma freq_ten : forall d k, ten d -> ten (addToFrequencies d k).
Proof. intros d k H. unfold ten, addToFrequencies. cbv zeta. cbn [dFreqs]. rewrite append_length. exact H. Qed.
Definition keeps (m : out Data) : Prop := forall d, m = Val d -> ten d.
Lemma keeps_val : forall d, ten d -> keeps (Val d).
Proof. intros d H d' E. injection E as <-. exact H. Qed.
Lemma keeps_throw : forall e, keeps (Throw e).
Proof. intros e d H. discriminate H. Qed.
Lemma keeps_bind : forall (m : out Data) f, keeps m -> (forall d, ten d -> keeps (f d)) -> keeps (x <- m ;; f x).
Proof. intros m f H K d' E. destruct m as [d| | |]; try discriminate. exact (K d (H d eq_refl) d' E). Qed.
Lemma keeps_any : forall A (m : out A) f, (forall x, keeps (f x)) -> keeps (x <- m ;; f x).
Proof. intros A m f K d' E. destruct m as [x| | |]; try discriminate. exact (K x d' E). Qed.
Lemma insert_ten : forall d k d' b, ten d -> checkInsert d k = Val (d', b) -> ten d'.
Proof.
  intros d k d' b H E. unfold checkInsert in E. destruct (mfind _ _); [injection E as <- <-; exact H|]. peel E v X. injection E as <- <-. exact H.
Qed.
Lemma insert_type_ten : forall d t k d' b, ten d -> checkInsertType d t k = Val (d', b) -> ten d'.
Proof.
  intros d t k d' b H E. unfold checkInsertType in E. peel E p X. destruct p as [d1 c]. apply insert_ten in X; [|exact H]. destruct c; injection E as <- <-; exact X.
Qed.
Lemma keeps_insert : forall d k (f : Data * bool -> out Data), ten d -> (forall d' b, ten d' -> keeps (f (d', b))) -> keeps (x <- checkInsert d k ;; f x).
Proof. intros d k f H K d' E. peel E p X. destruct p as [d1 b]. exact (K d1 b (insert_ten _ _ _ _ H X) d' E). Qed.
Lemma keeps_insert_type : forall d t k (f : Data * bool -> out Data), ten d -> (forall d' b, ten d' -> keeps (f (d', b))) -> keeps (x <- checkInsertType d t k ;; f x).
Proof. intros d t k f H K d' E. peel E p X. destruct p as [d1 b]. exact (K d1 b (insert_type_ten _ _ _ _ _ H X) d' E). Qed.
Lemma insert_all_ten : forall ks d, ten d -> keeps (insertAll d ks).
Proof. induction ks as [|k ks IH]; intros d H; cbn [insertAll]; [apply keeps_val; exact H|]. apply keeps_insert; [exact H|]. intros d' b H'. apply IH. exact H'. Qed.
Lemma plain_ten : forall make t rows d, ten d -> keeps (loadPlain make t rows d).
Proof.
  intros. unfold loadPlain. apply keeps_any. intros ks. apply keeps_bind; [apply insert_all_ten; assumption|]. intros d' H'. apply keeps_val. exact H'.
Qed.
Lemma linked_lines_ten : forall e lines d, ten d -> keeps (loadLinkedLines e lines d).
Proof.
  intros e. induction lines as [|l lines IH]; intros d H; cbn [loadLinkedLines]; [apply keeps_val; exact H|].
  destruct (getlines 9 l) as [|j [|s rest]]; [apply keeps_throw..|]. destruct (mfind j (dNames d)); [|apply keeps_throw].
  apply keeps_any. intros k'. apply keeps_insert_type; [exact H|]. intros d' b H'. apply IH. exact H'.
Qed.
Lemma old_names_ten : forall e k names d, ten d -> keeps (loadOldNames e k names d).
Proof.
  intros e k. induction names as [|n names IH]; intros d H; cbn [loadOldNames]; [apply keeps_val; exact H|]. destruct (findByName d n); [apply IH; exact H|].
  apply keeps_any. intros k'. apply keeps_insert_type; [exact H|]. intros d' b H'. apply IH. exact H'.
Qed.
Lemma old_ten : forall e l d, ten d -> keeps (loadOld e l d).
Proof.
  intros e. induction l as [|[n k] l IH]; intros d H; cbn [loadOld]; [apply keeps_val; exact H|]. apply keeps_bind; [apply old_names_ten; exact H|]. exact IH.
Qed.
Lemma linked_names_ten : forall e k names d, ten d -> keeps (loadLinkedNames e k names d).
Proof.
  intros e k. induction names as [|n names IH]; intros d H; cbn [loadLinkedNames]; [apply keeps_val; exact H|].
  apply keeps_any. intros k'. apply keeps_insert_type; [exact H|]. intros d' b H'. apply IH. exact H'.
Qed.
Lemma jinmei_ten : forall e ks d, ten d -> keeps (insertJinmei e ks d).
Proof.
  intros e. induction ks as [|k ks IH]; intros d H; cbn [insertJinmei]; [apply keeps_val; exact H|]. apply keeps_insert; [exact H|]. intros d' b H'.
  apply keeps_bind; [apply linked_names_ten; exact H'|]. exact IH.
Qed.
Lemma process_ten : forall kind make l i d, ten d -> keeps (processLoop kind make i l d).
Proof.
  intros kind make. induction l as [|n l IH]; intros i d H; cbn [processLoop]; [apply keeps_val; exact H|]. intros d' E. peel E p X. destruct p as [d1 k].
  assert (H1 : ten d1).
  { destruct (findByName d n); [injection X as <- <-; exact H|]. peel X k' Y. peel X p W. destruct p as [d2 b]. injection X as <- <-. exact (insert_type_ten _ _ _ _ _ H W). }
  peel E d2 X2. refine (IH _ d2 _ d' E). destruct kind; [| |injection X2 as <-; apply freq_ten; exact H1];
    unfold addToKyus, addToLevels in X2; match type of X2 with (if ?c then _ else _) = _ => destruct c end; try discriminate X2; injection X2 as <-; exact H1.
Qed.
Lemma ucd_ten : forall e l d, ten d -> keeps (processUcd e l d).
Proof.
  intros e. induction l as [|[n u] l IH]; intros d H; cbn [processUcd]; [apply keeps_val; exact H|]. destruct (findByName d (ucdName u)); [apply IH; exact H|].
  apply keeps_any. intros k'. apply keeps_insert_type; [exact H|]. intros d' b H'. apply IH. exact H'.
Qed.
Lemma levels_ten : forall e l d, ten d -> keeps (processLevels e l d).
Proof.
  intros e. induction l as [|[n u] l IH]; intros d H; cbn [processLevels]; [apply keeps_val; exact H|]. apply keeps_bind; [apply process_ten; exact H|exact IH].
Qed.
Lemma kyus_ten : forall e l d, ten d -> keeps (processKyus e l d).
Proof.
  intros e. induction l as [|[n u] l IH]; intros d H; cbn [processKyus]; [apply keeps_val; exact H|]. apply keeps_bind; [apply process_ten; exact H|exact IH].
Qed.
Theorem loaded_ten : forall ltr f st m e d, loadData ltr f st m = Val (e, d) -> ten d.
Proof.
  intros ltr f st m e d H. unfold loadData in H. peel H e' E. peel H d' K. injection H as <- <-. revert K. apply keeps_bind; [apply plain_ten; reflexivity|].
  intros d1 H1. apply keeps_bind; [apply linked_lines_ten; exact H1|]. intros d2 H2. apply keeps_bind; [apply old_ten; exact H2|].
  intros d3 H3. apply keeps_bind; [|]. { apply keeps_any. intros ks. apply keeps_bind; [apply jinmei_ten; exact H3|]. intros x Hx. apply keeps_val. exact Hx. }
  intros d4 H4. apply keeps_bind; [apply plain_ten; exact H4|]. intros d5 H5. apply keeps_bind; [apply levels_ten; exact H5|].
  intros d6 H6. apply keeps_bind; [apply process_ten; exact H6|]. intros d7 H7. apply keeps_bind; [apply kyus_ten; exact H7|].
  intros d8 H8. apply ucd_ten. exact H8.
Qed.
