(** Lemmas about the texts of the exceptions of loading: the functions are those of the other models. *)
From Verif Require Import BaseFacts ListProofs MapProofs LoadLogTrace ErrOfficialProofs ErrOfficialTable ErrListProofs ErrUcdTable ErrOfficialProps ErrUcdProps DirProps.
From Verif Require Export ErrLoadModel.
From Verif Require Import ErrBase.
Open Scope N_scope.
Arguments N.mul : simpl never. Arguments N.add : simpl never. Arguments N.sub : simpl never.

Lemma plain_ext : forall A B (x : res A) (y : out A) (f : A -> res B) (g : A -> out B), plain x = y -> (forall a, plain (f a) = g a) ->
  plain (rbind x f) = obind y g.
Proof. intros A B x y f g <- H. rewrite plain_bind. destruct x; cbn [plain obind]; auto. Qed.

Section Make.
Variable e : Env.
Lemma radicalOf_plain : forall n u, plain (ucdRadicalOfT e n u) = ucdRadicalOf e u.
Proof. intros n [u|]; [apply radicalByNumberT_plain|reflexivity]. Qed.
Lemma strokesOf_plain : forall n u, plain (ucdStrokesOfT n u) = ucdStrokesOf u.
Proof. intros n [u|]; reflexivity. Qed.
Lemma makeLinked_plain : forall o n k, plain (makeLinkedT e o n k) = makeLinked e o n k.
Proof.
  intros o n k. unfold makeLinkedT, makeLinked. destruct (match kType k with Jouyou => false | Jinmei => o | _ => true end); [reflexivity|].
  apply plain_ext; [apply quiet_plain|]. intro u. apply plain_ext; [apply radicalOf_plain|]. intro r. apply plain_ext; [apply strokesOf_plain|]. intro s. apply quiet_plain.
Qed.
Lemma makeOther_plain : forall n u r t f k, plain (makeOtherT e n u r t f k) = makeOther e n u r t f k.
Proof.
  intros n u r t f k. unfold makeOtherT, makeOther. apply plain_ext; [apply quiet_plain|]. intro x. apply plain_ext; [apply radicalOf_plain|]. intro y.
  apply plain_ext; [apply strokesOf_plain|]. intro s. apply quiet_plain.
Qed.
Lemma makeFrequency_plain : forall i n, plain (makeFrequencyT e i n) = makeFrequency e i n.
Proof. intros i n. apply plain_ext; [apply quiet_plain|]. intro u. apply makeOther_plain. Qed.
Lemma makeKentei_plain : forall k n, plain (makeKenteiT e k n) = makeKentei e k n.
Proof. intros k n. apply plain_ext; [apply quiet_plain|]. intro u. apply makeOther_plain. Qed.
Lemma makeUcd_plain : forall u, plain (makeUcdKanjiT e u) = makeUcdKanji e u.
Proof. intro u. apply makeOther_plain. Qed.
Lemma insert_plain : forall k d, plain (insertT k d) = ('(d, _) <- checkInsert d k ;; Val d).
Proof. intros k d. apply plain_ext; [apply quiet_plain|]. intros [d' b]. reflexivity. Qed.
Lemma insertType_plain : forall t k d, plain (insertTypeT t k d) = ('(d, _) <- checkInsertType d t k ;; Val d).
Proof. intros t k d. apply plain_ext; [apply quiet_plain|]. intros [d' b]. reflexivity. Qed.
Lemma bind_val : forall A B (x : out (A * bool)) (g : A -> out B), (y <- ('(d, _) <- x ;; Val d) ;; g y) = ('(d, _) <- x ;; g d).
Proof. intros A B [[a b]|x| |] g; reflexivity. Qed.
Lemma each_insert : forall ks d, plain (forEachT insertT ks d) = insertAll d ks.
Proof.
  induction ks as [|k ks IH]; intro d; cbn [forEachT insertAll]; [reflexivity|]. rewrite plain_bind, insert_plain. destruct (checkInsert d k) as [[d1 b]|x| |]; try reflexivity. apply IH.
Qed.
Lemma each_line : forall file ls d, plain (forEachT (linkedLineT e file) ls d) = loadLinkedLines e ls d.
Proof.
  intro file. induction ls as [|l ls IH]; intro d; cbn [forEachT loadLinkedLines]; [reflexivity|]. rewrite plain_bind. unfold linkedLineT.
  destruct (getlines 9 l) as [|j [|n t]]; try reflexivity. destruct (mfind j (dNames d)) as [i|]; [|reflexivity].
  rewrite (plain_ext _ _ _ _ _ _ (makeLinked_plain false n i) (fun k => insertType_plain LinkedJinmei k d)).
  destruct (makeLinked e false n i) as [k|x| |]; try reflexivity. cbn [obind]. destruct (checkInsertType d LinkedJinmei k) as [[d' b]|x| |]; try reflexivity. apply IH.
Qed.
Lemma each_old_name : forall link ns d, plain (forEachT (oldNameT e link) ns d) = loadOldNames e link ns d.
Proof.
  intro link. induction ns as [|j ns IH]; intro d; cbn [forEachT loadOldNames]; [reflexivity|]. rewrite plain_bind. unfold oldNameT.
  destruct (findByName d j) as [i|]; [apply IH|].
  rewrite (plain_ext _ _ _ _ _ _ (makeLinked_plain true j link) (fun k => insertType_plain LinkedOld k d)).
  destruct (makeLinked e true j link) as [k|x| |]; try reflexivity. cbn [obind]. destruct (checkInsertType d LinkedOld k) as [[d' b]|x| |]; try reflexivity. apply IH.
Qed.
Lemma each_old : forall l d, plain (forEachT (oldNamesT e) l d) = loadOld e l d.
Proof.
  induction l as [|[n k] l IH]; intro d; cbn [forEachT loadOld]; [reflexivity|]. apply plain_ext; [apply each_old_name|exact IH].
Qed.
Lemma each_linked : forall link ns d, plain (forEachT (linkedNameT e link) ns d) = loadLinkedNames e link ns d.
Proof.
  intro link. induction ns as [|j ns IH]; intro d; cbn [forEachT loadLinkedNames]; [reflexivity|]. rewrite plain_bind. unfold linkedNameT.
  rewrite (plain_ext _ _ _ _ _ _ (makeLinked_plain false j link) (fun k => insertType_plain LinkedJinmei k d)).
  destruct (makeLinked e false j link) as [k|x| |]; try reflexivity. cbn [obind]. destruct (checkInsertType d LinkedJinmei k) as [[d' b]|x| |]; try reflexivity. apply IH.
Qed.
Lemma each_jinmei : forall ks d, plain (forEachT (jinmeiT e) ks d) = insertJinmei e ks d.
Proof.
  induction ks as [|k ks IH]; intro d; cbn [forEachT insertJinmei]; [reflexivity|]. rewrite plain_bind. unfold jinmeiT.
  rewrite plain_bind, insert_plain. destruct (checkInsert d k) as [[d' b]|x| |]; try reflexivity. cbn [obind]. rewrite each_linked.
  destruct (loadLinkedNames e k (kOldNames k) d') as [y|x| |]; try reflexivity. apply IH.
Qed.
Lemma addToList_plain : forall kind k d, plain (addToListT kind k d) = match kind with
    | DataModel.KyuList _ => addToKyus d k | DataModel.LevelList => addToLevels d k | FrequencyList => Val (addToFrequencies d k) end.
Proof.
  intros [|v|] k d; cbn [addToListT]; [unfold addToLevelsT, addToLevels; destruct (hasLevel k)|unfold addToKyusT, addToKyus; destruct (hasKyu k)|]; reflexivity.
Qed.
Lemma each_entry : forall kind make makeP, (forall i n, plain (make i n) = makeP i n) -> forall l i d,
  plain (forEachT (listEntryT kind make) (indexed i l) d) = processLoop kind makeP i l d.
Proof.
  intros kind make makeP H. induction l as [|n l IH]; intros i d; cbn [indexed forEachT processLoop]; [reflexivity|]. rewrite plain_bind. unfold listEntryT. cbn [fst snd].
  rewrite plain_bind. match goal with |- context [obind (plain ?x)] => set (a := x) end.
  assert (X : plain a = match findByName d n with
     | Some k => Val (d, k)
     | None => k <- makeP (i + 1) n ;; '(d, _) <- checkInsertType d (match kind with DataModel.KyuList _ => Kentei | _ => FrequencyType end) k ;; Val (d, k) end).
  { subst a. destruct (findByName d n) as [k|]; [reflexivity|]. apply plain_ext; [apply H|]. intro k. rewrite plain_bind, insertType_plain.
    destruct (checkInsertType d _ k) as [[d' b]|x| |]; reflexivity. }
  rewrite X. clear X a. match goal with |- obind (obind ?y _) _ = obind ?y _ => destruct y as [[d' k]|x| |]; try reflexivity end. cbn [obind]. rewrite addToList_plain.
  match goal with |- obind ?y _ = obind ?y _ => destruct y as [d2|x| |]; try reflexivity end. apply IH.
Qed.
Lemma each_level : forall l d, plain (forEachT (levelListT e) l d) = processLevels e l d.
Proof. induction l as [|[v f] l IH]; intro d; cbn [forEachT processLevels]; [reflexivity|]. apply plain_ext; [|exact IH]. apply each_entry. exact makeFrequency_plain. Qed.
Lemma each_kyu : forall l d, plain (forEachT (kyuListT e) l d) = processKyus e l d.
Proof. induction l as [|[v f] l IH]; intro d; cbn [forEachT processKyus]; [reflexivity|]. apply plain_ext; [|exact IH]. apply each_entry. intros i n. apply makeKentei_plain. Qed.
Lemma each_ucd : forall l d, plain (forEachT (ucdEntryT e) l d) = processUcd e l d.
Proof.
  induction l as [|[n u] l IH]; intro d; cbn [forEachT processUcd]; [reflexivity|]. rewrite plain_bind. unfold ucdEntryT. cbn [snd].
  destruct (findByName d (ucdName u)); [apply IH|]. rewrite (plain_ext _ _ _ _ _ _ (makeUcd_plain u) (fun k => insertType_plain UcdType k d)).
  destruct (makeUcdKanji e u) as [k|x| |]; try reflexivity. cbn [obind]. destruct (checkInsertType d UcdType k) as [[d' b]|x| |]; try reflexivity. apply IH.
Qed.
End Make.

Section Files.
Variable fs : bytes -> option CountModel.node.
Variable writable : bytes -> bool.
Variable reg : bytes -> registry.
Hypothesis Hreg : forall file, known (reg file).
Lemma readKanji_plain : forall full e dir d, plain (readKanjiT fs writable reg e dir d) = snd (readKanji fs writable reg full e dir d).
Proof.
  intros full e dir d. destruct C130_same as (_ & _ & _ & _ & J1 & J2 & J3). unfold readKanjiT, readKanji, readPlain, readJinmei.
  do 2 (rewrite lbind_snd; cbn [llift snd]). rewrite plain_bind, (J1 fs writable reg e dir (Hreg _)). destruct (loadFrom _ jouyouRow _) as [jou|x| |]; try reflexivity. cbn [obind].
  rewrite plain_bind, each_insert, lbind_snd, insertAll_erase. destruct (insertAll d jou) as [d1|x| |]; try reflexivity. cbn [obind llift snd rbind].
  rewrite lbind_snd. cbn [llift snd]. apply plain_ext; [apply getFile_plain|]. intro lf.
  rewrite lbind_snd, loadLinkedLines_erase. apply plain_ext; [apply each_line|]. intro d2. rewrite lbind_snd, loadOld_erase. apply plain_ext; [apply each_old|]. intro d3.
  do 2 (rewrite lbind_snd; cbn [llift snd]). rewrite plain_bind, (J2 fs writable reg e dir (Hreg _)). destruct (loadFrom _ jinmeiRow _) as [jin|x| |]; try reflexivity. cbn [obind].
  rewrite plain_bind, each_jinmei, lbind_snd, insertJinmei_erase. destruct (insertJinmei e jin d3) as [d4|x| |]; try reflexivity. cbn [obind llift snd rbind].
  do 2 (rewrite lbind_snd; cbn [llift snd]). rewrite plain_bind, (J3 fs writable reg e dir (Hreg _)). destruct (loadFrom _ extraRow _) as [ex|x| |]; try reflexivity. cbn [obind].
  rewrite plain_bind, each_insert, lbind_snd, insertAll_erase. destruct (insertAll _ ex) as [d5|x| |]; try reflexivity. cbn [obind llift snd rbind].
  rewrite lbind_snd, processLevels_erase. apply plain_ext; [apply each_level|]. intro d6. rewrite lbind_snd, processList_erase.
  apply plain_ext; [apply each_entry; exact (makeFrequency_plain e)|]. intro d7. rewrite lbind_snd, processKyus_erase. apply plain_ext; [apply each_kyu|]. intro d8.
  rewrite processUcd_erase. apply each_ucd.
Qed.
Lemma list_plain : forall k ft p given st, plain (listT fs k ft p given st)
  = (file <- listFile fs p ;; '(st, x) <- construct k ft (contentsOf fs file) st ;; match x with inl f => Val (st, f) | inr _ => Throw DomainError end).
Proof.
  intros k ft p given st. unfold listT. rewrite plain_bind, quiet_plain. unfold newListT, listFile. cbv zeta.
  set (f := if negb (isRegular fs p) && negb (hasExtension p) then p ++ TextFileExtension else p). destruct (isRegular fs f); cbn [negb]; [|reflexivity].
  cbn [obind]. destruct (construct k ft (contentsOf fs f) st) as [[s [l|x]]|x| |]; reflexivity.
Qed.
Lemma lists_plain : forall A k (path name : A -> bytes) l st, plain (readListsT fs k path name l st) = readLists fs k path l st.
Proof.
  intros A k path name. induction l as [|a l IH]; intro st; cbn [readListsT readLists]; [reflexivity|]. rewrite plain_bind, list_plain.
  destruct (listFile fs (path a)) as [file|x| |]; try reflexivity. cbn [obind]. destruct (construct k MultiplePerLine (contentsOf fs file) st) as [[s [f|x]]|x| |]; try reflexivity.
  cbn [obind]. apply plain_ext; [apply IH|]. intros [s' l']. reflexivity.
Qed.
Hypothesis Hfs : forall p c, is_file fs p c -> bytes_ok c.
Lemma readEnv_plain : forall ltr dir st, plain (readEnvT fs writable reg ltr dir st) = readEnv fs writable reg ltr dir st.
Proof.
  intros ltr dir st. destruct C130_same as (_ & _ & R1 & R2 & _). unfold readEnvT, readEnv. apply plain_ext; [apply lists_plain|]. intros [s1 levels].
  apply plain_ext; [apply lists_plain|]. intros [s2 kyus]. rewrite plain_bind, list_plain. destruct (listFile fs _) as [file|x| |]; try reflexivity. cbn [obind].
  destruct (construct PlainList OnePerLine (contentsOf fs file) s2) as [[s [f|x]]|x| |]; try reflexivity. cbn [obind].
  apply plain_ext; [apply ucdTableT_plain; [exact Hfs|apply Hreg]|]. intro u. apply plain_ext; [apply R1; apply Hreg|]. intro r. apply plain_ext; [apply R2; apply Hreg|]. intro m. reflexivity.
Qed.
Lemma selectors_plain : forall ucd l n, plain (selectorLinesT ucd l n) = selectorLines ucd l n.
Proof.
  intros ucd l. induction l as [|[s k] l IH]; intro n; [reflexivity|]. cbn [selectorLinesT selectorLines]. apply plain_ext; [apply quiet_plain|]. intros [|]; [|apply IH]. cbv zeta.
  apply plain_ext; [apply quiet_plain|]. intro a. apply plain_ext; [apply quiet_plain|]. intro b. apply plain_ext; [apply quiet_plain|]. intros [u|]; [|reflexivity].
  apply plain_ext; [apply quiet_plain|]. intro c. apply plain_ext; [apply quiet_plain|]. intro e. apply plain_ext; [apply IH|]. reflexivity.
Qed.
Lemma finished_plain : forall sort mode e d, plain (finishedT sort mode e d) = (_ <- finishedLoadingData sort mode e d ;; Val tt).
Proof.
  intros sort mode e d. unfold finishedT. destruct mode; [|apply plain_ext; [apply quiet_plain|reflexivity]..]. unfold finishedLoadingData, printUcd, printSelectors.
  rewrite plain_bind, quiet_plain. destruct (checkStrokes d (envUcd e)) as [s| | |]; cbn [obind]; [|reflexivity..].
  rewrite plain_bind, quiet_plain. destruct (printCountsAndStats d true) as [c| | |]; cbn [obind]; [|reflexivity..].
  rewrite plain_bind, quiet_plain. destruct (printRadicals sort (envRadicals e) d) as [r| | |]; cbn [obind]; [|reflexivity..].
  destruct (ucdCount (ucdMap (envUcd e)) _ _ _) as [[j m] o].
  rewrite plain_bind, quiet_plain. destruct (printLinks (envUcd e) (b_ "Frequency") _) as [f| | |]; cbn [obind]; [|reflexivity..].
  rewrite plain_bind, quiet_plain. destruct (printLinks (envUcd e) (b_ "Extra") _) as [x| | |]; cbn [obind]; [|reflexivity..].
  rewrite plain_bind, selectors_plain. destruct (selectorLines (envUcd e) (dNames d) 0) as [v| | |]; reflexivity.
Qed.
Lemma loadDir_plain : forall sort mode ltr dir st max, plain (loadDirT fs writable reg sort mode ltr dir st max) = snd (loadDir fs writable reg sort mode ltr dir st max).
Proof.
  intros sort mode ltr dir st max. unfold loadDirT, loadDir. rewrite lbind_snd. cbn [lsay snd obind]. rewrite lbind_snd. cbn [llift snd]. apply plain_ext; [apply readEnv_plain|].
  intro e. rewrite lbind_snd. apply plain_ext; [apply readKanji_plain|]. intro d. rewrite lbind_snd. cbn [llift snd]. rewrite plain_bind, finished_plain. destruct (finishedLoadingData sort mode e d); reflexivity.
Qed.
End Files.
