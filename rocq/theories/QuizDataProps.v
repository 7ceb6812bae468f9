(** Property theorems about loading groups and Jukugo from a data directory. *)
From Verif Require JukugoSample.
From Verif Require Import BaseFacts MapProofs LoadModel LoadSpec LoadSample RowsProofs GroupLoadProofs GroupReportProofs GroupReportCounts JukugoLoad DirModel DirProofs DirSample DirProps LoadLogTrace LoadLogLists QuizDataModel QuizDataSpec QuizDataGroups QuizDataJukugo
  QuizDataDir QuizDataSample.
Open Scope N_scope.
Arguments N.mul : simpl never. Arguments N.add : simpl never. Arguments N.sub : simpl never.

(** * C114: groups *)

(** the groups of a directory are those of the rows of its two tables, in every mode; if something is wrong there is a
    DomainError *)
Theorem C114_load : forall fs writable reg, (forall n, known (reg n)) -> forall mode f dir d mr pr, groups_in fs writable dir mr pr ->
  rows_ok mr -> rows_ok pr ->
  (forall gd, (exists g, snd (newGroupData fs writable reg mode f dir d) = Val (gd, g))
     <-> loadGroups (findMember d) mr pr = Val gd /\ (mode = DebugNone \/ exists t, printGroupData (isFull mode) f d gd = Val t))
  /\ ((forall gd, loadGroups (findMember d) mr pr <> Val gd) -> snd (newGroupData fs writable reg mode f dir d) = Throw DomainError).
Proof.
  intros fs writable reg Hr mode f dir d mr pr G Hm Hp. rewrite (groups_dir fs writable reg Hr mode f dir d mr pr G), (groups_erase mode f d mr pr Hp).
  split.
  - intros gd. destruct (loadGroups (findMember d) mr pr) as [x| | |]; cbn [obind]; [|split; [intros (g & H); discriminate H|intros (H & _); discriminate H]..].
    destruct (report_print (isFull mode) f d x) as [A B]. destruct mode; cbn [isDebug] in *.
    3:{ split; [intros (g & H); injection H as <- <-; auto|intros (H & _); injection H as <-; eauto]. }
    all: split.
    1,3: intros (g & H); destruct (reportGroups _ f d x) as [[t f']| | |] eqn:E; try discriminate H; cbn [obind] in H; injection H as <- <-;
         split; [reflexivity|]; right; exists t; eapply A; exact eq_refl.
    all: intros (H & [X|(t & P)]); [discriminate X|]; injection H as <-; destruct (B t P) as (g & E); exists g; rewrite E; reflexivity.
  - intros N. destruct (load_groups_cases (findMember d) mr pr Hm Hp) as [(x & E & _)|[E _]]; [destruct (N x E)|]. rewrite E. reflexivity.
Qed.
Print Assumptions C114_load.
(** if groups are loaded, then the directory has both tables, and it has only one meaning *)
Theorem C114_complete : forall fs writable reg, (forall n, known (reg n)) -> forall mode f dir d x,
  snd (newGroupData fs writable reg mode f dir d) = Val x -> exists mr pr, groups_in fs writable dir mr pr.
Proof. exact groups_complete. Qed.
Print Assumptions C114_complete.
Theorem C114_unique : forall fs writable dir mr pr mr' pr', groups_in fs writable dir mr pr -> groups_in fs writable dir mr' pr' -> mr = mr' /\ pr = pr'.
Proof. intros fs writable. exact (groups_in_fun fs writable (fun _ => []) (fun _ => none_known)). Qed.
Print Assumptions C114_unique.
(** the errors are, in order, the members of pattern groups that are in an earlier one *)
Theorem C114_errors : forall fs writable reg, (forall n, known (reg n)) -> forall mode f dir d mr pr gd, groups_in fs writable dir mr pr ->
  rows_ok mr -> rows_ok pr -> loadGroups (findMember d) mr pr = Val gd ->
  errors (fst (newGroupData fs writable reg mode f dir d)) = repeats [] (patternGroups gd).
Proof.
  intros fs writable reg Hr mode f dir d mr pr gd G Hm Hp L. rewrite (groups_dir fs writable reg Hr mode f dir d mr pr G).
  assert (No : snd (groupsOf mode f d mr pr) = Throw DomainError -> isDebug mode = true /\ exists e, printGroupData (isFull mode) f d gd = Throw e).
  { rewrite (groups_erase mode f d mr pr Hp), L. cbn [obind]. destruct (isDebug mode); [|discriminate]. intros X. split; [reflexivity|].
    destruct (printGroupData (isFull mode) f d gd) as [t|e| |] eqn:P; [|eauto|..].
    - destruct (proj2 (report_print (isFull mode) f d gd) t P) as (g & E). rewrite E in X. discriminate X.
    - unfold printGroupData in P. unfold reportGroups in X. destruct (printGroups (isFull mode) f d _ _) as [[a f1]| | |]; cbn [obind] in *; try discriminate.
      destruct (printGroups (isFull mode) f1 d _ _) as [[b f2]| | |]; cbn [obind] in *; discriminate.
    - unfold printGroupData in P. unfold reportGroups in X. destruct (printGroups (isFull mode) f d _ _) as [[a f1]| | |]; cbn [obind] in *; try discriminate.
      destruct (printGroups (isFull mode) f1 d _ _) as [[b f2]| | |]; cbn [obind] in *; discriminate. }
  destruct (load_groups_cases (findMember d) mr pr Hm Hp) as [(gd' & E & F1 & F2 & _)|[E _]]; rewrite L in E; [|discriminate E]. injection E as <-.
  destruct (groups_said mode f d mr pr Hm Hp) as [(gd' & E & Q)|[(gs & r & es & _ & _ & (a & b & -> & _ & N) & _)|(ms & gs & r & es & _ & _ & _ & (a & b & -> & _ & N) & _)]].
  - rewrite L in E. injection E as <-. rewrite Q, errors_app, errors_map.
    replace (errors _) with (@nil bytes); [apply app_nil_r|]. destruct (isDebug mode); [|reflexivity]. destruct (printGroupData _ _ _ _); reflexivity.
  - exfalso. apply Forall2_app_inv_l in F1. destruct F1 as (x & y & _ & F & _). inversion F as [|? g ? ? X]; subst. exact (N g X).
  - exfalso. apply Forall2_app_inv_l in F2. destruct F2 as (x & y & _ & F & _). inversion F as [|? g ? ? X]; subst. exact (N g X).
Qed.
Print Assumptions C114_errors.
(** there are none exactly when every Kanji is in at most one pattern group *)
Lemma belongs_app : forall a b n, belongs (a ++ b) n = belongs a n + belongs b n.
Proof. intros a b n. unfold belongs. rewrite filter_app, len_app. reflexivity. Qed.
Lemma belongs_one : forall g n, belongs [g] n = if has_member n g then 1 else 0.
Proof. intros g n. unfold belongs. cbn [filter]. destruct (has_member n g); reflexivity. Qed.
Lemma belongs_none : forall gs n, List.find (has_member n) gs = None <-> belongs gs n = 0.
Proof.
  intros gs n. unfold belongs. induction gs as [|g gs IH]; [split; reflexivity|]. cbn [List.find filter]. destruct (has_member n g); [|exact IH].
  rewrite len_cons. split; [intros X; discriminate X|lia].
Qed.
Lemma repeated_none : forall before g, repeated_in before g = [] <-> forall n, has_member n g = true -> belongs before n = 0.
Proof.
  intros before g. split.
  - intros H n M. apply has_member_iff in M. destruct M as (k & K & <-). apply belongs_none. destruct (List.find (has_member (qName k)) before) as [h|] eqn:E; [|reflexivity].
    exfalso. assert (I : In (qName k ++ b_ " from " ++ in_message g ++ b_ " already in " ++ in_message h) (repeated_in before g)).
    { apply in_flat_map. exists k. rewrite E. split; [exact K|left; reflexivity]. }
    rewrite H in I. destruct I.
  - intros H. destruct (repeated_in before g) as [|x l] eqn:E; [reflexivity|]. exfalso.
    assert (I : In x (repeated_in before g)) by (rewrite E; left; reflexivity). apply in_flat_map in I. destruct I as (k & K & I).
    assert (M : has_member (qName k) g = true) by (apply has_member_iff; eauto). apply H in M. apply belongs_none in M. rewrite M in I. destruct I.
Qed.
Lemma repeats_none : forall gs before, in_one_group before -> (repeats before gs = [] <-> in_one_group (before ++ gs)).
Proof.
  induction gs as [|g gs IH]; intros before O; cbn [repeats]; [rewrite app_nil_r; tauto|].
  replace (before ++ g :: gs) with ((before ++ [g]) ++ gs) by (rewrite <- app_assoc; reflexivity).
  assert (Q : repeated_in before g = [] <-> in_one_group (before ++ [g])).
  { rewrite repeated_none. unfold in_one_group. split; intros H n; specialize (H n); specialize (O n); rewrite belongs_app, belongs_one in *; destruct (has_member n g);
      try lia; try (specialize (H eq_refl); lia); intros X; try lia; discriminate X. }
  split.
  - intros H. apply app_eq_nil in H. destruct H as [H1 H2]. apply Q in H1. apply (IH _ H1). exact H2.
  - intros H. assert (O' : in_one_group (before ++ [g])) by (intros n; specialize (H n); rewrite belongs_app in H; lia).
    rewrite (proj2 Q O'). cbn [app]. apply (IH _ O'). exact H.
Qed.
Theorem C114_no_errors : forall gs, repeats [] gs = [] <-> in_one_group gs.
Proof. intros gs. apply (repeats_none gs []). intros n. unfold belongs. cbn. lia. Qed.
Print Assumptions C114_no_errors.
(** if a row is no group: the first such row ends loading, and the errors are the members of it that are not found, after those
    about the groups before it *)
Theorem C114_bad_row : forall fs writable reg, (forall n, known (reg n)) -> forall mode f dir d mr pr, groups_in fs writable dir mr pr ->
  rows_ok mr -> rows_ok pr -> (forall gd, loadGroups (findMember d) mr pr <> Val gd) ->
  outputText (fst (newGroupData fs writable reg mode f dir d)) = []
  /\ ((exists gs r, stops_at (findMember d) MeaningType mr gs r
         /\ row_errors (findMember d) MeaningType r (errors (fst (newGroupData fs writable reg mode f dir d))))
      \/ (exists ms gs r es, Forall2 (group_of (findMember d) MeaningType) mr ms /\ stops_at (findMember d) PatternGroupType pr gs r
         /\ row_errors (findMember d) PatternGroupType r es
         /\ errors (fst (newGroupData fs writable reg mode f dir d)) = repeats [] gs ++ es)).
Proof.
  intros fs writable reg Hr mode f dir d mr pr G Hm Hp N. rewrite (groups_dir fs writable reg Hr mode f dir d mr pr G).
  assert (O : forall l, outputText (map ToErr l) = []) by (induction l; auto).
  destruct (groups_said mode f d mr pr Hm Hp) as [(gd & E & _)|[(gs & r & es & Q & _ & A & B)|(ms & gs & r & es & Q & _ & A & B & C)]].
  - destruct (N gd E).
  - rewrite Q, O, errors_map. split; [reflexivity|]. left. eauto.
  - rewrite Q, O, errors_map. split; [reflexivity|]. right. exists ms, gs, r, es. auto.
Qed.
Print Assumptions C114_bad_row.
(** the report is written in the debug modes only *)
Theorem C114_output : forall fs writable reg, (forall n, known (reg n)) -> forall mode f dir d mr pr gd t, groups_in fs writable dir mr pr ->
  rows_ok mr -> rows_ok pr -> loadGroups (findMember d) mr pr = Val gd -> printGroupData (isFull mode) f d gd = Val t ->
  outputText (fst (newGroupData fs writable reg mode f dir d)) = match mode with DebugNone => [] | _ => t end.
Proof.
  intros fs writable reg Hr mode f dir d mr pr gd t G Hm Hp L P. rewrite (groups_dir fs writable reg Hr mode f dir d mr pr G).
  assert (O : forall l, outputText (map ToErr l) = []) by (induction l; auto).
  pose proof (groups_erase mode f d mr pr Hp) as E. rewrite L in E. cbn [obind] in E.
  destruct (proj2 (report_print (isFull mode) f d gd) t P) as (g & R). rewrite R in E. cbn [obind] in E.
  destruct (groups_said mode f d mr pr Hm Hp) as [(gd' & E' & Q)|[(gs & r & es & _ & Q & _)|(ms & gs & r & es & _ & Q & _)]].
  - rewrite L in E'. injection E' as <-. rewrite Q, output_app, O, P. cbn [app]. destruct mode; cbn [isDebug outputText]; rewrite ?app_nil_r; reflexivity.
  - exfalso. rewrite Q in E. destruct (isDebug mode); discriminate E.
  - exfalso. rewrite Q in E. destruct (isDebug mode); discriminate E.
Qed.
Print Assumptions C114_output.
(** the members are Kanji of the data, with their readings and meanings *)
Theorem C114_members : forall d n k, findMember d n = Some k <-> findByName d n = Some (qKanji k)
  /\ qReading k = dReading (kDetails (qKanji k)) /\ qMeaning k = dMeaning (kDetails (qKanji k)).
Proof.
  intros d n k. unfold findMember. destruct (findByName d n) as [x|]; [|split; [intros H; discriminate H|intros (H & _); discriminate H]].
  split; [intros H; injection H as <-; auto|]. destruct k as [q r m]. cbn [qKanji qReading qMeaning]. intros (H & -> & ->). injection H as ->. reflexivity.
Qed.
Print Assumptions C114_members.

(** a Kanji in two pattern groups, and a row with two unknown members *)
Lemma rows_check : forall rows, forallb (fun r => forallb (fun b => b <? 256) (grName r)) rows = true -> rows_ok rows.
Proof.
  intros rows H. rewrite forallb_forall in H. apply Forall_forall. intros r R. specialize (H r R). rewrite forallb_forall in H. apply Forall_forall. intros b B.
  apply N.ltb_lt. exact (H b B).
Qed.
Lemma groups_check : forall mr pr, (exists r1, fileRows (quizFs mr pr) (fun _ => true) (fun _ => []) sampleDir (b_ "meaning-groups") GroupColumns = Val (r1, true) /\ mr = map groupRow r1) ->
  (exists r2, fileRows (quizFs mr pr) (fun _ => true) (fun _ => []) sampleDir (b_ "pattern-groups") GroupColumns = Val (r2, true) /\ pr = map groupRow r2) ->
  groups_in (quizFs mr pr) (fun _ => true) sampleDir mr pr.
Proof.
  intros mr pr A B. apply (group_table _ _ _ (fun _ => none_known)) in A; [|apply plain_check; vm_compute; reflexivity|vm_compute; reflexivity].
  apply (group_table _ _ _ (fun _ => none_known)) in B; [|apply plain_check; vm_compute; reflexivity|vm_compute; reflexivity]. unfold groups_in. tauto.
Qed.
Definition sampleData : Data := match loadData true (sample_files sample_jouyou) initStatic 0 with Val (_, d) => d | _ => newData 0 end.
Example C114_case : rows_ok meaning_rows /\ rows_ok pattern_rows /\ groups_in (quizFs meaning_rows pattern_rows) (fun _ => true) sampleDir meaning_rows pattern_rows
  /\ (exists gd, loadGroups (findMember sampleData) meaning_rows pattern_rows = Val gd
        /\ exists g, snd (newGroupData (quizFs meaning_rows pattern_rows) (fun _ => true) (fun _ => []) DebugInfo (MkStream false 32) sampleDir sampleData) = Val (gd, g))
  /\ errors (fst (newGroupData (quizFs meaning_rows pattern_rows) (fun _ => true) (fun _ => []) DebugInfo (MkStream false 32) sampleDir sampleData))
     = [b_ "一 from [8 ：ホ] already in [7 一：イチ]"]
  /\ groups_in (quizFs meaning_rows bad_rows) (fun _ => true) sampleDir meaning_rows bad_rows /\ rows_ok bad_rows
  /\ newGroupData (quizFs meaning_rows bad_rows) (fun _ => true) (fun _ => []) DebugFull (MkStream false 32) sampleDir sampleData
     = ([ToErr (b_ "failed to find member x in group: '：ホ', number: 8"); ToErr (b_ "failed to find member y in group: '：ホ', number: 8")], Throw DomainError).
Proof.
  split; [apply rows_check; vm_compute; reflexivity|]. split; [apply rows_check; vm_compute; reflexivity|].
  split; [apply groups_check; (eexists; split; [vm_compute; reflexivity|vm_compute; reflexivity])|].
  split; [eexists; split; [vm_compute; reflexivity|]; eexists; vm_compute; reflexivity|]. split; [vm_compute; reflexivity|].
  split; [apply groups_check; (eexists; split; [vm_compute; reflexivity|vm_compute; reflexivity])|]. split; [apply rows_check; vm_compute; reflexivity|]. vm_compute. reflexivity.
Qed.

(** * C115: Jukugo *)

(** the Jukugo of a directory are those of its seven files, in every mode, and there are no messages about them *)
Theorem C115_load : forall fs mode f dir d jf, jukugo_in fs dir jf ->
  snd (newJukugoData fs mode f dir d) = loadJukugo jf /\ errors (fst (newJukugoData fs mode f dir d)) = []
  /\ (mode = DebugNone -> fst (newJukugoData fs mode f dir d) = []).
Proof. intros fs. exact (jukugo_load fs (fun _ => true)). Qed.
Print Assumptions C115_load.
Theorem C115_complete : forall fs mode f dir d x, snd (newJukugoData fs mode f dir d) = Val x -> exists jf, jukugo_in fs dir jf.
Proof. intros fs. exact (jukugo_complete fs (fun _ => true)). Qed.
Print Assumptions C115_complete.
Theorem C115_unique : forall fs dir a b, jukugo_in fs dir a -> jukugo_in fs dir b -> a = b.
Proof. intros fs. exact (jukugo_in_fun fs (fun _ => true)). Qed.
Print Assumptions C115_unique.
(** in the debug modes the report has the number of different words of each grade, the numbers of Kanji and words, and how
    many Kanji of each type there are *)
Theorem C115_report : forall fs mode f dir d jf js jd, jukugo_in fs dir jf -> files_fit jf -> mode <> DebugNone -> all_words jf js -> loadJukugo jf = Val jd ->
  exists ks, kanji_in (distinct js) ks /\ outputText (fst (newJukugoData fs mode f dir d)) = jukugo_report (sFill f) d (distinct js) ks.
Proof. intros fs. exact (jukugo_text fs (fun _ => true) (fun _ => []) (fun _ => none_known)). Qed.
Print Assumptions C115_report.
(** the list of Kanji is determined *)
Theorem C115_kanji_unique : forall js a b, kanji_in js a -> kanji_in js b -> a = b.
Proof.
  intros js a b [S1 H1] [S2 H2]. assert (E : forall n, In n a <-> In n b) by (intro n; rewrite H1, H2; reflexivity). clear H1 H2.
  revert b S2 E. induction S1 as [|x a S1 IH F1]; intros b S2 E.
  - destruct b as [|y b]; [reflexivity|]. destruct (proj2 (E y) (or_introl eq_refl)).
  - destruct S2 as [|y b S2 F2]; [destruct (proj1 (E x) (or_introl eq_refl))|]. rewrite Forall_forall in F1, F2.
    assert (Q : x = y).
    { destruct (proj1 (E x) (or_introl eq_refl)) as [X|X]; [auto|]. destruct (proj2 (E y) (or_introl eq_refl)) as [Y|Y]; [auto|].
      pose proof (blt_asym _ _ (F2 x X)) as C. rewrite (F1 y Y) in C. discriminate. }
    subst y. f_equal. apply IH; [exact S2|]. intro n. split; intro I.
    + destruct (proj1 (E n) (or_intror I)) as [X|X]; [|exact X]. subst n. specialize (F1 x I). rewrite blt_irrefl in F1. discriminate.
    + destruct (proj2 (E n) (or_intror I)) as [X|X]; [|exact X]. subst n. specialize (F2 x I). rewrite blt_irrefl in F2. discriminate.
Qed.
Print Assumptions C115_kanji_unique.
(** the numbers of the types add up to the number of Kanji, and those of the grades to the number of words *)
Lemma count_cons : forall A (p : A -> bool) x l, count p (x :: l) = (if p x then 1 else 0) + count p l.
Proof. intros A p x l. unfold count. cbn [filter]. destruct (p x); [rewrite len_cons|]; lia. Qed.
Theorem C115_types_agree : forall d ks, fold_right N.add 0 (map (fun t => count (type_in d t) ks) (real_types ++ [NoType])) = len ks.
Proof.
  intros d ks. induction ks as [|k ks IH]; [reflexivity|]. rewrite len_cons, <- IH. unfold real_types. cbn [app map fold_right]. rewrite !count_cons.
  repeat match goal with |- context [count ?p ks] => generalize (count p ks); intro end.
  unfold type_in. destruct (findByName d k) as [x|]; [unfold type_is; destruct (kType x)|]; unfold kanjiTypeNumber;
    repeat match goal with |- context [?a =? ?b] => let c := eval vm_compute in (a =? b) in change (a =? b) with c end; cbv iota; lia.
Qed.
Print Assumptions C115_types_agree.
Lemma words_graded : forall g c w, file_words_of g c w -> Forall (fun j => jGrade j = g) w.
Proof.
  intros g c w (ls & _ & H). destruct (g =? GradeS).
  - destruct H as (ess & _ & H). clear -H. induction H as [|e j es js [_ E] F IH]; constructor; assumption.
  - clear -H. induction H as [|e j es js [_ E] F IH]; constructor; assumption.
Qed.
Theorem C115_grades_agree : forall f js, all_words f js ->
  fold_right N.add 0 (map (fun g => count (fun j => jGrade j =? fst g) (distinct js)) grades) = len (distinct js).
Proof.
  intros f js (w1 & w2 & w3 & w4 & w5 & w6 & w7 & H1 & H2 & H3 & H4 & H5 & H6 & H7 & E).
  assert (F : Forall (fun j => In (jGrade j) (map fst grades)) (distinct js)).
  { apply Forall_forall. intros j J. apply distinct_in in J. subst js. apply words_graded in H1, H2, H3, H4, H5, H6, H7. rewrite Forall_forall in *. cbn [grades map fst In].
    repeat (apply in_app_or in J; destruct J as [J|J]);
      [rewrite (H1 j J)|rewrite (H2 j J)|rewrite (H3 j J)|rewrite (H4 j J)|rewrite (H5 j J)|rewrite (H6 j J)|rewrite (H7 j J)]; unfold GradeS; tauto. }
  revert F. generalize (distinct js). clear. intros l F.
  induction F as [|j l I F IH]; [reflexivity|]. rewrite len_cons, <- IH. unfold grades in *. cbn [map fst fold_right In] in *. rewrite !count_cons.
  repeat match goal with |- context [count ?p l] => generalize (count p l); intro end.
  repeat (destruct I as [I|I]; [rewrite <- I;
    repeat match goal with |- context [?a =? ?b] => let c := eval vm_compute in (a =? b) in change (a =? b) with c end; cbv iota; lia|]). destruct I.
Qed.
Print Assumptions C115_grades_agree.
Lemma jukugo_sample : jukugo_in (quizFs meaning_rows pattern_rows) sampleDir JukugoSample.sample_files.
Proof.
  apply (jukugo_read_iff _ (fun _ => true)). unfold jukugo_read.
  repeat (apply Forall2_cons; [eexists; split; [vm_compute; reflexivity|vm_compute; reflexivity]|]). apply Forall2_nil.
Qed.
Example C115_case : jukugo_in (quizFs meaning_rows pattern_rows) sampleDir JukugoSample.sample_files
  /\ files_fit JukugoSample.sample_files /\ all_words JukugoSample.sample_files JukugoSample.sample_words
  /\ (exists jd, loadJukugo JukugoSample.sample_files = Val jd)
  /\ outputText (fst (newJukugoData (quizFs meaning_rows pattern_rows) DebugInfo (MkStream true 32) sampleDir sampleData)) = b_ ">>>
>>> Begin Loading Jukugo
>>>
>>> Loaded 1 for Grade: G1
>>> Loaded 1 for Grade: G2
>>> Loaded 0 for Grade: G3
>>> Loaded 0 for Grade: G4
>>> Loaded 0 for Grade: G5
>>> Loaded 0 for Grade: G6
>>> Loaded 1 for Grade: S
>>> Total Kanji with Jukugo: 4, unique jukugo: 3
        Jouyou: 1 (一)
          None: 3 (屋 日 本)
".
Proof.
  split; [exact jukugo_sample|]. split; [exact JukugoSample.sample_fit|]. split; [exact JukugoSample.sample_all|]. split; [eexists; vm_compute; reflexivity|].
  vm_compute. reflexivity.
Qed.
