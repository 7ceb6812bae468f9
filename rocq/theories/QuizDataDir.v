(** Lemmas about loading groups and Jukugo from a data directory. *)
From Verif Require Import BaseFacts MapProofs RowsProofs GroupLoadProofs JukugoLoad LoadLogTrace LoadLogLists DirPaths DirProofs QuizDataModel QuizDataSpec QuizDataGroups QuizDataJukugo.
Open Scope N_scope.
Arguments N.mul : simpl never. Arguments N.add : simpl never. Arguments N.sub : simpl never.

(** what follows reading the rows *)
Definition groupsOf (mode : ReportModel.DebugMode) (f : Stream) (d : Data) (mr pr : list GroupRow) : L (GroupData * Stream) :=
  let* (mm, ml) := loadMeaningL (findMember d) mr [] [] in
  let* (pm, pl) := loadPatternL (findMember d) pr [] [] in
  let gd := MkGroupData mm ml pm pl in
  if isDebug mode then
    let* (t, f) := llift (reportGroups (isFull mode) f d gd) in
    let* _ := lsay [ToOut t] in
    llift (Val (gd, f))
  else llift (Val (gd, f)).

Lemma report_print : forall full f d gd,
  (forall t g, reportGroups full f d gd = Val (t, g) -> printGroupData full f d gd = Val t)
  /\ (forall t, printGroupData full f d gd = Val t -> exists g, reportGroups full f d gd = Val (t, g)).
Proof.
  intros full f d gd. unfold reportGroups, printGroupData.
  destruct (printGroups full f d (meaningKeys gd) (meaningGroups gd)) as [[a f1]| | |]; cbn [obind]; [|split; intros; discriminate..].
  destruct (printGroups full f1 d (patternKeys gd) (patternGroups gd)) as [[b f2]| | |]; cbn [obind]; [|split; intros; discriminate..].
  split; [intros t g H; injection H as <- <-; reflexivity|]. intros t H. injection H as <-. eauto.
Qed.
Lemma groups_erase : forall mode f d mr pr, rows_ok pr -> snd (groupsOf mode f d mr pr)
  = (gd <- loadGroups (findMember d) mr pr ;;
     if isDebug mode then '(_, f) <- reportGroups (isFull mode) f d gd ;; Val (gd, f) else Val (gd, f)).
Proof.
  intros mode f d mr pr H. unfold groupsOf, loadGroups. rewrite lbind_snd, meaning_erase.
  destruct (loadMeaning (findMember d) mr [] []) as [[mm ml]| | |]; cbn [obind]; try reflexivity.
  rewrite lbind_snd, pattern_erase by exact H. destruct (loadPattern (findMember d) pr [] []) as [[pm pl]| | |]; cbn [obind]; try reflexivity.
  destruct (isDebug mode); [|reflexivity]. rewrite lbind_snd. cbn [llift snd].
  destruct (reportGroups (isFull mode) f d _) as [[t f']| | |]; reflexivity.
Qed.
(** everything that is written *)
Lemma groups_said : forall mode f d mr pr, rows_ok mr -> rows_ok pr ->
  (exists gd, loadGroups (findMember d) mr pr = Val gd
     /\ fst (groupsOf mode f d mr pr) = map ToErr (repeats [] (patternGroups gd))
          ++ (if isDebug mode then match printGroupData (isFull mode) f d gd with Val t => [ToOut t] | _ => [] end else []))
  \/ (exists gs r es, fst (groupsOf mode f d mr pr) = map ToErr es /\ snd (groupsOf mode f d mr pr) = Throw DomainError
       /\ stops_at (findMember d) MeaningType mr gs r /\ row_errors (findMember d) MeaningType r es)
  \/ (exists ms gs r es, fst (groupsOf mode f d mr pr) = map ToErr (repeats [] gs ++ es) /\ snd (groupsOf mode f d mr pr) = Throw DomainError
       /\ Forall2 (group_of (findMember d) MeaningType) mr ms
       /\ stops_at (findMember d) PatternGroupType pr gs r /\ row_errors (findMember d) PatternGroupType r es).
Proof.
  intros mode f d mr pr Hm Hp. pose proof (meaning_erase (findMember d) mr [] []) as Em. unfold groupsOf.
  destruct (meaning_said (findMember d) mr [] [] Hm) as [([mm ml] & E)|(gs & r & es & E & St & R)]; rewrite E in *.
  2:{ right. left. exists gs, r, es. auto. }
  cbn [snd] in Em. change ([], Val (mm, ml)) with (@llift (smap (list Group) * list Group) (Val (mm, ml))). rewrite lbind_lift.
  pose proof (pattern_erase (findMember d) pr [] [] Hp) as Ep.
  destruct (pattern_said (findMember d) pr [] [] [] Hp msorted_nil (fun _ => eq_refl)) as [(pm & gs & E2 & F)|(gs & r & es & E2 & St & R)]; rewrite E2 in *.
  - left. cbn [snd] in Ep. exists (MkGroupData mm ml pm gs). split; [unfold loadGroups; rewrite <- Em; cbn [obind]; rewrite <- Ep; reflexivity|].
    erewrite lbind_pair by reflexivity. cbn [app fst patternGroups]. f_equal. destruct (isDebug mode); [|reflexivity].
    destruct (report_print (isFull mode) f d (MkGroupData mm ml pm gs)) as [A B].
    destruct (reportGroups (isFull mode) f d (MkGroupData mm ml pm gs)) as [[t f']|e| |] eqn:Q.
    + rewrite (A t f' eq_refl). reflexivity.
    + cbn [llift lbind fst]. destruct (printGroupData _ _ _ _) as [t| | |] eqn:P; [|reflexivity..]. destruct (B t eq_refl) as (g & X). discriminate X.
    + cbn [llift lbind fst]. destruct (printGroupData _ _ _ _) as [t| | |] eqn:P; [|reflexivity..]. destruct (B t eq_refl) as (g & X). discriminate X.
    + cbn [llift lbind fst]. destruct (printGroupData _ _ _ _) as [t| | |] eqn:P; [|reflexivity..]. destruct (B t eq_refl) as (g & X). discriminate X.
  - right. right. destruct (load_meaning_cases (findMember d) mr [] [] Hm msorted_nil) as [(ms & m' & X & F & _)|[X _]]; rewrite X in Em; [|discriminate Em].
    exists ms, gs, r, es. auto.
Qed.
Lemma find_member : forall d, finds_in d (findMember d).
Proof. intros d n k H. unfold findMember in H. destruct (findByName d n) as [x|]; [|discriminate H]. injection H as <-. reflexivity. Qed.

Section Files.
Variables (fs : bytes -> option CountModel.node) (writable : bytes -> bool) (reg : bytes -> registry).
Hypothesis Hreg : forall n, known (reg n).

Ltac rows_of := intros row H; repeat (destruct row as [|? row]; [discriminate H|]); destruct row; [|discriminate H]; repeat split; reflexivity.
Lemma group_maker : good_maker group_columns groupRow (fun _ => True).
Proof. split; [intros [] _; reflexivity|]. rows_of. Qed.
Ltac name_ok := apply plain_check; vm_compute; reflexivity.
Lemma group_table : forall dir n rs, plain_name n -> hasExtension n = false ->
  (exists rows, fileRows fs writable reg dir n GroupColumns = Val (rows, true) /\ rs = map groupRow rows)
  <-> is_dir fs dir /\ table_in fs writable dir n group_columns rs.
Proof.
  intros dir n rs P E.
  assert (H : (exists rows, fileRows fs writable reg dir n GroupColumns = Val (rows, true) /\ rs = map groupRow rows)
              <-> is_dir fs dir /\ table_in fs writable dir n group_columns rs /\ Forall (fun _ => True) rs).
  { change GroupColumns with (map fst group_columns).
    apply (file_records fs writable reg Hreg group_columns groupRow (fun _ => True) group_maker); [discriminate|apply nodup_check; vm_compute; reflexivity|exact P|exact E]. }
  rewrite H. assert (T : Forall (fun _ => True) rs) by (apply Forall_forall; auto). tauto.
Qed.
Lemma load_from_l : forall R A rows (mk : list bytes -> R) (load : list R -> L A), loadFromL (Val (rows, true)) mk load = load (map mk rows).
Proof.
  intros R A rows mk load. unfold loadFromL. rewrite lbind_lift. destruct (load (map mk rows)) as [w [x| | |]]; try reflexivity.
  cbn [lbind llift]. rewrite app_nil_r. reflexivity.
Qed.
Lemma load_from_l_val : forall R A t (mk : list bytes -> R) (load : list R -> L A) x, snd (loadFromL t mk load) = Val x ->
  exists rows, t = Val (rows, true).
Proof.
  intros R A t mk load x H. unfold loadFromL in H. destruct t as [[rows e]| | |]; try discriminate H. rewrite lbind_lift in H.
  apply lbind_val in H. destruct H as (y & _ & H & _). destruct e; [eauto|discriminate H].
Qed.

Theorem groups_dir : forall mode f dir d mr pr, groups_in fs writable dir mr pr ->
  newGroupData fs writable reg mode f dir d = groupsOf mode f d mr pr.
Proof.
  intros mode f dir d mr pr (D & T1 & T2).
  assert (G1 : exists rows, fileRows fs writable reg dir (b_ "meaning-groups") GroupColumns = Val (rows, true) /\ mr = map groupRow rows)
    by (apply group_table; [name_ok|vm_compute; reflexivity|auto]).
  assert (G2 : exists rows, fileRows fs writable reg dir (b_ "pattern-groups") GroupColumns = Val (rows, true) /\ pr = map groupRow rows)
    by (apply group_table; [name_ok|vm_compute; reflexivity|auto]).
  destruct G1 as (r1 & E1 & ->), G2 as (r2 & E2 & ->). unfold newGroupData, groupsOf. rewrite E1, E2, !load_from_l. reflexivity.
Qed.
Theorem groups_complete : forall mode f dir d x, snd (newGroupData fs writable reg mode f dir d) = Val x -> exists mr pr, groups_in fs writable dir mr pr.
Proof.
  intros mode f dir d x H. unfold newGroupData in H. apply lbind_val in H. destruct H as ([mm ml] & A & H & _).
  apply lbind_val in H. destruct H as ([pm pl] & B & _). apply load_from_l_val in A, B. destruct A as (r1 & A), B as (r2 & B).
  exists (map groupRow r1), (map groupRow r2).
  assert (G1 : is_dir fs dir /\ table_in fs writable dir (b_ "meaning-groups") group_columns (map groupRow r1))
    by (apply group_table; [name_ok|vm_compute; reflexivity|eauto]).
  assert (G2 : is_dir fs dir /\ table_in fs writable dir (b_ "pattern-groups") group_columns (map groupRow r2))
    by (apply group_table; [name_ok|vm_compute; reflexivity|eauto]).
  unfold groups_in. tauto.
Qed.
Theorem groups_in_fun : forall dir mr pr mr' pr', groups_in fs writable dir mr pr -> groups_in fs writable dir mr' pr' -> mr = mr' /\ pr = pr'.
Proof.
  assert (G : forall dir n rs rs', plain_name n -> hasExtension n = false -> is_dir fs dir ->
            table_in fs writable dir n group_columns rs -> table_in fs writable dir n group_columns rs' -> rs = rs').
  { intros dir n rs rs' P E D T T'. destruct (proj2 (group_table dir n rs P E) (conj D T)) as (r1 & E1 & ->).
    destruct (proj2 (group_table dir n rs' P E) (conj D T')) as (r2 & E2 & ->). congruence. }
  intros dir mr pr mr' pr' (D & T1 & T2) (_ & T1' & T2').
  split; [apply (G dir (b_ "meaning-groups"))|apply (G dir (b_ "pattern-groups"))]; auto; (name_ok || (vm_compute; reflexivity)).
Qed.

(** ** Jukugo *)

Lemma files_loads : forall debug j (l : list (bytes * N)) cs jd,
  Forall2 (fun n c => exists q, getFile fs j (fst n) = Val q /\ contentsOf fs q = c) l cs ->
  jukugoFiles fs debug j l jd = loads debug (combine (map snd l) cs) jd.
Proof.
  intros debug j l cs jd F. revert jd. induction F as [|[n g] c l cs (q & E & C) F IH]; intros jd; [reflexivity|].
  cbn [jukugoFiles map snd combine loads]. unfold jukugoFile. cbn [fst] in E. rewrite E, lbind_lift, C.
  destruct (loadJukugoFile c g jd) as [jd'| | |]; [|reflexivity..]. rewrite !lbind_lift, !lbind_say. cbn [llift fst snd]. rewrite app_nil_r.
  erewrite lbind_pair by reflexivity. cbn [fst]. rewrite IH. reflexivity.
Qed.
Definition jukugo_read (dir : bytes) (f : JukugoFiles) : Prop :=
  Forall2 (fun n c => exists q, getFile fs (joinPath dir (b_ "jukugo")) (fst n) = Val q /\ contentsOf fs q = c) GradeFiles (map snd (contents f)).
Lemma grade_names : Forall (fun n => plain_name (fst n) /\ hasExtension (fst n) = false) GradeFiles.
Proof. unfold GradeFiles. repeat (apply Forall_cons || apply Forall_nil); (split; [name_ok|vm_compute; reflexivity]). Qed.
Lemma forall2_map : forall A B C (g : A -> B) (P : B -> C -> Prop) l cs, Forall2 P (map g l) cs <-> Forall2 (fun a c => P (g a) c) l cs.
Proof.
  intros A B C g P. induction l as [|a l IH]; intros cs; split; intros H; inversion H; subst; constructor; auto; apply IH; assumption.
Qed.
Lemma jukugo_read_iff : forall dir f, jukugo_in fs dir f <-> jukugo_read dir f.
Proof.
  intros dir f. assert (P : plain_name (b_ "jukugo")) by name_ok. unfold jukugo_in, jukugo_read.
  change [b_ "g1"; b_ "g2"; b_ "g3"; b_ "g4"; b_ "g5"; b_ "g6"; b_ "other"] with (map (@fst bytes N) GradeFiles).
  change [fG1 f; fG2 f; fG3 f; fG4 f; fG5 f; fG6 f; fOther f] with (map snd (contents f)).
  pose proof grade_names as G. assert (Ne : GradeFiles <> []) by discriminate. revert G Ne. generalize GradeFiles (map snd (contents f)). intros l cs G Ne. split.
  - intros (j & C & D & F). apply child_join in C; [|exact P]. subst j. apply (proj1 (forall2_map _ _ _ _ _ _ _)) in F.
    clear Ne. induction F as [|n c l cs (p & C & T) F IH]; constructor; inversion G as [|x y [G1 G2] G']; subst; [|apply IH; exact G'].
    apply (got_child fs writable); [exact G1|exact G2|]. split; [exact D|eauto].
  - intros F. exists (joinPath dir (b_ "jukugo")). split; [apply child_join; auto|].
    assert (Q : Forall2 (fun n c => is_dir fs (joinPath dir (b_ "jukugo")) /\ exists p, child (joinPath dir (b_ "jukugo")) (fst n) p /\ text_at fs p c) l cs).
    { clear Ne. induction F as [|n c l cs X F IH]; constructor; inversion G as [|x y [G1 G2] G']; subst; [|apply IH; exact G'].
      apply (got_child fs writable); [exact G1|exact G2|exact X]. }
    split; [inversion Q; subst; [congruence|tauto]|]. apply (proj2 (forall2_map _ _ _ _ _ _ _)). clear -Q. induction Q as [|n c l cs [_ X] F IH]; constructor; [exact X|exact IH].
Qed.
Lemma combine_contents : forall f, combine (map snd GradeFiles) (map snd (contents f)) = contents f.
Proof. reflexivity. Qed.

Theorem jukugo_load : forall mode f dir d jf, jukugo_in fs dir jf ->
  snd (newJukugoData fs mode f dir d) = loadJukugo jf /\ errors (fst (newJukugoData fs mode f dir d)) = []
  /\ (mode = DebugNone -> fst (newJukugoData fs mode f dir d) = []).
Proof.
  intros mode f dir d jf H. apply jukugo_read_iff in H. unfold newJukugoData. rewrite lbind_say. cbn [fst snd].
  rewrite (files_loads (isDebug mode) _ _ _ emptyJukugo H), combine_contents.
  pose proof (loads_erase (isDebug mode) (contents jf) emptyJukugo) as E. rewrite plain_all in E. pose proof (loads_errors (isDebug mode) (contents jf) emptyJukugo) as Er.
  split; [|split].
  - rewrite lbind_snd, E. destruct (loadJukugo jf); reflexivity.
  - rewrite errors_app. replace (errors (if isDebug mode then _ else _)) with (@nil bytes) by (destruct (isDebug mode); reflexivity). cbn [app].
    destruct (loads (isDebug mode) (contents jf) emptyJukugo) as [w [x| | |]]; cbn [fst lbind] in *; try exact Er.
    cbn [lsay llift lbind fst]. rewrite !errors_app, Er. destruct (isDebug mode); reflexivity.
  - intros ->. cbn [isDebug app]. pose proof (loads_quiet (contents jf) emptyJukugo) as Q. cbn [isDebug] in *.
    destruct (loads false (contents jf) emptyJukugo) as [w [x| | |]]; cbn [fst lbind] in *; try exact Q. rewrite Q. reflexivity.
Qed.
Theorem jukugo_text : forall mode f dir d jf js jd, jukugo_in fs dir jf -> files_fit jf -> mode <> DebugNone -> all_words jf js -> loadJukugo jf = Val jd ->
  exists ks, kanji_in (distinct js) ks /\ outputText (fst (newJukugoData fs mode f dir d)) = jukugo_report (sFill f) d (distinct js) ks.
Proof.
  intros mode f dir d jf js jd H F M A L. exists (map fst (jMap jd)). split; [exact (kanji_spec jf js jd F A L)|].
  assert (U : jUnique jd = distinct js).
  { destruct (load_cases jf F) as [(js' & jd' & A' & E & Hd)|[E _]]; rewrite L in E; [|discriminate E]. injection E as <-.
    rewrite (all_words_unique _ _ _ A A'). exact (h_unique _ _ Hd). }
  apply jukugo_read_iff in H. unfold newJukugoData. replace (isDebug mode) with true by (destruct mode; [reflexivity|reflexivity|congruence]).
  rewrite lbind_say. cbn [fst]. rewrite (files_loads true _ _ _ emptyJukugo H), combine_contents.
  pose proof (loads_erase true (contents jf) emptyJukugo) as E. rewrite plain_all, L in E. rewrite (lbind_pair _ _ _ _ _ E), lbind_say. cbn [fst].
  rewrite <- plain_all in L.
  rewrite !output_app, (loads_said (contents jf) emptyJukugo jd); [| | |exact L].
  - cbn [outputText llift fst]. rewrite totals_spec, !app_nil_r, U. unfold jukugo_report, logText, line, grades, contents. cbn [map fst snd flat_map]. rewrite <- !app_assoc. reflexivity.
  - apply (NoDup_nth _ 0). unfold contents. cbn [map fst List.length]. intros i k I K X. 
    do 7 (destruct i as [|i]; [do 7 (destruct k as [|k]; [(reflexivity || discriminate X)|]); lia|]). lia.
  - constructor.
Qed.
Theorem jukugo_complete : forall mode f dir d x, snd (newJukugoData fs mode f dir d) = Val x -> exists jf, jukugo_in fs dir jf.
Proof.
  intros mode f dir d x H. unfold newJukugoData in H. rewrite lbind_say in H. cbn [snd] in H. apply lbind_val in H. destruct H as (jd & H & _).
  assert (G : forall l jd jd', snd (jukugoFiles fs (isDebug mode) (joinPath dir (b_ "jukugo")) l jd) = Val jd' ->
            exists cs, Forall2 (fun n c => exists q, getFile fs (joinPath dir (b_ "jukugo")) (fst n) = Val q /\ contentsOf fs q = c) l cs).
  { induction l as [|[n g] l IH]; intros a b X; [exists []; constructor|]. cbn [jukugoFiles] in X. apply lbind_val in X. destruct X as (c & X & Y & _).
    unfold jukugoFile in X. apply lbind_val in X. destruct X as (q & X & _). cbn [llift snd] in X. destruct (IH _ _ Y) as (cs & F).
    exists (contentsOf fs q :: cs). constructor; [eauto|exact F]. }
  destruct (G _ _ _ H) as (cs & F). assert (Ln : List.length cs = 7%nat).
  { clear -F. change 7%nat with (List.length GradeFiles). induction F; cbn [List.length]; congruence. }
  do 7 (destruct cs as [|? cs]; [discriminate Ln|]). destruct cs; [|discriminate Ln].
  exists (MkJFiles b b0 b1 b2 b3 b4 b5). apply jukugo_read_iff. exact F.
Qed.
Theorem jukugo_in_fun : forall dir a b, jukugo_in fs dir a -> jukugo_in fs dir b -> a = b.
Proof.
  intros dir a b A B. apply jukugo_read_iff in A, B. unfold jukugo_read in A, B.
  assert (E : map snd (contents a) = map snd (contents b)).
  { revert A B. generalize (map snd (contents a)) (map snd (contents b)) GradeFiles. intros x y l A. revert y.
    induction A as [|n c l cs (q & Q1 & Q2) A IH]; intros y B; inversion B as [|? c' ? cs' (q' & Q3 & Q4) B']; subst; [reflexivity|].
    f_equal; [congruence|apply IH; exact B']. }
  destruct a, b. cbn in E. injection E as -> -> -> -> -> -> ->. reflexivity.
Qed.
End Files.
