(** Lemmas about the report on loading Jukugo. *)
From Verif Require Import BaseFacts MapProofs JukugoProofs JukugoLoad LoadLogTrace LoadLogLists GroupReportProofs QuizDataModel QuizDataSpec QuizDataGroups.
Open Scope N_scope.
Arguments N.mul : simpl never. Arguments N.add : simpl never. Arguments N.sub : simpl never.

(** ** What is added *)

Definition filled (d : JukugoData) : Prop := msorted (jMap d) /\ forall k l, mfind k (jMap d) = Some l -> l <> [].
Definition grows (p : N -> Prop) (d d' : JukugoData) : Prop :=
  (exists new, jUnique d' = jUnique d ++ new /\ Forall (fun j => p (jGrade j)) new) /\ (filled d -> filled d').
Lemma grows_refl : forall p d, grows p d d.
Proof. intros p d. split; [exists []; rewrite app_nil_r; split; [reflexivity|constructor]|auto]. Qed.
Lemma grows_trans : forall p a b c, grows p a b -> grows p b c -> grows p a c.
Proof.
  intros p a b c ((n1 & E1 & F1) & K1) ((n2 & E2 & F2) & K2). split; [|auto]. exists (n1 ++ n2). rewrite E2, E1, app_assoc. split; [reflexivity|].
  apply Forall_app. auto.
Qed.
Lemma grows_impl : forall (p q : N -> Prop) a b, (forall g, p g -> q g) -> grows p a b -> grows q a b.
Proof.
  intros p q a b H ((n & E & F) & K). split; [|exact K]. exists n. split; [exact E|]. eapply Forall_impl; [|exact F]. cbn. auto.
Qed.
Lemma map_filled : forall j ks m, msorted m -> (forall k l, mfind k m = Some l -> l <> []) ->
  forall k l, mfind k (addToMap j ks m) = Some l -> l <> [].
Proof.
  intros j ks. induction ks as [|c ks IH]; intros m Hs H; [exact H|]. cbn [addToMap fold_left]. apply IH; [apply mupdate_sorted; exact Hs|].
  intros k l E. destruct (beq k c) eqn:Q.
  - apply beq_eq in Q. subst c. rewrite mupdate_same in E by exact Hs. injection E as <-. destruct (mfind k m) as [[|x y]|]; discriminate.
  - apply beq_neq in Q. rewrite mupdate_other in E by exact Q. exact (H k l E).
Qed.
Lemma add_grows : forall name reading g d d', addJukugo name reading g d = Val d' -> grows (fun x => x = g) d d'.
Proof.
  intros name reading g d d' H. unfold addJukugo in H. destruct (findUnique name reading (jUnique d)) as [j|].
  - destruct (jGrade j =? g); [|discriminate H]. injection H as <-. apply grows_refl.
  - destruct (newJukugo name reading g) as [j| | |] eqn:E; try discriminate H. cbn [obind] in H.
    destruct (kanjiOf name) as [ks| | |]; try discriminate H. cbn [obind] in H. injection H as <-.
    assert (G : jGrade j = g).
    { unfold newJukugo in E. destruct (kanjiOf name) as [x| | |]; try discriminate E. cbn [obind] in E. destruct (len x =? 0); [discriminate E|].
      destruct (len x <? 2); [discriminate E|]. destruct (allChars reading true) as [[cs y]| | |]; try discriminate E. cbn [obind] in E.
      destruct (checkReading cs); try discriminate E. cbn [obind] in E. injection E as <-. reflexivity. }
    split.
    + exists [j]. split; [reflexivity|]. constructor; [exact G|constructor].
    + intros [Hs K]. cbn [jMap]. split; [apply (add_to_map ks j (jMap d) Hs)|]. cbn [jMap]. apply map_filled; assumption.
Qed.
Lemma create_grows : forall ls g onep d d', createAll ls g onep d = Val d' -> grows (fun x => x = g) d d'.
Proof.
  induction ls as [|l ls IH]; intros g onep d d' H; cbn [createAll] in H; [injection H as <-; apply grows_refl|].
  destruct (createJukugo l g onep d) as [d1| | |] eqn:E; try discriminate H. cbn [obind] in H. apply grows_trans with d1; [|exact (IH g onep d1 d' H)].
  unfold createJukugo in E. destruct (findOpenBracket l onep); try discriminate E. cbn [obind] in E. destruct (findCloseBracket l onep); try discriminate E.
  cbn [obind] in E. destruct (substr l 0 _); try discriminate E. cbn [obind] in E. destruct (substr l _ _); try discriminate E. cbn [obind] in E.
  eapply add_grows. exact E.
Qed.
Lemma other_grows : forall ls g d d', otherLines ls g d = Val d' -> grows (fun x => x = g) d d'.
Proof.
  induction ls as [|l ls IH]; intros g d d' H; cbn [otherLines] in H; [injection H as <-; apply grows_refl|].
  destruct (findText (b_ "...") l); [|discriminate H]. destruct (substrFrom l _); try discriminate H. cbn [obind] in H.
  destruct (createAll _ g false d) as [d1| | |] eqn:E; try discriminate H. cbn [obind] in H.
  apply grows_trans with d1; [eapply create_grows; exact E|exact (IH g d1 d' H)].
Qed.
Lemma file_grows : forall c g d d', loadJukugoFile c g d = Val d' -> grows (fun x => x = g) d d'.
Proof.
  intros c g d d' H. unfold loadJukugoFile in H. destruct (g =? GradeS); cbn [negb] in H.
  - destruct (otherLines _ g d) as [x| | |] eqn:E; try discriminate H. cbn [asDomainError] in H. injection H as <-. eapply other_grows. exact E.
  - destruct (createAll _ g true d) as [x| | |] eqn:E; try discriminate H. cbn [asDomainError] in H. injection H as <-. eapply create_grows. exact E.
Qed.

(** ** The files *)

(** the files by their grade and content *)
Fixpoint loads (debug : bool) (l : list (N * bytes)) (jd : JukugoData) : L JukugoData :=
  match l with
  | [] => llift (Val jd)
  | (g, c) :: r =>
      let* jd' := llift (loadJukugoFile c g jd) in
      let* _ := lsay (if debug then [ToOut (logText false ++ b_ "Loaded " ++ to_string (len (jUnique jd') - len (jUnique jd))
                                            ++ b_ " for Grade: " ++ gradeText g ++ [10])] else []) in
      loads debug r jd'
  end.
Fixpoint plainLoads (l : list (N * bytes)) (jd : JukugoData) : out JukugoData :=
  match l with [] => Val jd | (g, c) :: r => jd' <- loadJukugoFile c g jd ;; plainLoads r jd' end.
Lemma loads_erase : forall debug l jd, snd (loads debug l jd) = plainLoads l jd.
Proof.
  intros debug. induction l as [|[g c] l IH]; intros jd; [reflexivity|]. cbn [loads plainLoads]. rewrite lbind_snd. cbn [llift snd].
  apply obind_ext. intros jd'. rewrite lbind_say. cbn [snd]. apply IH.
Qed.
Lemma loads_errors : forall debug l jd, errors (fst (loads debug l jd)) = [].
Proof.
  intros debug. induction l as [|[g c] l IH]; intros jd; [reflexivity|]. cbn [loads]. destruct (loadJukugoFile c g jd) as [jd'| | |]; [|reflexivity..].
  rewrite lbind_lift, lbind_say. cbn [fst]. rewrite errors_app, IH. destruct debug; reflexivity.
Qed.
Lemma loads_quiet : forall l jd, fst (loads false l jd) = [].
Proof.
  induction l as [|[g c] l IH]; intros jd; [reflexivity|]. cbn [loads]. destruct (loadJukugoFile c g jd) as [jd'| | |]; [|reflexivity..].
  rewrite lbind_lift, lbind_say. cbn [fst]. apply IH.
Qed.
Lemma plain_grows : forall l jd jd', plainLoads l jd = Val jd' -> grows (fun g => In g (map fst l)) jd jd'.
Proof.
  induction l as [|[g c] l IH]; intros jd jd' H; cbn [plainLoads] in H; [injection H as <-; apply grows_refl|].
  destruct (loadJukugoFile c g jd) as [x| | |] eqn:E; try discriminate H. cbn [obind] in H. apply grows_trans with x.
  - eapply grows_impl; [|eapply file_grows; exact E]. cbn. auto.
  - eapply grows_impl; [|eapply IH; exact H]. cbn. auto.
Qed.
Lemma filter_none : forall A (p : A -> bool) l, (forall x, In x l -> p x = false) -> filter p l = [].
Proof.
  intros A p l H. induction l as [|x l IH]; [reflexivity|]. cbn [filter]. rewrite (H x (or_introl eq_refl)). apply IH. intros y Y. apply H. right. exact Y.
Qed.
Lemma filter_every : forall A (p : A -> bool) l, (forall x, In x l -> p x = true) -> filter p l = l.
Proof.
  intros A p l H. induction l as [|x l IH]; [reflexivity|]. cbn [filter]. rewrite (H x (or_introl eq_refl)). f_equal. apply IH. intros y Y. apply H. right. exact Y.
Qed.
Lemma loads_said : forall l jd jd', NoDup (map fst l) -> Forall (fun j => ~ In (jGrade j) (map fst l)) (jUnique jd) -> plainLoads l jd = Val jd' ->
  outputText (fst (loads true l jd))
  = flat_map (fun g => line (b_ "Loaded " ++ to_string (count (fun j => jGrade j =? g) (jUnique jd')) ++ b_ " for Grade: " ++ gradeText g)) (map fst l).
Proof.
  induction l as [|[g c] l IH]; intros jd jd' D F H; [reflexivity|]. cbn [loads plainLoads map fst flat_map] in *.
  destruct (loadJukugoFile c g jd) as [x| | |] eqn:E; try discriminate H. cbn [obind] in H. rewrite lbind_lift, lbind_say. cbn [fst].
  rewrite output_app. inversion D as [|y z D1 D2]; subst.
  destruct (file_grows _ _ _ _ E) as ((n1 & E1 & F1) & _). destruct (plain_grows _ _ _ H) as ((n2 & E2 & F2) & _).
  rewrite (IH x jd' D2); [| |exact H].
  - f_equal. rewrite E2, E1. unfold count. rewrite !filter_app.
    rewrite (filter_none _ _ (jUnique jd)), (filter_every _ _ n1), (filter_none _ _ n2).
    + cbn [app outputText]. rewrite !app_nil_r, len_app. replace (len (jUnique jd) + len n1 - len (jUnique jd)) with (len n1) by lia.
      unfold line, logText. cbn [app]. rewrite <- !app_assoc. reflexivity.
    + intros j J. rewrite Forall_forall in F2. specialize (F2 j J). apply N.eqb_neq. intros Q. subst g. contradiction.
    + intros j J. rewrite Forall_forall in F1. apply N.eqb_eq. exact (F1 j J).
    + intros j J. rewrite Forall_forall in F. specialize (F j J). apply N.eqb_neq. intros Q. subst g. apply F. left. reflexivity.
  - rewrite E1. apply Forall_app. split.
    + eapply Forall_impl; [|exact F]. cbn. intros j A B. apply A. right. exact B.
    + eapply Forall_impl; [|exact F1]. cbn. intros j A B. rewrite A in B. contradiction.
Qed.

Definition contents (f : JukugoFiles) : list (N * bytes) :=
  [(1, fG1 f); (2, fG2 f); (3, fG3 f); (4, fG4 f); (5, fG5 f); (6, fG6 f); (GradeS, fOther f)].
Lemma plain_all : forall f, plainLoads (contents f) emptyJukugo = loadJukugo f.
Proof.
  intros f. unfold loadJukugo, contents. cbn [loadGrades plainLoads].
  replace (1 + 1) with 2 by reflexivity. replace (2 + 1) with 3 by reflexivity. replace (3 + 1) with 4 by reflexivity.
  replace (4 + 1) with 5 by reflexivity. replace (5 + 1) with 6 by reflexivity.
  repeat (match goal with |- context [obind (loadJukugoFile ?c ?g ?d) _] => destruct (loadJukugoFile c g d) as [?| | |]; cbn [obind]; try reflexivity end).
Qed.

(** ** The totals *)

Lemma types_spec : forall d (ks : list (bytes * list Jukugo)) m before,
  (forall t, findType (kanjiTypeNumber t) m = match filter (type_in d t) before with [] => None | l => Some l end) ->
  forall t, findType (kanjiTypeNumber t) (fold_left (fun m e => addType (kanjiTypeNumber (getType d (fst e))) (fst e) m) ks m)
    = match filter (type_in d t) (before ++ map fst ks) with [] => None | l => Some l end.
Proof.
  intros d. induction ks as [|[k v] ks IH]; intros m before H t; cbn [fold_left map fst]; [rewrite app_nil_r; apply H|].
  replace (before ++ k :: map fst ks) with ((before ++ [k]) ++ map fst ks) by (rewrite <- app_assoc; reflexivity).
  apply IH. clear t. intros t. rewrite find_add, H, filter_app. cbn [filter].
  assert (Q : (kanjiTypeNumber (getType d k) =? kanjiTypeNumber t) = type_in d t k).
  { unfold getType, type_in. destruct (findByName d k); [reflexivity|]. destruct t; reflexivity. }
  rewrite Q. destruct (type_in d t k).
  - destruct (filter (type_in d t) before); reflexivity.
  - rewrite app_nil_r. reflexivity.
Qed.
Lemma examples_rest : forall n l, jukugoExamples n false l = flat_map (fun s => b_ " " ++ s) (firstn n l).
Proof. induction n as [|n IH]; intros [|s l]; cbn [jukugoExamples firstn flat_map]; try reflexivity. rewrite IH, <- app_assoc. reflexivity. Qed.
Lemma examples_spec : forall l, l <> [] -> jukugoExamples JukugoMaxExamples true l = b_ "(" ++ separated (b_ " ") (firstn 12 l).
Proof.
  intros l H. destruct l as [|s l]; [congruence|].
  change (jukugoExamples JukugoMaxExamples true (s :: l)) with (b_ "(" ++ s ++ jukugoExamples 11 false l).
  change (firstn 12 (s :: l)) with (s :: firstn 11 l). rewrite examples_rest. f_equal.
  generalize (firstn 11 l). clear. intros l. revert s. induction l as [|x l IH]; intros s; [apply app_nil_r|].
  cbn [flat_map]. change (separated (b_ " ") (s :: x :: l)) with (s ++ b_ " " ++ separated (b_ " ") (x :: l)). rewrite <- IH, <- !app_assoc. reflexivity.
Qed.
Lemma totals_spec : forall f d jd,
  jukugoTotals f d jd
  = line (b_ "Total Kanji with Jukugo: " ++ to_string (len (map fst (jMap jd))) ++ b_ ", unique jukugo: " ++ to_string (len (jUnique jd)))
    ++ flat_map (jukugo_line (sFill f) d (map fst (jMap jd))) (real_types ++ [NoType]).
Proof.
  intros f d jd. unfold jukugoTotals, logText, line. replace (len (map fst (jMap jd))) with (len (jMap jd)) by (unfold len; rewrite map_length; reflexivity).
  rewrite <- !app_assoc. do 5 f_equal. cbn [app]. f_equal. change AllKanjiTypes with (real_types ++ [NoType]).
  apply flat_map_ext. intros t. unfold jukugoTypes, jukugo_line. rewrite (types_spec d (jMap jd) [] []) by reflexivity. cbn [app].
  destruct (filter (type_in d t) (map fst (jMap jd))) as [|x l] eqn:E; [reflexivity|].
  unfold putSetw, JukugoSetW. change (Z.to_nat 14) with 14%nat. rewrite (examples_spec (x :: l)) by discriminate. rewrite <- !app_assoc. reflexivity.
Qed.

(** ** The Kanji *)

Definition kanjiIn (j : Jukugo) : list bytes := match kanjiOf (jName j) with Val ks => ks | _ => [] end.
Lemma kanji_spec : forall f js jd, files_fit f -> all_words f js -> loadJukugo f = Val jd -> kanji_in (distinct js) (map fst (jMap jd)).
Proof.
  intros f js jd F A H. destruct (load_cases f F) as [(js' & jd' & A' & E & Hd)|[E _]]; rewrite H in E; [|discriminate E]. injection E as <-.
  rewrite (all_words_unique _ _ _ A A') in *. clear A js. rename js' into js.
  assert (W : forall j, In j js -> word_kanji (jName j) (kanjiIn j)).
  { intros j J. pose proof (h_ok _ _ Hd) as O. rewrite Forall_forall in O. destruct (O j J) as [B _]. destruct (word_exists _ B) as (ks & K).
    unfold kanjiIn. rewrite (kanjiOf_spec _ _ B K). exact K. }
  split; [exact (h_sorted _ _ Hd)|]. intros k. pose proof (h_find _ _ Hd kanjiIn W k) as Q. unfold jFind in Q.
  assert (P : filled jd).
  { rewrite <- plain_all in H. apply (plain_grows _ _ _ H). split; [exact msorted_nil|]. intros x l X. discriminate X. }
  assert (I : forall j, In k (kanjiIn j) <-> occurs k (kanjiIn j) <> 0%nat).
  { intros j. unfold occurs. split.
    - intros X Y. assert (Z : In k (filter (beq k) (kanjiIn j))) by (apply filter_In; split; [exact X|apply beq_refl]).
      destruct (filter (beq k) (kanjiIn j)); [destruct Z|discriminate Y].
    - intros X. destruct (filter (beq k) (kanjiIn j)) as [|x l] eqn:E; [cbn in X; congruence|].
      assert (Z : In x (filter (beq k) (kanjiIn j))) by (rewrite E; left; reflexivity). apply filter_In in Z. destruct Z as [Z1 Z2]. apply beq_eq in Z2. subst x. exact Z1. }
  split.
  - intros X. destruct (mfind_present _ _ X) as (l & E). rewrite E in Q. destruct P as [_ P]. specialize (P k l E).
    destruct l as [|j l]; [congruence|]. assert (J : In j (flat_map (fun j => repeat j (occurs k (kanjiIn j))) (distinct js))) by (rewrite <- Q; left; reflexivity).
    apply in_flat_map in J. destruct J as (x & J1 & J2). exists x, (kanjiIn x). split; [exact J1|]. split; [apply W; apply distinct_in; exact J1|].
    apply I. intros Z. rewrite Z in J2. destruct J2.
  - intros (j & w & J & K & M). rewrite (word_unique _ _ _ K (W j (distinct_in _ _ J))) in M. apply I in M.
    destruct (mfind k (jMap jd)) as [l|] eqn:E; [eapply mfind_in_keys; exact E|]. exfalso.
    assert (Z : In j (flat_map (fun j => repeat j (occurs k (kanjiIn j))) (distinct js))).
    { apply in_flat_map. exists j. split; [exact J|]. destruct (occurs k (kanjiIn j)); [congruence|left; reflexivity]. }
    rewrite <- Q in Z. destruct Z.
Qed.
