(** Sample Jukugo files, and small lemmas for JukugoProps.v. *)
From Verif Require Import BaseFacts ListProofs JukugoModel JukugoSpec JukugoProofs JukugoLines JukugoLoad Utf8Lemmas Utf8CharLemmas Utf8CharProofs.
Open Scope N_scope.

Lemma sample_ok : forall s, forallb (fun b => b <? 256) s = true -> bytes_ok s.
Proof. intros s H. apply Forall_forall. intros b Hb. rewrite forallb_forall in H. specialize (H b Hb). lia. Qed.
Lemma forallb_lt : forall n s, forallb (fun b => b <? n) s = true -> forall b, In b s -> b < n.
Proof. intros n s H b Hb. rewrite forallb_forall in H. specialize (H b Hb). lia. Qed.

Lemma once_each : forall (kf : Jukugo -> list bytes) k l, (forall j, In j l -> NoDup (kf j)) ->
  flat_map (fun j => repeat j (occurs k (kf j))) l = filter (fun j => existsb (beq k) (kf j)) l.
Proof.
  intros kf k l H. induction l as [|j l IH]; [reflexivity|]. cbn [flat_map filter].
  rewrite IH by (intros x Hx; apply H; right; exact Hx).
  assert (O : occurs k (kf j) = if existsb (beq k) (kf j) then 1%nat else 0%nat).
  { pose proof (H j (or_introl eq_refl)) as N. unfold occurs. induction (kf j) as [|c cs IHc]; [reflexivity|].
    inversion N as [|? ? Hn N']; subst. specialize (IHc N'). cbn [filter existsb]. destruct (beq k c) eqn:E; cbn [orb length].
    - apply beq_eq in E. subst c. f_equal. replace (filter (beq k) cs) with (@nil bytes); [reflexivity|]. symmetry.
      destruct (filter (beq k) cs) as [|x xs] eqn:F; [reflexivity|]. exfalso. assert (X : In x (filter (beq k) cs)) by (rewrite F; left; reflexivity).
      apply filter_In in X. destruct X as [X1 X2]. apply beq_eq in X2. subst x. exact (Hn X1).
    - exact IHc. }
  rewrite O. destruct (existsb (beq k) (kf j)); reflexivity.
Qed.
Lemma distinct_nodup : forall js, NoDup (distinct js).
Proof.
  induction js as [|j js IH]; [constructor|]. cbn [distinct]. constructor.
  - intro H. apply filter_In in H. destruct H as [_ H]. assert (same_word j j = true) by (apply same_word_iff; auto). rewrite H0 in H. discriminate.
  - apply NoDup_filter. exact IH.
Qed.

Definition lf : bytes := [10].
Definition sample_word1 := MkJukugo (b_ "一日") (b_ "いちにち") 1.
Definition sample_word2 := MkJukugo (b_ "日本") (b_ "にほん") 2.
Definition sample_word3 := MkJukugo (b_ "本屋") (b_ "ほんや") 7.
Definition sample_words := [sample_word1; sample_word1; sample_word2; sample_word3].
Definition sample_files := MkJFiles (b_ "一日 (いちにち)" ++ lf ++ b_ "一日 (いちにち)" ++ lf) (b_ "日本 (にほん)") [] [] [] []
  (b_ "屋 ... 本屋(ほんや)" ++ lf).
Definition twice_files := MkJFiles (b_ "人人 (ひとびと)") [] [] [] [] [] [].

Lemma fits_small : forall s, len s <=? 1000 = true -> fits s.
Proof. intros s H. unfold fits. lia. Qed.
Lemma fit_check : forall f, forallb (fun c => (len c <=? 1000) && forallb (fun b => b <? 256) c)
    [fG1 f; fG2 f; fG3 f; fG4 f; fG5 f; fG6 f; fOther f] = true -> files_fit f.
Proof.
  intros f H. unfold files_fit. apply Forall_forall. intros c Hc. rewrite forallb_forall in H. specialize (H c Hc).
  apply andb_true_iff in H. destruct H as [H1 H2]. split; [apply fits_small; exact H1|apply sample_ok; exact H2].
Qed.
Lemma sample_fit : files_fit sample_files. Proof. apply fit_check. vm_compute. reflexivity. Qed.
Lemma twice_fit : files_fit twice_files. Proof. apply fit_check. vm_compute. reflexivity. Qed.

(** loading ends with words, and their lines are these *)
Lemma sample_loaded : exists js d, all_words sample_files js /\ loadJukugo sample_files = Val d /\ Holds js d.
Proof.
  destruct (load_cases _ sample_fit) as [X|[E _]]; [exact X|]. exfalso. vm_compute in E. discriminate.
Qed.
Lemma not_in : forall (c : N) s, existsb (N.eqb c) s = false -> ~ In c s.
Proof.
  intros c s H X. apply not_true_iff_false in H. apply H. apply existsb_exists. exists c. split; [exact X|apply N.eqb_refl].
Qed.
Lemma grade_by : forall line n r, line = n ++ b_ " (" ++ r ++ b_ ")" -> n <> [] ->
  existsb (N.eqb 40) n = false -> existsb (N.eqb 41) n = false -> existsb (N.eqb 41) r = false -> grade_line line n r.
Proof. intros line n r H1 H2 H3 H4 H5. repeat split; try assumption; apply not_in; assumption. Qed.
Lemma empty_file : forall g, (g =? GradeS) = false -> file_words_of g [] [].
Proof. intros g Hg. exists []. split; [apply cut_getlines; reflexivity|]. rewrite Hg. constructor. Qed.
Lemma sample_all : all_words sample_files sample_words.
Proof.
  exists [sample_word1; sample_word1], [sample_word2], [], [], [], [], [sample_word3].
  split.
  { exists [b_ "一日 (いちにち)"; b_ "一日 (いちにち)"]. split; [apply cut_getlines; vm_compute; reflexivity|]. cbn [N.eqb].
    assert (X : grade_line (b_ "一日 (いちにち)") (jName sample_word1) (jReading sample_word1) /\ jGrade sample_word1 = 1).
    { split; [|reflexivity]. apply grade_by; [vm_compute; reflexivity|discriminate|vm_compute; reflexivity..]. }
    change (1 =? GradeS) with false. constructor; [exact X|]. constructor; [exact X|]. constructor. }
  split.
  { exists [b_ "日本 (にほん)"]. split; [apply cut_getlines; vm_compute; reflexivity|]. change (2 =? GradeS) with false. constructor; [|constructor].
    split; [|reflexivity]. apply grade_by; [vm_compute; reflexivity|discriminate|vm_compute; reflexivity..]. }
  do 4 (split; [apply empty_file; reflexivity|]).
  split; [|reflexivity].
  exists [b_ "屋 ... 本屋(ほんや)"]. split; [apply cut_getlines; vm_compute; reflexivity|]. change (GradeS =? GradeS) with true.
  exists [[b_ "本屋(ほんや)"]]. split.
  - constructor; [|constructor]. exists (b_ "屋 "), 32, (b_ "本屋(ほんや)"). split; [vm_compute; reflexivity|].
    split; [|apply cut_getlines; vm_compute; reflexivity].
    intros a' r' E. destruct (findText_cases (b_ "...") (b_ "屋 ... 本屋(ほんや)")) as [[_ X]|(a & r & E1 & E2 & M)].
    + exfalso. exact (X _ _ E).
    + specialize (M _ _ E). assert (E3 : findText (b_ "...") (b_ "屋 ... 本屋(ほんや)") = Some (len (b_ "屋 "))) by (vm_compute; reflexivity).
      rewrite E3 in E2.
      assert (E4 : len (b_ "屋 ") = len a) by congruence. rewrite E4. exact M.
  - cbn [concat app]. constructor; [|constructor]. split; [|reflexivity]. split; [apply not_in; vm_compute; reflexivity|].
    left. exists []. split; [vm_compute; reflexivity|]. split; apply not_in; vm_compute; reflexivity.
Qed.
Lemma sample_loadable : loadable sample_words.
Proof.
  destruct sample_loaded as (js & d & A & _ & H). rewrite <- (all_words_unique _ _ _ A sample_all). exact (h_loadable _ _ H).
Qed.
