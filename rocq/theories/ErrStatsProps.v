(** C124: what kanjiStats says about its arguments, and what is said about the data directory. *)
From Verif Require Import BaseFacts MapProofs ArgsProofs CountSpec CountProofs StatsProofs DirSample DirPaths DirProps.
From Verif Require Import StatsReportModel StatsReportSpec StatsReportProofs StatsReportProps ErrArgsProofs ErrStatsSpec ErrStatsProofs.
From Verif Require Import DirModel DirSpec ErrDirModel ErrDirSpec ErrDirProofs ErrStatsModel StatsReportModel StatsReportSpec ErrStatsSpec.
Open Scope N_scope.

(** * kanjiStats *)

(** what is printed and how it ends are as in C103 *)
Theorem C124_same : forall std ucd findByName order fs fuel a debug,
  let r := statsT std ucd findByName order fs fuel a debug in (fst r, ErrBase.plain (snd r)) = stats ucd findByName order fs fuel a debug.
Proof. intros. apply stats_plain. Qed.
Print Assumptions C124_same.
(** the program ends with the one message about its arguments, or without any *)
Theorem C124_stats : forall mf std ucd findByName order fs I fuel prog l debug, mf < 65535 ->
  (forall ks, exists t, built (less mf) ks t /\ order ks = inorder t) -> reader I -> (forall p n, fs p = Some n -> node_ok n) ->
  len (prog :: l) < 65535 -> (S (List.length (prog :: l)) < fuel)%nat -> Forall bytes_ok (file_names (kept l)) ->
  let r := statsT std ucd findByName order fs fuel (argsOf (prog :: l)) debug in
  (exists w, stats_says fs debug (kept l) w /\ snd r = Says DomainError w) \/ ((forall w, ~ stats_says fs debug (kept l) w) /\ snd r = Got tt).
Proof.
  intros mf std ucd findByName order fs I fuel prog l debug Hmf Horder HI Hfs Hl Hf Hb. cbv zeta. unfold statsT.
  rewrite (readT_outcome fuel prog l Hl Hf). unfold outcomeT. destruct (other_switch (kept l)) as [a|] eqn:O.
  - destruct (beq a (b_ "-h")) eqn:E.
    + apply beq_eq in E. subst a. right. split; [|reflexivity]. intros w H. destruct H; congruence.
    + left. eexists. split; [|reflexivity]. apply ss_illegal; [exact O|]. intros ->. rewrite beq_refl in E. discriminate E.
  - cbn [orb app]. destruct (file_names (kept l)) as [|p r] eqn:Fn.
    + destruct debug; [right|left].
      * split; [|reflexivity]. intros w H. destruct H as [a A1 A2|A1 A2 A3|d p r A1 A2 A3 A4]; try congruence. rewrite Fn in A2. destruct d; discriminate A2.
      * eexists. split; [apply ss_nothing; [reflexivity|exact O|exact Fn]|reflexivity].
    + set (b := StatsReportSpec.has (b_ "-b") (switches (kept l))). set (v := StatsReportSpec.has (b_ "-v") (switches (kept l))).
      destruct (all_texts std ucd findByName order fs b v (p :: r) []) as [(F & t & T)|(done & q & rest & E & F & M & t & T)].
      * intros q Hq Iq. rewrite Forall_forall in Hb.
        destruct (about_ok mf Hmf ucd findByName order Horder fs I HI Hfs b v q (Hb q Iq)) as [(s & E & _)|[M _]]; [eauto|contradiction].
      * right. rewrite T. split; [|reflexivity]. intros w H. destruct H as [a A1 A2|A1 A2 A3|d p' r' A1 A2 A3 A4]; try congruence.
        rewrite Fn in A2. rewrite A2 in F. apply Forall_elt in F. contradiction.
      * left. rewrite T. eexists. split; [|reflexivity]. apply (ss_missing fs debug (kept l) done q rest); [exact O|rewrite Fn; exact E|exact F|exact M].
Qed.
Print Assumptions C124_stats.
(** there is at most one message *)
Theorem C124_one_message : forall fs debug l w w', stats_says fs debug l w -> stats_says fs debug l w' -> w = w'.
Proof. exact says_once. Qed.
Print Assumptions C124_one_message.

(** * The data directory *)
Theorem C124_directory_same : forall fs cwd a, ErrBase.plain (getDataDirT fs cwd a) = getDataDir fs cwd a.
Proof. exact getDataDir_plain. Qed.
Print Assumptions C124_directory_same.
(** it is found, or the message says what is wrong with the option or where it was searched for *)
Theorem C124_directory : forall fs, names_ok fs -> forall cs root ps prog l w, DirSpec.plain cs -> DirSpec.plain (ps ++ [prog]) ->
  ((exists e, getDataDirT fs (path true cs) (argsOf (path root (ps ++ [prog]) :: l)) = Says e w) <-> dir_says fs cs root ps prog l w).
Proof.
  intros fs H cs root ps prog l w P Pp. change argsOf with args_of. split.
  - intros (e & E). destruct (dir_outcome fs H cs root ps prog l P Pp) as [(d & G)|(w' & G & S)]; [congruence|].
    assert (w = w') by congruence. subst w'. exact S.
  - intro S. exists DomainError. exact (dir_says_throws fs H cs root ps prog l w P Pp S).
Qed.
Print Assumptions C124_directory.
Theorem C124_directory_found : forall fs, names_ok fs -> forall cs root ps prog l, DirSpec.plain cs -> DirSpec.plain (ps ++ [prog]) ->
  (forall w, ~ dir_says fs cs root ps prog l w) -> exists d, getDataDirT fs (path true cs) (argsOf (path root (ps ++ [prog]) :: l)) = Got d.
Proof.
  intros fs H cs root ps prog l P Pp N. change argsOf with args_of.
  destruct (dir_outcome fs H cs root ps prog l P Pp) as [G|(w & _ & S)]; [exact G|contradiction (N w S)].
Qed.
Print Assumptions C124_directory_found.

(** ** Cases *)
Definition tooled (l : list bytes) : bytes * ErrBase.res unit :=
  statsT (fun _ => []) some_ucd some_entry (some_order 2502) some_fs 20 (argsOf (b_ "kanjiStats" :: l)) false.
Example C124_case :
  stats_says some_fs false [b_ "one"; b_ "-b"; b_ "two"; b_ "three"] (b_ "file not found: two")
  /\ stats_says some_fs false [b_ "one"; b_ "-bv"; b_ "-h"] (b_ "illegal option '-bv' use -h for help")
  /\ snd (tooled [b_ "one"; b_ "-b"; b_ "two"; b_ "three"]) = Says DomainError (b_ "file not found: two")
  /\ snd (tooled []) = Says DomainError (b_ "please specify at least one option or '-h' for help")
  /\ snd (tooled [b_ "one"]) = Got tt
  /\ dir_says sampleFs [b_ "tmp"] true [b_ "usr"] (b_ "quiz") [b_ "-g"] (b_ "couldn't find 'data' directory with 10 expected '.txt' files:
- searched up from current: /tmp
run in a directory where 'data' can be found or use '-data <dir>'")
  /\ dir_says sampleFs [b_ "tmp"] true [b_ "usr"] (b_ "quiz") [b_ "-g"; b_ "-data"; b_ "/usr"] (b_ "'/usr' is not a valid directory").
Proof.
  assert (U : ~ is_dir sampleFs (b_ "/usr")) by (intro K; apply directory in K; vm_compute in K; discriminate K).
  split; [|split; [|split; [|split; [|split; [|split]]]]]; try (vm_compute; reflexivity).
  - apply (ss_missing some_fs false _ [b_ "one"] (b_ "two") [b_ "three"]); [reflexivity|reflexivity| |].
    + constructor; [|constructor]. intro M. apply (M (CountModel.File (b_ "は"))). eexists. split; reflexivity.
    + intros t (n & H & _). discriminate H.
  - apply (ss_illegal some_fs false _ (b_ "-bv")); [reflexivity|discriminate].
  - apply (ds_current sampleFs [b_ "tmp"] true [b_ "usr"] (b_ "quiz") [b_ "-g"]); [|exact none_in_tmp|exact U].
    intros [X|[]]. discriminate X.
  - apply (ds_no_dir sampleFs [b_ "tmp"] true [b_ "usr"] (b_ "quiz") _ [b_ "-g"] (b_ "/usr") []); [reflexivity| |exact U]. intros [X|[]]. discriminate X.
Qed.
