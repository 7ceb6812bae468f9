(** Properties of finding and reading a data directory. *)
From Verif Require Import BaseFacts LoadModel LoadSample LoadLogModel ReportModel ReportProps RowsSpec DirModel DirSpec DirPaths DirProofs DirSample.
Import DirModel.
Open Scope N_scope.

(** ** the sample *)
Lemma sample_look : forall p n, sampleFs p = Some n -> In (p, n) sample_paths.
Proof.
  intros p n. unfold sampleFs. generalize sample_paths. intros l. induction l as [|[q m] l IH]; cbn [MapModel.mfind]; [discriminate|].
  destruct (beq q p) eqn:E; [apply beq_eq in E; subst; intros H; inversion H; left; reflexivity|right; auto].
Qed.
Definition entry_names_ok (n : CountModel.node) : bool :=
  match CountModel.resolve n with Some (CountModel.Dir es) => forallb (fun e => negb (existsb (N.eqb 47) (fst e))) es | _ => true end.
Lemma sample_names : names_ok sampleFs.
Proof.
  intros p es (n & H & R). apply sample_look in H. apply resolve_seen in R.
  assert (C : forallb (fun q => entry_names_ok (snd q)) sample_paths = true) by (vm_compute; reflexivity).
  rewrite forallb_forall in C. specialize (C _ H). unfold entry_names_ok in C. cbn [snd] in C. rewrite R in C.
  apply Forall_forall. intros e I J. rewrite forallb_forall in C. specialize (C e I). apply negb_true_iff in C.
  assert (existsb (N.eqb 47) (fst e) = true); [|congruence]. apply existsb_exists. exists 47. auto.
Qed.
Lemma sample_data_dir : data_dir sampleFs (b_ "/home/kanji/data").
Proof. apply valid_dir; [exact sample_names|]. vm_compute. reflexivity. Qed.
Lemma sample_nearest : nearest sampleFs true [b_ "home"; b_ "kanji"] (b_ "/home/kanji/data").
Proof.
  exists 2%nat. split; [cbn; lia|]. split; [vm_compute; reflexivity|]. split; [exact sample_data_dir|].
  intros j Hj. cbn [List.length] in Hj. lia.
Qed.
Lemma sample_nearest_bin : nearest sampleFs true [b_ "home"; b_ "kanji"; b_ "bin"] (b_ "/home/kanji/data").
Proof.
  exists 2%nat. split; [cbn; lia|]. split; [vm_compute; reflexivity|]. split; [exact sample_data_dir|].
  intros j Hj. cbn [List.length] in Hj. replace j with 3%nat by lia. intros D. apply valid_dir in D; [|exact sample_names].
  vm_compute in D. discriminate.
Qed.
Lemma plain_names : forall l, forallb slash_free l = true -> plain l.
Proof. intros l H. apply Forall_forall. intros n I. rewrite forallb_forall in H. apply plain_check. auto. Qed.
Lemma none_in_tmp : forall d, ~ nearest sampleFs true [b_ "tmp"] d.
Proof.
  intros d H. destruct (search_dir sampleFs sample_names [b_ "tmp"] true) as [(p & E & _)|(_ & No)].
  - apply plain_names. vm_compute. reflexivity.
  - vm_compute in E. discriminate.
  - exact (No d H).
Qed.

(** * C112: the data directory *)

(** the directory after the first [-data] is taken if it is a data directory, and otherwise the program stops *)
Theorem C112_option : forall fs, names_ok fs -> forall cwd p before after, ~ In (b_ "-data") before ->
  (forall d rest, after = d :: rest -> data_dir fs d -> getDataDir fs cwd (args_of (p :: before ++ b_ "-data" :: after)) = Val d)
  /\ ((forall d rest, after = d :: rest -> ~ data_dir fs d) -> getDataDir fs cwd (args_of (p :: before ++ b_ "-data" :: after)) = Throw DomainError).
Proof. exact data_option. Qed.
Print Assumptions C112_option.
(** without it the nearest one above the current directory is taken *)
Theorem C112_current : forall fs, names_ok fs -> forall cs p l, plain cs -> ~ In (b_ "-data") l ->
  forall d, nearest fs true cs d -> getDataDir fs (path true cs) (args_of (p :: l)) = Val d.
Proof. exact search_current. Qed.
Print Assumptions C112_current.
(** if there is none, the search goes on from the directory that contains the directory of the program *)
Theorem C112_program_partial : forall fs, names_ok fs -> forall cs root ps prog l, plain cs -> plain (ps ++ [prog]) -> ~ In (b_ "-data") l ->
  (forall d, ~ nearest fs true cs d) ->
  (forall d, is_dir fs (path root ps) -> nearest fs root (removelast ps) d ->
     getDataDir fs (path true cs) (args_of (path root (ps ++ [prog]) :: l)) = Val d)
  /\ (~ is_dir fs (path root ps) \/ (forall d, ~ nearest fs root (removelast ps) d) ->
     getDataDir fs (path true cs) (args_of (path root (ps ++ [prog]) :: l)) = Throw DomainError).
Proof. exact search_program. Qed.
Print Assumptions C112_program_partial.
(** the same without any arguments *)
Theorem C112_no_args : forall fs, names_ok fs -> forall cs, plain cs ->
  (forall d, nearest fs true cs d -> getDataDir fs (path true cs) noArgs = Val d)
  /\ ((forall d, ~ nearest fs true cs d) -> getDataDir fs (path true cs) noArgs = Throw DomainError).
Proof. exact search_no_args. Qed.
Print Assumptions C112_no_args.
(** there is at most one nearest data directory *)
Theorem C112_nearest : forall fs root names p q, nearest fs root names p -> nearest fs root names q -> p = q.
Proof. exact nearest_fun. Qed.
Print Assumptions C112_nearest.
(** the directory of the program itself is not searched: a data directory beside the program is not found *)
Theorem C112_beside_program_refuted :
  ~ (forall fs, names_ok fs -> forall cs root ps prog d, plain cs -> plain (ps ++ [prog]) -> (forall e, ~ nearest fs true cs e) ->
       is_dir fs (path root ps) -> nearest fs root ps d ->
       getDataDir fs (path true cs) (args_of [path root (ps ++ [prog])]) = Val d).
Proof.
  intros H. specialize (H sampleFs sample_names [b_ "tmp"] true [b_ "home"; b_ "kanji"] (b_ "quiz") (b_ "/home/kanji/data")).
  assert (E : getDataDir sampleFs (path true [b_ "tmp"]) (args_of [path true ([b_ "home"; b_ "kanji"] ++ [b_ "quiz"])]) = Throw DomainError)
    by (vm_compute; reflexivity).
  rewrite E in H. discriminate H.
  - apply plain_names. vm_compute. reflexivity.
  - apply plain_names. vm_compute. reflexivity.
  - exact none_in_tmp.
  - apply directory. vm_compute. reflexivity.
  - exact sample_nearest.
Qed.
Print Assumptions C112_beside_program_refuted.

Example C112_case : names_ok sampleFs /\ data_dir sampleFs (b_ "/home/kanji/data")
  /\ nearest sampleFs true [b_ "home"; b_ "kanji"; b_ "bin"] (b_ "/home/kanji/data")
  /\ getDataDir sampleFs (b_ "/home/kanji/bin") (args_of [b_ "quiz"]) = Val (b_ "/home/kanji/data")
  /\ getDataDir sampleFs (b_ "/tmp") (args_of [b_ "/home/kanji/bin/quiz"; b_ "-h"]) = Val (b_ "/home/kanji/data")
  /\ getDataDir sampleFs (b_ "/tmp") (args_of [b_ "quiz"; b_ "-data"; b_ "/home/kanji/data"; b_ "-data"]) = Val (b_ "/home/kanji/data")
  /\ getDataDir sampleFs (b_ "/home/kanji") (args_of [b_ "quiz"; b_ "-data"; b_ "/home/kanji"]) = Throw DomainError.
Proof.
  split; [exact sample_names|]. split; [exact sample_data_dir|]. split; [exact sample_nearest_bin|].
  repeat split; vm_compute; reflexivity.
Qed.

(** * C113: reading the files of a data directory *)

(** a directory with all the files is loaded as if the lists and rows in them had been given *)
Theorem C113_load : forall fs writable reg, (forall n, known (reg n)) -> forall sort mode ltr dir f st max, dir_files fs writable dir f ->
  loadDir fs writable reg sort mode ltr dir st max = loadDataL sort mode ltr f st max.
Proof. exact load_dir. Qed.
Print Assumptions C113_load.
(** and if anything is loaded, then all the files are there *)
Theorem C113_complete : forall fs writable reg, (forall n, known (reg n)) -> forall sort mode ltr dir st max x,
  snd (loadDir fs writable reg sort mode ltr dir st max) = Val x -> exists f, dir_files fs writable dir f.
Proof. exact loaded_dir. Qed.
Print Assumptions C113_complete.
(** a directory has only one meaning *)
Lemma none_known : known [].
Proof. exists []. reflexivity. Qed.
Theorem C113_unique : forall fs writable dir f g, dir_files fs writable dir f -> dir_files fs writable dir g -> f = g.
Proof. intros fs writable. exact (dir_files_fun fs writable (fun _ => []) (fun _ => none_known)). Qed.
Print Assumptions C113_unique.
(** files that can be read but not written are refused *)
Theorem C113_read_only_refuted :
  ~ (forall fs writable reg, (forall n, known (reg n)) -> forall sort mode ltr dir f st max, dir_files fs (fun _ => true) dir f ->
       loadDir fs writable reg sort mode ltr dir st max = loadDataL sort mode ltr f st max).
Proof.
  intros H.
  assert (A : exists x, snd (loadDir sampleFs (fun _ => true) (fun _ => []) byStrokes DebugNone true (b_ "/home/kanji/data") initStatic 0) = Val x)
    by (eexists; vm_compute; reflexivity).
  destruct A as (x & A). destruct (C113_complete sampleFs (fun _ => true) (fun _ => []) (fun _ => none_known) _ _ _ _ _ _ _ A) as (f & D).
  pose proof (C113_load sampleFs (fun _ => true) (fun _ => []) (fun _ => none_known) byStrokes DebugNone true _ f initStatic 0 D) as E1.
  pose proof (H sampleFs (fun _ => false) (fun _ => []) (fun _ => none_known) byStrokes DebugNone true _ f initStatic 0 D) as E2.
  rewrite <- E1 in E2. apply (f_equal snd) in E2. rewrite A in E2.
  assert (B : snd (loadDir sampleFs (fun _ => false) (fun _ => []) byStrokes DebugNone true (b_ "/home/kanji/data") initStatic 0) = Throw DomainError)
    by (vm_compute; reflexivity).
  rewrite B in E2. discriminate E2.
Qed.
Print Assumptions C113_read_only_refuted.
Lemma sample_text : forall dir n c, slash_free n && negb (hasExtension n)
  && match listFile sampleFs (joinPath dir n) with Val q => beq (contentsOf sampleFs q) c | _ => false end = true ->
  exists p, child dir n p /\ text_at sampleFs p c.
Proof.
  intros dir n c H. apply andb_true_iff in H. destruct H as [H H3]. apply andb_true_iff in H. destruct H as [H1 H2].
  apply negb_true_iff in H2. apply (proj2 (text_child sampleFs (fun _ => true) dir n c (plain_check n H1) H2)).
  destruct (listFile sampleFs (joinPath dir n)) as [q| | |]; try discriminate. apply beq_eq in H3. eauto.
Qed.
Example C113_case : known [] /\ dir_files sampleFs (fun _ => true) (b_ "/home/kanji/data") (sample_files sample_jouyou)
  /\ exists x, snd (loadArgs sampleFs (fun _ => true) (b_ "/home/kanji/bin") (fun _ => []) byStrokes true (args_of [b_ "quiz"; b_ "-info"]) initStatic 0) = Val x
     /\ fst (fst (fst x)) = b_ "/home/kanji/data" /\ snd (fst (fst x)) = DebugInfo.
Proof.
  split; [exact none_known|]. split.
  - apply (dir_read_iff _ _ (fun _ => [])); [intros _; exact none_known|]. unfold dir_read.
    split; [|split].
    3:{ split; [eexists; split; [vm_compute; reflexivity|vm_compute; reflexivity]|].
        repeat (split; [eexists; split; [vm_compute; reflexivity|vm_compute; reflexivity]|]). eexists; split; [vm_compute; reflexivity|vm_compute; reflexivity]. }
    all: unfold level_names, kyu_names; cbn [sample_files levelFiles kyuFiles].
    all: repeat (apply Forall2_cons; [split; [reflexivity|]; apply sample_text; vm_compute; reflexivity|]); apply Forall2_nil.
  - eexists. split; [vm_compute; reflexivity|]. split; vm_compute; reflexivity.
Qed.
