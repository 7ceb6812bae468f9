(** Properties of the programs: what they load, write and return for any command line, file system and input. *)
From Verif Require Import BaseFacts ArgsProofs LoadModel LoadSpec LoadAttr LoadLogModel LoadLogTrace LoadLogLists LoadLogProps LoadLogSpec LoadSample LaunchLoop LaunchProps
  DetailsArg DetailsProps JukugoLoad RowsSpec DirModel DirSpec DirSample DirPaths DirProofs DirProps QuizDataModel QuizDataSpec QuizDataGroups QuizDataDir QuizDataProps QuizDataSample
  MainModel MainSpec MainQuiet MainProofs MainNames MainLoad MainQuiz MainShown.
From Verif Require ReportProps StatsReportProofs StatsReportProps CountProofs ListProofs FormatProps ProgramProps ProgramRun ProgramChart.
From Verif Require Import StatsReportLoaded.
Open Scope N_scope.
Arguments N.mul : simpl never. Arguments N.add : simpl never. Arguments N.sub : simpl never.

(** ** Sample file systems *)
Lemma paths_look : forall l p (n : CountModel.node), MapModel.mfind p l = Some n -> In (p, n) l.
Proof.
  intros l p n. induction l as [|[q m] l IH]; cbn [MapModel.mfind]; [discriminate|].
  destruct (beq q p) eqn:E; [apply beq_eq in E; subst; intros H; inversion H; left; reflexivity|right; auto].
Qed.
Lemma paths_names : forall l, forallb (fun q => entry_names_ok (snd q)) l = true -> names_ok (fun p => MapModel.mfind p l).
Proof.
  intros l C p es (n & H & R). apply paths_look in H. apply resolve_seen in R. rewrite forallb_forall in C. specialize (C _ H). unfold entry_names_ok in C. cbn [snd] in C. rewrite R in C.
  apply Forall_forall. intros e I J. rewrite forallb_forall in C. specialize (C e I). apply negb_true_iff in C.
  assert (existsb (N.eqb 47) (fst e) = true); [|congruence]. apply existsb_exists. exists 47. auto.
Qed.
Definition contents_ok (n : CountModel.node) : bool := match CountModel.resolve n with Some (CountModel.File c) => forallb (fun b => b <? 256) c | _ => true end.
Lemma paths_bytes : forall l, forallb (fun q => contents_ok (snd q)) l = true -> files_bytes (fun p => MapModel.mfind p l).
Proof.
  intros l C p c (n & H & R). apply paths_look in H. apply resolve_seen in R. rewrite forallb_forall in C. specialize (C _ H). unfold contents_ok in C. cbn [snd] in C. rewrite R in C.
  rewrite forallb_forall in C. apply Forall_forall. intros b B. apply N.ltb_lt. exact (C b B).
Qed.

Lemma checked_bytes : forall s, forallb (fun b => b <? 256) s = true -> bytes_ok s.
Proof. intros s H. rewrite forallb_forall in H. apply Forall_forall. intros b B. apply N.ltb_lt. exact (H b B). Qed.

(** * C116: kanjiQuiz *)

(** without -debug and -info nothing but the quiz itself is written to the output, whatever the file system has *)
Theorem C116_quiet : forall fs writable cwd reg sort sortNames ltr fuel R draw shuffle shuffleGroups p l st i (r : R), no_mode l ->
  outputText (fst (quizMain fs writable cwd reg sort sortNames ltr fuel R draw shuffle shuffleGroups (p :: l) st i r)) = [].
Proof. intros. apply quiz_quiet. assumption. Qed.
Print Assumptions C116_quiet.
(** the program does what its arguments stand for, with the Kanji, groups and Jukugo of the data directory that they choose;
    it reports the errors of loading and in the debug modes writes the reports *)
Theorem C116_program : forall fs writable reg sort sortNames ltr fuel R draw shuffle shuffleGroups st,
  names_ok fs -> files_bytes fs -> (forall n, known (reg n)) -> sorts orderByQualifiedName sortNames ->
  forall cs root ps prog l k g i (r : R), plain cs -> plain (ps ++ [prog]) -> kanji_loaded fs writable sort ltr st cs root ps l k -> groups_loaded fs writable k g ->
  let p := path root (ps ++ [prog]) in
  len (p :: l) < 65535 -> (S (List.length (p :: l)) < fuel)%nat -> Forall (fun a => bytes_ok a /\ no_nul a) l ->
  exists ms x, quizMain fs writable (path true cs) reg sort sortNames ltr fuel R draw shuffle shuffleGroups (p :: l) st i r = (ms, x)
    /\ does sortNames fuel R draw shuffle shuffleGroups k g l i r x
    /\ errors ms = errors (fst (loadDataL sort (kMode k) ltr (kFiles k) st 0)) ++ repeats [] (patternGroups (gGroups g))
    /\ (kMode k = DebugNone -> outputText ms = [])
    /\ (kMode k <> DebugNone -> forall js, files_fit (gJukugoFiles g) -> all_words (gJukugoFiles g) js ->
         exists t ks, printGroupData (isFull (kMode k)) (leftSet (kMode k) (kEnv k) (kData k)) (kData k) (gGroups g) = Val t /\ kanji_in (distinct js) ks
           /\ outputText ms = outputText (fst (loadDataL sort (kMode k) ltr (kFiles k) st 0)) ++ t ++ jukugo_report (jukugo_fill k g) (kData k) (distinct js) ks).
Proof. exact quiz_loaded. Qed.
Print Assumptions C116_program.
(** the errors of loading are those of C108: now for every directory of files, without assumptions about the Kanji *)
Theorem C116_errors : forall fs writable, files_bytes fs -> forall sort ltr st cs root ps l k ns, kanji_loaded fs writable sort ltr st cs root ps l k ->
  line_names (linkedFile (kFiles k)) ns ->
  all_complaints (envUcd (kEnv k)) (kData k) ns (errors (fst (loadDataL sort (kMode k) ltr (kFiles k) st 0))).
Proof.
  intros fs writable Hb sort ltr st cs root ps l k ns [K1 K2 K3 K4 K5] L. destruct (dir_ok fs writable Hb _ _ K3) as [O B].
  destruct (dir_names fs writable Hb _ _ _ _ _ _ _ K3 K4) as [G _]. apply C108_how_often; [exact O|exact B|exact K4| |exact L]. intros x X. apply (G x X).
Qed.
Print Assumptions C116_errors.
(** nothing is shown or asked unless all of the data is there and can be loaded *)
Theorem C116_needs_data : forall fs writable reg sort sortNames ltr fuel R draw shuffle shuffleGroups st,
  names_ok fs -> files_bytes fs -> (forall n, known (reg n)) ->
  forall cs root ps prog l i (r : R) y, plain cs -> plain (ps ++ [prog]) ->
  snd (quizMain fs writable (path true cs) reg sort sortNames ltr fuel R draw shuffle shuffleGroups (path root (ps ++ [prog]) :: l) st i r) = Val y ->
  exists k g, kanji_loaded fs writable sort ltr st cs root ps l k /\ groups_loaded fs writable k g.
Proof. exact quiz_complete. Qed.
Print Assumptions C116_needs_data.
(** what is loaded is determined by the file system and the arguments *)
Theorem C116_one_load : forall fs writable sort ltr st cs root ps l k g k' g', files_bytes fs ->
  kanji_loaded fs writable sort ltr st cs root ps l k -> groups_loaded fs writable k g ->
  kanji_loaded fs writable sort ltr st cs root ps l k' -> groups_loaded fs writable k' g' -> k = k' /\ g = g'.
Proof.
  intros fs writable sort ltr st cs root ps l k g k' g' Hb K G K' G'. pose proof (kanji_fun fs writable sort ltr st cs root ps l k k' K K') as <-. split; [reflexivity|].
  destruct G as [A1 A2 _ A4 A5], G' as [B1 B2 _ B4 B5]. destruct g as [mr pr gd jf jd], g' as [mr' pr' gd' jf' jd'].
  cbn [gMeaningRows gPatternRows gGroups gJukugoFiles gJukugo] in *.
  destruct (C114_unique _ _ _ _ _ _ _ A1 B1) as [<- <-]. rewrite A2 in B2. injection B2 as <-. pose proof (C115_unique _ _ _ _ A4 B4) as <-. rewrite A5 in B5. injection B5 as <-. reflexivity.
Qed.
Print Assumptions C116_one_load.
(** an illegal option, an unknown Kanji or too many arguments end the program with 1; help, details and a debug mode with 0 *)
Theorem C116_exit : forall sortNames fuel R draw shuffle shuffleGroups k g l i (r : R) ms x, does sortNames fuel R draw shuffle shuffleGroups k g l i r x ->
  ((forall c, ~ command (kept l) c) -> quizEnded R (ms, x) = Exit 1)
  /\ (command (kept l) HelpMessage -> quizEnded R (ms, x) = Exit 0 /\ x = Val (DoneText R MainModel.HelpText))
  /\ (forall p, command (kept l) (Options p) -> kMode k <> DebugNone -> quizEnded R (ms, x) = Exit 0 /\ x = Val (DoneNothing R))
  /\ (forall a, command (kept l) (KanjiDetails a) -> bytes_ok a -> no_nul a -> (forall y, ~ stands_for (kData k) a y) -> ~ undefined_frequency k a ->
        quizEnded R (ms, x) = Exit 1)
  /\ (forall a y t, command (kept l) (KanjiDetails a) -> stands_for (kData k) a y -> text_about sortNames k g y = Val t ->
        quizEnded R (ms, x) = Exit 0 /\ x = Val (DoneText R t)).
Proof.
  intros sortNames fuel R draw shuffle shuffleGroups k g l i r ms x D.
  assert (U : forall c c', command (kept l) c -> command (kept l) c' -> c = c') by (intros; eapply C85_meaning_unique; eassumption).
  assert (V : forall a y y', stands_for (kData k) a y -> stands_for (kData k) a y' -> y = y') by (intros; eapply C87_one_meaning; eassumption).
  assert (W : forall a y, stands_for (kData k) a y -> undefined_frequency k a -> False).
  { intros a y Sf (X1 & X2 & X3). pose proof (dispatch_shown (kData k) (fun _ => Val []) (fun _ _ _ => Val []) a y Sf) as E. unfold dispatch in E.
    rewrite (proj2 (allDigits_iff a)) in E by exact (proj2 X1). rewrite getNumericId_digits in E by exact (proj2 X1).
    destruct (a) as [|c0 r0]; [destruct X1 as [X1 _]; congruence|]. replace (65535 <? decimal (c0 :: r0)) with false in E by lia. cbn [obind] in E.
    destruct (findByFrequency (kData k) (decimal (c0 :: r0))) as [z| | |] eqn:F; cbn [obind] in E; try (destruct y; discriminate E). exact (X3 z eq_refl). }
  split; [|split; [|split; [|split]]].
  - intros N. destruct D; try (exfalso; eapply N; eassumption). reflexivity.
  - intros H. destruct D; try (match goal with C : command (kept l) ?c |- _ => pose proof (U _ _ H C) as Q; discriminate Q end); [split; reflexivity|].
    exfalso. match goal with N : forall c, ~ command (kept l) c |- _ => exact (N _ H) end.
  - intros p H M. destruct D; try (match goal with C : command (kept l) ?c |- _ => pose proof (U _ _ H C) as Q; discriminate Q end).
    + split; reflexivity.
    + contradiction.
    + exfalso. match goal with N : forall c, ~ command (kept l) c |- _ => exact (N _ H) end.
  - intros a H B Z N F. destruct D; try (match goal with C : command (kept l) ?c |- _ => pose proof (U _ _ H C) as Q; first [discriminate Q|injection Q as <-] end).
    + exfalso. eapply N. eassumption.
    + reflexivity.
    + contradiction.
    + exfalso. match goal with N : forall c, ~ command (kept l) c |- _ => exact (N _ H) end.
  - intros a y t H Sf T. destruct D; try (match goal with C : command (kept l) ?c |- _ => pose proof (U _ _ H C) as Q; first [discriminate Q|injection Q as <-] end).
    + match goal with X : stands_for (kData k) a ?z |- _ => pose proof (V _ _ _ Sf X) as <- end. rewrite T. split; reflexivity.
    + exfalso. match goal with N : forall x, ~ stands_for _ _ x |- _ => exact (N _ Sf) end.
    + exfalso. eapply W; eassumption.
    + exfalso. match goal with N : forall c, ~ command (kept l) c |- _ => exact (N _ H) end.
Qed.
Print Assumptions C116_exit.
(** for all loaded data there is a text about everything that an argument can stand for, so the program shows it and ends with 0 *)
Theorem C116_shown : forall fs writable sort sortNames ltr st, files_bytes fs -> sorts orderByQualifiedName sortNames ->
  forall cs root ps l k g, kanji_loaded fs writable sort ltr st cs root ps l k -> groups_loaded fs writable k g ->
  forall a y, stands_for (kData k) a y ->
  exists t, text_about sortNames k g y = Val t
    /\ forall fuel R draw shuffle shuffleGroups i (r : R) ms x, command (kept l) (KanjiDetails a) -> does sortNames fuel R draw shuffle shuffleGroups k g l i r x ->
         quizEnded R (ms, x) = Exit 0 /\ x = Val (DoneText R t).
Proof.
  intros fs writable sort sortNames ltr st Hb Hs cs root ps l k g K G a y Sf. destruct (text_any fs writable Hb sort sortNames Hs ltr st cs root ps l k g K G y) as (t & T).
  exists t. split; [exact T|]. intros fuel R draw shuffle shuffleGroups i r ms x C D.
  exact (proj2 (proj2 (proj2 (proj2 (C116_exit sortNames fuel R draw shuffle shuffleGroups k g l i r ms x D)))) a y t C Sf T).
Qed.
Print Assumptions C116_shown.
Theorem C116_too_many : forall fs writable cwd reg sort sortNames ltr fuel R draw shuffle shuffleGroups l st i (r : R), 65535 < len l ->
  quizMain fs writable cwd reg sort sortNames ltr fuel R draw shuffle shuffleGroups l st i r = ([], Throw RangeError).
Proof. intros. apply quiz_many. assumption. Qed.
Print Assumptions C116_too_many.

(** * C117: kanjiStats *)

(** the program writes the reports on the files that its arguments name (C103), about the Kanji of the data directory that they
    choose, after what loading writes in the debug modes *)
Theorem C117_program : forall fs writable reg sort ltr fuel order st I, names_ok fs -> (forall n, known (reg n)) ->
  (forall m ks, exists t, StatsModel.built (StatsModel.less m) ks t /\ order m ks = StatsModel.inorder t) -> CountSpec.reader I -> (forall p n, fs p = Some n -> CountSpec.node_ok n) ->
  forall cs root ps prog l k, plain cs -> plain (ps ++ [prog]) -> kanji_loaded fs writable sort ltr st cs root ps l k -> dMax (kData k) < 65535 ->
  let p := path root (ps ++ [prog]) in
  len (p :: l) < 65535 -> (S (List.length (p :: l)) < fuel)%nat -> Forall bytes_ok (StatsReportSpec.file_names (kept l)) ->
  exists ms t x, statsMain fs writable (path true cs) reg sort ltr fuel order (p :: l) st = (ms, x)
    /\ StatsReportSpec.session (dMax (kData k)) (loadedUcd (kEnv k)) (loadedEntry (kData k)) I fs (isDebug (kMode k)) (kept l) t x
    /\ outputText ms = outputText (fst (loadDataL sort (kMode k) ltr (kFiles k) st 0)) ++ t
    /\ errors ms = errors (fst (loadDataL sort (kMode k) ltr (kFiles k) st 0))
    /\ (kMode k = DebugNone -> outputText ms = t).
Proof.
  intros fs writable reg sort ltr fuel order st I Hn Hr Ho HI Hf cs root ps prog l k C P K M p L F B. subst p.
  pose proof (kanji_load fs Hn writable reg Hr sort ltr st cs root ps prog l k C P K) as E.
  assert (Q : kMode k = DebugNone -> outputText (fst (loadDataL sort (kMode k) ltr (kFiles k) st 0)) = []).
  { intros N0. assert (X : no_mode l) by (destruct (ld_mode _ _ _ _ _ _ _ _ _ _ K); [assumption|discriminate N0..]).
    destruct (load_args_quiet fs writable reg sort ltr st (path true cs) (path root (ps ++ [prog])) l X) as [W _]. rewrite E in W. exact W. }
  unfold statsMain. rewrite main_args by lia. unfold llift at 1. unfold lbind at 1. rewrite E.
  pose proof (StatsReportProps.C103_session (dMax (kData k)) (loadedUcd (kEnv k)) (loadedEntry (kData k)) (order (dMax (kData k))) fs I fuel
    (path root (ps ++ [prog])) l (isDebug (kMode k)) M (Ho _) HI Hf L F B) as S0. cbv zeta in S0.
  change (ArgsProofs.argsOf) with args_of in S0. unfold lbind at 1.
  destruct (StatsReportModel.stats _ _ _ _ _ _ _) as [t x]. cbn [fst snd] in S0.
  exists (fst (loadDataL sort (kMode k) ltr (kFiles k) st 0) ++ [ToOut t]), t, x. split; [reflexivity|]. split; [exact S0|].
  rewrite output_app, errors_app. cbn [outputText errors flat_map app]. rewrite !app_nil_r. split; [reflexivity|]. split; [reflexivity|].
  intros N0. rewrite (Q N0). reflexivity.
Qed.
Print Assumptions C117_program.
(** if a Kanji file or an argument makes loading fail, no report is written *)
Theorem C117_needs_data : forall fs writable reg sort ltr fuel order st, names_ok fs -> (forall n, known (reg n)) ->
  forall cs root ps prog l, plain cs -> plain (ps ++ [prog]) -> no_mode l ->
  let r := statsMain fs writable (path true cs) reg sort ltr fuel order (path root (ps ++ [prog]) :: l) st in
  snd r = Val tt \/ outputText (fst r) <> [] -> exists k, kanji_loaded fs writable sort ltr st cs root ps l k.
Proof.
  intros fs writable reg sort ltr fuel order st Hn Hr cs root ps prog l C P Hm r. 
  destruct (load_args_quiet fs writable reg sort ltr st (path true cs) (path root (ps ++ [prog])) l Hm) as [W _].
  pose proof (kanji_complete fs Hn writable reg Hr sort ltr st cs root ps prog l) as K.
  assert (E : r = statsMain fs writable (path true cs) reg sort ltr fuel order (path root (ps ++ [prog]) :: l) st) by reflexivity. clearbody r. unfold statsMain in E.
  destruct (N.leb_spec (len (path root (ps ++ [prog]) :: l)) 65535) as [Q|Q];
    [rewrite main_args in E by exact Q|rewrite too_many in E by exact Q; subst r; intros [H|H]; [discriminate H|contradiction H; reflexivity]].
  unfold quiet in W. unfold llift at 1 in E. unfold lbind at 1 in E. unfold lbind at 1 in E.
  destruct (loadArgs _ _ _ _ _ _ _ _ _) as [ms [y| | |]]; cbn [fst snd] in *; [|subst r; intros [H|H]; [discriminate H|contradiction H; exact W]..].
  intros _. destruct (K y C P eq_refl) as (k & H & _). exists k. exact H.
Qed.
Print Assumptions C117_needs_data.
Theorem C117_too_many : forall fs writable cwd reg sort ltr fuel order l st, 65535 < len l ->
  statsMain fs writable cwd reg sort ltr fuel order l st = ([], Throw RangeError).
Proof. intros fs writable cwd reg sort ltr fuel order l st H. unfold statsMain. rewrite too_many by exact H. reflexivity. Qed.
Print Assumptions C117_too_many.

(** * C118: kanjiFormat *)

(** the file named by the first argument is formatted as in C45; other arguments change nothing *)
Theorem C118_formatted : forall fs writable p a rest c ls, files_bytes fs -> is_file fs a c -> writable a = true -> cut 10 c ls -> len (p :: a :: rest) <= 65535 ->
  exists ps left, FormatSpec.pieces ls ps left /\ formatMain fs writable (p :: a :: rest) = ([ToOut (flat_map FormatSpec.show ps)], Val tt).
Proof.
  intros fs writable p a rest c ls Hb F W C L. destruct (FormatProps.C45_output c ls (Hb a c F) C) as (ps & left & P & E & _).
  exists ps, left. split; [exact P|]. unfold formatMain. rewrite main_args by exact L. unfold llift at 1. unfold lbind at 1.
  replace (argc (args_of (p :: a :: rest)) <? 2) with false by (cbn [args_of argc]; rewrite !len_cons; lia).
  change args_of with argsOf. rewrite (argAt_spec (p :: a :: rest) 1 a eq_refl). unfold llift at 1. unfold lbind at 1.
  destruct (file_contents fs a c F) as [F1 F2]. rewrite F1, W, F2, E. reflexivity.
Qed.
Print Assumptions C118_formatted.
(** without an argument, or one that is not a file: nothing is written and the program ends with 1 *)
Theorem C118_refused : forall fs writable p l, len (p :: l) <= 65535 -> match l with [] => True | a :: _ => forall c, ~ is_file fs a c end ->
  formatMain fs writable (p :: l) = ([], Throw DomainError) /\ ended (snd (formatMain fs writable (p :: l))) = Exit 1.
Proof.
  intros fs writable p l L H. assert (E : formatMain fs writable (p :: l) = ([], Throw DomainError)); [|rewrite E; split; reflexivity].
  unfold formatMain. rewrite main_args by exact L. unfold llift at 1. unfold lbind at 1. destruct l as [|a l]; [reflexivity|].
  replace (argc (args_of (p :: a :: l)) <? 2) with false by (cbn [args_of argc]; rewrite !len_cons; lia).
  change args_of with argsOf. rewrite (argAt_spec (p :: a :: l) 1 a eq_refl). unfold llift at 1. unfold lbind at 1.
  destruct (isRegular fs a) eqn:E; [|reflexivity]. apply (proj1 (regular_file fs a)) in E. contradiction (H _ E).
Qed.
Print Assumptions C118_refused.
(** a file that cannot be written to is not formatted: it is opened for reading and writing.  Nothing is written and the program
    ends with 0 *)
Theorem C118_read_only_refuted : forall fs writable p a rest c, is_file fs a c -> writable a = false -> len (p :: a :: rest) <= 65535 ->
  outputText (fst (formatMain fs writable (p :: a :: rest))) = [] /\ ended (snd (formatMain fs writable (p :: a :: rest))) = Exit 0.
Proof.
  intros fs writable p a rest c F W L. assert (E : formatMain fs writable (p :: a :: rest) = ([ToOut []], Val tt)); [|rewrite E; split; reflexivity].
  unfold formatMain. rewrite main_args by exact L. unfold llift at 1. unfold lbind at 1.
  replace (argc (args_of (p :: a :: rest)) <? 2) with false by (cbn [args_of argc]; rewrite !len_cons; lia).
  change args_of with argsOf. rewrite (argAt_spec (p :: a :: rest) 1 a eq_refl). unfold llift at 1. unfold lbind at 1.
  rewrite (proj1 (file_contents fs a c F)), W. assert (G : FormatModel.format [] = Val []) by (vm_compute; reflexivity). rewrite G. reflexivity.
Qed.
Print Assumptions C118_read_only_refuted.

(** * C119: kanaConvert *)

Lemma spells_texts : forall is l, ProgramSpec.spells is l -> forall s, In s (ProgramSpec.texts is) -> In s l.
Proof.
  intros is l H. induction H as [|x a is l S0 H IH]; intros s I; [destruct I|]. unfold ProgramSpec.texts in I. cbn [flat_map] in I. apply in_app_or in I. apply in_or_app.
  destruct I as [I|I]; [left|right; apply IH; exact I]. destruct S0; try contradiction. destruct I as [<-|[]]. left. reflexivity.
Qed.
Lemma command_texts : forall terminal l v ss, ProgramSpec.command terminal l (ProgramSpec.TStrings v ss) -> forall s, In s ss -> In s l.
Proof.
  intros terminal l v ss C s I. inversion C; subst. match goal with X : ProgramSpec.asks _ _ _ |- _ => rename X into Y end. destruct Y as [_ [[A ->]|(l1 & r & -> & A & ->)]].
  - exact (spells_texts _ _ A s I).
  - apply in_app_or in I. apply in_or_app. destruct I as [I|I]; [left; exact (spells_texts _ _ A s I)|right; right; exact I].
Qed.
Lemma lines_short : forall s ls, ProgramSpec.lines s ls -> (List.length ls <= List.length s)%nat.
Proof.
  intros s ls H. induction H as [|l A B|l s ls A H IH]; cbn [List.length]; [lia|destruct l; [congruence|cbn [List.length]; lia]|rewrite app_length; cbn [List.length]; lia].
Qed.
Lemma convert_main : forall ltr fuel prog l terminal i, len (prog :: l) <= 65535 ->
  convertMain ltr fuel (prog :: l) terminal i = ([ToOut (fst (ProgramModel.program ltr fuel (argsOf (prog :: l)) terminal i))], snd (ProgramModel.program ltr fuel (argsOf (prog :: l)) terminal i)).
Proof.
  intros ltr fuel prog l terminal i L. unfold convertMain. rewrite main_args by exact L. unfold llift at 1. unfold lbind at 1. change args_of with argsOf.
  destruct (ProgramModel.program _ _ _ _ _). reflexivity.
Qed.
(** with any arguments and input, the program writes what C92, C93 and C95 say and ends as they say *)
Theorem C119_program : forall ltr fuel prog l terminal text, len (prog :: l) < 65535 -> (S (List.length l) < fuel)%nat -> (S (List.length text) < fuel)%nat ->
  Forall bytes_ok l -> bytes_ok text ->
  let r := convertMain ltr fuel (prog :: l) terminal (MkIn text false) in
  errors (fst r) = [] /\ converts ltr terminal l text (outputText (fst r)) (ended (snd r)).
Proof.
  intros ltr fuel prog l terminal text L F T Bl Bt. cbv zeta. rewrite (convert_main ltr fuel prog l terminal _ ltac:(lia)).
  destruct (ProgramModel.program ltr fuel (argsOf (prog :: l)) terminal (MkIn text false)) as [w x] eqn:P.
  cbn [fst snd errors outputText flat_map]. rewrite app_nil_r. split; [reflexivity|].
  destruct (ProgramProps.C92_one_task ltr fuel prog l terminal (MkIn text false) L F) as [(t & C & _)|[N0 Q]]; [|rewrite Q in P; injection P as <- <-; apply cv_nothing; exact N0].
  destruct t as [|v ss|m|a n v].
  - rewrite (ProgramProps.C92_usage ltr fuel prog l terminal (MkIn text false) L F C) in P. injection P as <- <-. apply cv_usage. exact C.
  - destruct (ProgramProps.C92_texts ltr fuel prog l terminal (MkIn text false) v ss L F C) as (outs & O & Q).
    { apply Forall_forall. intros s I. rewrite Forall_forall in Bl. apply Bl. exact (command_texts _ _ _ _ C s I). }
    rewrite Q in P. injection P as <- <-. apply (cv_strings ltr terminal l text v ss outs C O).
  - destruct (ProgramChart.chart_printed m) as (shown & S1 & S2). rewrite (ProgramRun.program_performs _ _ _ _ _ _ _ L F C) in P.
    change (ProgramModel.printKanaChart m = (w, x)) in P. rewrite S2 in P. injection P as <- <-. apply (cv_chart ltr terminal l text m shown C S1).
  - destruct (ProgramProps.C93_lines ltr a n v text Bt) as (ls & Ls & _ & [(w' & S0 & _)|W]).
    + pose proof (lines_short _ _ Ls) as Sh.
      rewrite (ProgramProps.C93_session ltr fuel prog l terminal text ls a n v w' L F C Ls ltac:(lia) S0) in P. injection P as <- <-.
      apply (cv_session ltr terminal l text a n v ls w' C Ls S0).
    + pose proof (ProgramProps.C93_waits ltr fuel prog l terminal text ls a n v L F C Ls W) as Q. rewrite P in Q. cbn [snd] in Q. subst x.
      apply (cv_waits ltr terminal l text a n v ls w C Ls W).
Qed.
Print Assumptions C119_program.
(** that is all it can do: what is written and how it ends are determined by the arguments and the input *)
Theorem C119_determined : forall ltr fuel prog l terminal text w e, len (prog :: l) < 65535 -> (S (List.length l) < fuel)%nat -> (S (List.length text) < fuel)%nat ->
  Forall bytes_ok l -> bytes_ok text -> converts ltr terminal l text w e ->
  let r := convertMain ltr fuel (prog :: l) terminal (MkIn text false) in ended (snd r) = e /\ (e <> DoesNotEnd -> outputText (fst r) = w).
Proof.
  intros ltr fuel prog l terminal text w e L F T Bl Bt H. cbv zeta. rewrite (convert_main ltr fuel prog l terminal _ ltac:(lia)). cbn [fst snd outputText flat_map]. rewrite app_nil_r.
  destruct H as [N0|C|v ss outs C O|m shown C S1|a n v ls w C Ls S0|a n v ls w C Ls W].
  - destruct (ProgramProps.C92_one_task ltr fuel prog l terminal (MkIn text false) L F) as [(t & C & _)|[_ Q]]; [contradiction (N0 t C)|]. rewrite Q. split; reflexivity.
  - rewrite (ProgramProps.C92_usage ltr fuel prog l terminal (MkIn text false) L F C). split; reflexivity.
  - destruct (ProgramProps.C92_texts ltr fuel prog l terminal (MkIn text false) v ss L F C) as (outs' & O' & Q).
    { apply Forall_forall. intros s I. rewrite Forall_forall in Bl. apply Bl. exact (command_texts _ _ _ _ C s I). }
    rewrite Q. replace outs' with outs; [split; reflexivity|]. clear - O O'. revert outs' O'. induction O as [|s o ss outs H O IH]; intros outs' O'; inversion O'; subst; [reflexivity|].
    f_equal; [|apply IH; assumption]. match goal with A : ProgramSpec.converted _ _ _ _ |- _ => unfold ProgramSpec.converted in A, H; destruct (ProgramModel.cSource v); congruence end.
  - destruct (ProgramChart.chart_printed m) as (shown' & S1' & S2). rewrite (ProgramRun.program_performs _ _ _ _ _ _ _ L F C).
    change (ProgramProofs.perform ltr fuel (MkIn text false) (ProgramSpec.TChart m)) with (ProgramModel.printKanaChart m). rewrite S2.
    replace shown' with shown; [split; reflexivity|]. unfold ProgramChart.theTable in S1'. destruct m; [congruence|rewrite S1 in S1'; injection S1' as S1'; exact S1'].
  - pose proof (lines_short _ _ Ls) as Sh. rewrite (ProgramProps.C93_session ltr fuel prog l terminal text ls a n v w L F C Ls ltac:(lia) S0). split; reflexivity.
  - rewrite (ProgramProps.C93_waits ltr fuel prog l terminal text ls a n v L F C Ls W). split; [reflexivity|]. intros X. contradiction X; reflexivity.
Qed.
Print Assumptions C119_determined.
Theorem C119_too_many : forall ltr fuel l terminal i, 65535 < len l -> convertMain ltr fuel l terminal i = ([], Throw RangeError).
Proof. intros ltr fuel l terminal i H. unfold convertMain. rewrite too_many by exact H. reflexivity. Qed.
Print Assumptions C119_too_many.

(** ** Cases *)
Definition someFs : bytes -> option CountModel.node := fun p => MapModel.mfind p ((b_ "/home/kanji/story", CountModel.File (b_ "一は三より小さい。
")) :: quiz_paths meaning_rows pattern_rows).
Definition here : list bytes := [b_ "home"; b_ "kanji"; b_ "bin"].
Lemma some_names : names_ok someFs.
Proof. apply paths_names. vm_compute. reflexivity. Qed.
Lemma some_bytes : files_bytes someFs.
Proof. apply paths_bytes. vm_compute. reflexivity. Qed.
Definition oneBack (n : N) (r : N) : N * N := (0, r).
Definition someQuiz (l : list bytes) := quizMain someFs (fun _ => true) (path true here) (fun _ => []) ReportProps.byStrokes bySuffix true 50 N oneBack (fun l r => (l, r)) (fun l r => (l, r))
  (path false [b_ "quiz"] :: l) initStatic (MkIn (b_ "1
/
") false) 0.
Lemma some_plain : plain here /\ plain ([] ++ [b_ "quiz"]).
Proof. split; repeat constructor; try discriminate; intros X; cbn in X; repeat destruct X as [X|X]; try discriminate X; exact X. Qed.
Lemma some_loaded : forall l, (exists y, snd (someQuiz l) = Val y) ->
  exists k g, kanji_loaded someFs (fun _ => true) ReportProps.byStrokes true initStatic here false [] l k /\ groups_loaded someFs (fun _ => true) k g.
Proof.
  intros l [y E].
  exact (C116_needs_data someFs (fun _ => true) (fun _ => []) ReportProps.byStrokes bySuffix true 50 N oneBack (fun l r => (l, r)) (fun l r => (l, r)) initStatic
    some_names some_bytes (fun _ => none_known) here false [] (b_ "quiz") l _ 0 y (proj1 some_plain) (proj2 some_plain) E).
Qed.
Lemma args_checked : forall l, forallb (forallb (fun b => (0 <? b) && (b <? 256))) l = true -> Forall (fun a => bytes_ok a /\ no_nul a) l.
Proof.
  intros l H. apply Forall_forall. intros a I. rewrite forallb_forall in H. specialize (H a I). rewrite forallb_forall in H.
  split; apply Forall_forall; intros b J; specialize (H b J); lia.
Qed.
(** details, a quiz of Kanji from a grade, a debug mode and help: all of the hypotheses of C116 hold *)
Example C116_case : names_ok someFs /\ files_bytes someFs /\ known [] /\ sorts orderByQualifiedName bySuffix /\ plain here /\ plain ([] ++ [b_ "quiz"])
  /\ Forall (fun l => (exists k g, kanji_loaded someFs (fun _ => true) ReportProps.byStrokes true initStatic here false [] l k /\ groups_loaded someFs (fun _ => true) k g)
                      /\ len (path false ([] ++ [b_ "quiz"]) :: l) < 65535 /\ Forall (fun a => bytes_ok a /\ no_nul a) l)
            [[b_ "一"]; []; [b_ "-g1"; b_ "-debug"]; [b_ "-data"; b_ "/home/kanji/data"; b_ "-h"]]
  /\ quizEnded N (someQuiz [b_ "一"]) = Exit 0 /\ quizEnded N (someQuiz []) = Exit 0 /\ quizEnded N (someQuiz [b_ "-h"]) = Exit 0
  /\ quizEnded N (someQuiz [b_ "-x"]) = Exit 1 /\ quizEnded N (someQuiz [b_ "丁"]) = Exit 0 /\ quizEnded N (someQuiz [b_ "nine"]) = Exit 1
  /\ outputText (fst (someQuiz [])) = [] /\ len (outputText (fst (someQuiz [b_ "-debug"]))) > 1000.
Proof.
  split; [exact some_names|]. split; [exact some_bytes|]. split; [exact none_known|]. split; [exact C88_sort_exists|]. split; [exact (proj1 some_plain)|]. split; [exact (proj2 some_plain)|].
  split; [|repeat (split; [vm_compute; reflexivity|]); vm_compute; reflexivity].
  repeat (apply Forall_cons; [split; [apply some_loaded; eexists; vm_compute; reflexivity|split; [vm_compute; reflexivity|]]|]); [| | | |apply Forall_nil].
  all: apply args_checked; vm_compute; reflexivity.
Qed.
(** help is only shown if the data has been loaded *)
Theorem C116_help_refuted : ~ forall fs writable cwd reg sort sortNames ltr fuel R draw shuffle shuffleGroups p l st i (r : R), (forall n, known (reg n)) ->
  len (p :: l) < 65535 -> (S (List.length (p :: l)) < fuel)%nat -> command (kept l) HelpMessage ->
  exists ms, quizMain fs writable cwd reg sort sortNames ltr fuel R draw shuffle shuffleGroups (p :: l) st i r = (ms, Val (DoneText R MainModel.HelpText)).
Proof.
  intros H. destruct (H (fun _ => None) (fun _ => true) (path true here) (fun _ => []) ReportProps.byStrokes bySuffix true 50%nat N oneBack (fun l r => (l, r)) (fun l r => (l, r))
    (b_ "quiz") [b_ "-h"] initStatic (MkIn [] false) 0 (fun _ => none_known)) as [ms E].
  - vm_compute. reflexivity.
  - cbn. lia.
  - apply (C85_command_line 50 (b_ "quiz") [b_ "-h"]); [vm_compute; reflexivity|cbn; lia|vm_compute; reflexivity].
  - apply (f_equal snd) in E. assert (X : snd (quizMain (fun _ => None) (fun _ => true) (path true here) (fun _ => []) ReportProps.byStrokes bySuffix true 50%nat N oneBack (fun l r => (l, r)) (fun l r => (l, r))
      [b_ "quiz"; b_ "-h"] initStatic (MkIn [] false) 0) = Throw DomainError) by (vm_compute; reflexivity). rewrite X in E. discriminate E.
Qed.
Print Assumptions C116_help_refuted.

Fixpoint node_check (n : CountModel.node) : bool :=
  match n with
  | CountModel.File c => forallb (fun b => b <? 256) c
  | CountModel.Dir es => forallb (fun e => forallb (fun b => b <? 256) (fst e) && node_check (snd e)) es
  | CountModel.Link (Some t) => node_check t
  | _ => true
  end.
Fixpoint node_checked (n : CountModel.node) : node_check n = true -> CountSpec.node_ok n.
Proof.
  destruct n as [c|es|t|]; cbn [node_check CountSpec.node_ok]; intros H.
  - apply checked_bytes. exact H.
  - induction es as [|e es IH]; [exact I|]. cbn [forallb] in H. apply andb_true_iff in H. destruct H as [H1 H2]. apply andb_true_iff in H1. destruct H1 as [H0 H1].
    cbn [fold_right]. split; [|exact (IH H2)]. split; [apply checked_bytes; exact H0|exact (node_checked _ H1)].
  - destruct t as [t|]; [exact (node_checked _ H)|exact I].
  - exact I.
Qed.
Lemma paths_nodes : forall l, forallb (fun q => node_check (snd q)) l = true -> forall p n, MapModel.mfind p l = Some n -> CountSpec.node_ok n.
Proof. intros l C p n H. apply paths_look in H. rewrite forallb_forall in C. exact (node_checked n (C _ H)). Qed.
Lemma some_nodes : forall p n, someFs p = Some n -> CountSpec.node_ok n.
Proof. apply paths_nodes. vm_compute. reflexivity. Qed.
Definition someStats (l : list bytes) :=
  statsMain someFs (fun _ => true) (path true here) (fun _ => []) ReportProps.byStrokes true 50 StatsReportProofs.some_order (path false ([] ++ [b_ "stats"]) :: l) initStatic.
(** reports on a file and on one that does not exist *)
Example C117_case : names_ok someFs /\ known [] /\ (forall m ks, exists t, StatsModel.built (StatsModel.less m) ks t /\ StatsReportProofs.some_order m ks = StatsModel.inorder t)
  /\ CountSpec.reader CountProofs.read /\ (forall p n, someFs p = Some n -> CountSpec.node_ok n)
  /\ (exists k, kanji_loaded someFs (fun _ => true) ReportProps.byStrokes true initStatic here false [] [b_ "-b"; b_ "/home/kanji/story"] k /\ dMax (kData k) < 65535)
  /\ ended (snd (someStats [b_ "-b"; b_ "/home/kanji/story"])) = Exit 0 /\ len (outputText (fst (someStats [b_ "-b"; b_ "/home/kanji/story"]))) > 100
  /\ ended (snd (someStats [b_ "/home/kanji/storys"])) = Exit 1 /\ ended (snd (someStats [b_ "-debug"])) = Exit 0 /\ ended (snd (someStats [])) = Exit 1.
Proof.
  split; [exact some_names|]. split; [exact none_known|]. split; [exact StatsReportProofs.some_order_built|]. split; [exact CountProofs.read_reader|]. split; [exact some_nodes|].
  split; [|repeat (split; [vm_compute; reflexivity|]); vm_compute; reflexivity].
  set (ld := loadArgs someFs (fun _ => true) (path true here) (fun _ => []) ReportProps.byStrokes true (args_of (path false ([] ++ [b_ "quiz"]) :: [b_ "-b"; b_ "/home/kanji/story"])) initStatic 0).
  assert (X : match snd ld with Val y => dMax (snd y) <? 65535 | _ => false end = true) by (vm_compute; reflexivity).
  destruct (snd ld) as [y| | |] eqn:E; try discriminate X.
  destruct (kanji_complete someFs some_names (fun _ => true) (fun _ => []) (fun _ => none_known) ReportProps.byStrokes true initStatic here false [] (b_ "quiz") [b_ "-b"; b_ "/home/kanji/story"]
    y (proj1 some_plain) (proj2 some_plain) E) as (k & K & Y). exists k. split; [exact K|]. rewrite Y in X. apply N.ltb_lt. exact X.
Qed.
Example C118_case : files_bytes someFs /\ is_file someFs (b_ "/home/kanji/story") (b_ "一は三より小さい。
") /\ cut 10 (b_ "一は三より小さい。
") [b_ "一は三より小さい。"] /\ len [b_ "format"; b_ "/home/kanji/story"] <= 65535
  /\ formatMain someFs (fun _ => true) [b_ "format"; b_ "/home/kanji/story"] = ([ToOut (b_ "一は三より小さい。
")], Val tt)
  /\ (forall c, ~ is_file someFs (b_ "/home/kanji") c).
Proof.
  split; [exact some_bytes|]. split; [apply look_at; vm_compute; reflexivity|]. split; [|split; [vm_compute; discriminate|split; [vm_compute; reflexivity|]]].
  - apply ListProofs.cut_getlines. vm_compute. reflexivity.
  - intros c H. apply look_at in H. vm_compute in H. discriminate H.
Qed.
Example C119_case : Forall bytes_ok [b_ "-k"; b_ "ka"] /\ bytes_ok [] /\ len [b_ "kanaConvert"; b_ "-k"; b_ "ka"] < 65535
  /\ convertMain true 50 [b_ "kanaConvert"; b_ "-k"; b_ "ka"] false (MkIn [] false) = ([ToOut (b_ "カ
")], Val tt)
  /\ converts true false [b_ "-k"; b_ "ka"] [] (b_ "カ
") (Exit 0) /\ converts true false [b_ "-x"] [] [] (Exit 1).
Proof.
  assert (B : forall l, forallb (forallb (fun b => b <? 256)) l = true -> Forall bytes_ok l).
  { intros l H. apply Forall_forall. intros s I. rewrite forallb_forall in H. apply checked_bytes. exact (H s I). }
  assert (B1 : Forall bytes_ok [b_ "-k"; b_ "ka"]) by (apply B; vm_compute; reflexivity).
  assert (E : convertMain true 50 [b_ "kanaConvert"; b_ "-k"; b_ "ka"] false (MkIn [] false) = ([ToOut (b_ "カ
")], Val tt)) by (vm_compute; reflexivity).
  split; [exact B1|]. split; [constructor|]. split; [vm_compute; reflexivity|]. split; [exact E|]. split.
  - pose proof (proj2 (C119_program true 50 (b_ "kanaConvert") [b_ "-k"; b_ "ka"] false [] ltac:(vm_compute; reflexivity) ltac:(cbn; lia) ltac:(cbn; lia) B1 ltac:(constructor))) as H.
    rewrite E in H. exact H.
  - assert (X : convertMain true 50 [b_ "kanaConvert"; b_ "-x"] false (MkIn [] false) = ([ToOut []], Throw DomainError)) by (vm_compute; reflexivity).
    pose proof (proj2 (C119_program true 50 (b_ "kanaConvert") [b_ "-x"] false [] ltac:(vm_compute; reflexivity) ltac:(cbn; lia) ltac:(cbn; lia) ltac:(apply B; vm_compute; reflexivity) ltac:(constructor))) as H.
    rewrite X in H. exact H.
Qed.
