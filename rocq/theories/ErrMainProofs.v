(** Lemmas about the messages of the programs. *)
From Verif Require Import BaseFacts ArgsProofs DirPaths DirProps LoadLogTrace MainProofs MainLoad MainQuiz MainNames QuizDataProps QuizDataDir QuizDataGroups ErrTableProofs ErrStatsProps ErrArgsProps ErrDetailsProps ErrGroupProps ErrJukugoProps ErrLoadSame ErrEnvProps ErrMainQuiet.
From Verif Require Import ErrDetailsProofs.
From Verif Require Export ErrMainSpec.
From Verif Require Import StatsReportLoaded LoadLogModel MainModel DirSpec MainSpec.
From Verif Require Import ErrBase.
Open Scope N_scope.
Arguments N.mul : simpl never. Arguments N.add : simpl never. Arguments N.sub : simpl never.

Lemma plain_got : forall A (x : res A) v, plain x = Val v <-> x = Got v.
Proof. intros A [y|e w| |] v; cbn [plain]; split; intro H; congruence. Qed.
Lemma quiet_plain : forall A (x : out A), plain (quiet x) = x.
Proof. intros A []; reflexivity. Qed.
Lemma quiet_says : forall A (x : out A) e w, nothrow x -> quiet x <> Says e w.
Proof. intros A [v|e'| |] e w H; cbn [quiet]; try discriminate. destruct (H e' eq_refl). Qed.

Section Run.
Variable std : exn -> bytes.
Variable fs : bytes -> option CountModel.node.
Variable writable : bytes -> bool.
Variable reg : bytes -> registry.
Hypothesis Hbytes : files_bytes fs.
Hypothesis Hreg : forall n, known (reg n).

(** ** The programs without texts *)
Section Same.
Variable cwd : bytes.
Variable sort sortNames : list Kanji -> list Kanji.
Variable ltr : bool.
Variable fuel : nat.
Lemma fresh : forall mode dir, newTextDataT fs writable reg sort mode ltr dir initStatic 0 = loadDirT fs writable reg sort mode ltr dir initStatic 0.
Proof. intros. apply (C132_fresh fs writable reg sort mode ltr dir 0 [] initStatic []); [constructor|reflexivity]. Qed.
Lemma load_same : forall a, plain (loadArgsT fs writable cwd reg sort ltr a) = snd (loadArgs fs writable cwd reg sort ltr a initStatic 0).
Proof.
  intro a. unfold loadArgsT, loadArgs. rewrite lbind_snd. apply plain_ext; [exact (C124_directory_same fs cwd a)|]. intro dir.
  rewrite lbind_snd. apply plain_ext; [exact (proj1 (proj2 (proj2 (C122_same std fuel a 0 0%Z None))))|]. intro m. rewrite lbind_snd. rewrite fresh.
  apply plain_ext; [apply (loadDir_plain fs writable reg Hreg Hbytes)|]. intros [e d]. reflexivity.
Qed.
Lemma groups_same : forall mode e dir d,
  snd (newGroupData fs writable reg mode (leftSet mode e d) dir d)
  = obind (plain (groupsT fs writable reg mode e dir d))
      (fun gd => if isDebug mode then obind (reportGroups (isFull mode) (leftSet mode e d) d gd) (fun x => Val (gd, snd x)) else Val (gd, leftSet mode e d)).
Proof.
  intros mode e dir d. rewrite (proj2 (proj2 C128_same) fs writable reg Hbytes Hreg). unfold groupsT. rewrite plain_bind.
  destruct (newGroupDataT (findMember d) fs writable reg dir) as [gd|x w| |]; cbn [plain obind]; try reflexivity.
  destruct (isDebug mode); [|reflexivity]. rewrite plain_bind, quiet_plain. destruct (reportGroups (isFull mode) (leftSet mode e d) d gd) as [y|x| |] eqn:E; cbn [obind plain]; [rewrite E|..]; reflexivity.
Qed.
Lemma main_same : forall l, plain (mainArgsT l) = mainArgs l.
Proof. intro l. unfold mainArgsT, mainArgs. apply (C122_same std fuel (argsOf []) 0). Qed.
Section Quiz.
Variable R : Type.
Variable draw : N -> R -> N * R.
Variable shuffle : list QKanji -> R -> list QKanji * R.
Variable shuffleGroups : list Group -> R -> list Group * R.
Lemma launch_same : forall a mode e d gd jd i r, plain (launchT std sortNames fuel R draw shuffle shuffleGroups a mode e d gd jd i r)
  = launch sortNames fuel R draw shuffle shuffleGroups a mode e d gd jd i r.
Proof.
  intros. unfold launchT, launch. apply plain_ext; [apply (C122_same std fuel a 0 0%Z None)|]. intros [arg| |p]; [|reflexivity..].
  apply plain_ext; [apply C125_same|reflexivity].
Qed.
Lemma quiz_same : forall l i r, plain (quizMainT std fs writable cwd reg sort sortNames ltr fuel R draw shuffle shuffleGroups l i r)
  = snd (quizMain fs writable cwd reg sort sortNames ltr fuel R draw shuffle shuffleGroups l initStatic i r).
Proof.
  intros l i r. unfold quizMainT, quizMain. rewrite lbind_snd. apply plain_ext; [apply main_same|]. intro a. unfold quizRunT, quizRun. rewrite lbind_snd.
  apply plain_ext; [apply load_same|]. intros [[[dir mode] e] d]. rewrite lbind_snd, groups_same, plain_bind.
  destruct (groupsT fs writable reg mode e dir d) as [gd|x w| |] eqn:G; cbn [plain obind]; try reflexivity.
  assert (J : forall f, plain (jd <~ newJukugoDataT std fs dir ;; launchT std sortNames fuel R draw shuffle shuffleGroups a mode e d gd jd i r)
     = snd (lbind (newJukugoData fs mode f dir d) (fun jd => llift (launch sortNames fuel R draw shuffle shuffleGroups a mode e d gd jd i r)))).
  { intro f. rewrite lbind_snd. apply plain_ext; [apply (C127_same std)|]. intro jd. apply launch_same. }
  destruct (isDebug mode) eqn:D; [|apply J]. unfold groupsT in G. rewrite D in G. destruct (newGroupDataT (findMember d) fs writable reg dir) as [gd'| | |]; cbn [rbind] in G; try discriminate G.
  destruct (reportGroups (isFull mode) (leftSet mode e d) d gd') as [y|x| |] eqn:Y; cbn [quiet rbind] in G; try discriminate G. assert (gd' = gd) as -> by congruence.
  rewrite Y. cbn [obind]. apply J.
Qed.
End Quiz.
Lemma stats_same : forall order l, plain (statsMainT std fs writable cwd reg sort ltr fuel order l) = snd (statsMain fs writable cwd reg sort ltr fuel order l initStatic).
Proof.
  intros order l. unfold statsMainT, statsMain. rewrite lbind_snd. apply plain_ext; [apply main_same|]. intro a. rewrite lbind_snd.
  apply plain_ext; [apply load_same|]. intros [[[dir mode] e] d].
  pose proof (C124_same std (loadedUcd e) (loadedEntry d) (order (dMax d)) fs fuel a (isDebug mode)) as X. cbv zeta in X.
  destruct (StatsReportModel.stats (loadedUcd e) (loadedEntry d) (order (dMax d)) fs fuel a (isDebug mode)) as [t y]. rewrite lbind_snd. cbn [lsay snd obind llift]. congruence.
Qed.
End Same.

(** ** Loading *)
Variable sort : list Kanji -> list Kanji.
Variable ltr : bool.
Hypothesis Hsort : sorts orderByStrokes sort.
Hypothesis Hnames : names_ok fs.
Variables (cs : list bytes) (root : bool) (ps : list bytes) (prog : bytes) (l : list bytes).
Hypothesis Hcs : DirSpec.plain cs.
Hypothesis Hps : DirSpec.plain (ps ++ [prog]).
Let a := argsOf (path root (ps ++ [prog]) :: l).
Let load := loadArgsT fs writable (path true cs) reg sort ltr a.
Notation loaded := (kanji_loaded fs writable sort ltr initStatic cs root ps l).
Notation stops := (load_stops fs writable reg ltr cs root ps prog l).

Lemma load_got : forall y, load = Got y <-> exists k, loaded k /\ y = (kDir k, kMode k, kEnv k, kData k).
Proof.
  intro y. rewrite <- plain_got. unfold load. rewrite (load_same (path true cs) sort ltr 0). split.
  - intro E. exact (kanji_complete fs Hnames writable reg Hreg sort ltr initStatic cs root ps prog l y Hcs Hps E).
  - intros (k & K & ->). pose proof (kanji_load fs Hnames writable reg Hreg sort ltr initStatic cs root ps prog l k Hcs Hps K) as X. change (args_of (path root (ps ++ [prog]) :: l)) with a in X. rewrite X. reflexivity.
Qed.
Lemma dir_uses : forall d, getDataDirT fs (path true cs) a = Got d <-> uses fs cs root ps l d.
Proof. intro d. rewrite <- plain_got, (C124_directory_same fs). exact (uses_iff fs Hnames cs root ps prog l d Hcs Hps). Qed.
Lemma mode_text : (exists m, getDebugModeT a = Got m /\ mode_of l (reportMode m))
  \/ (getDebugModeT a = Says DomainError (b_ "can only specify one '-debug' or '-info' option") /\ forall m, ~ mode_of l m).
Proof.
  pose proof (C122_debug (path root (ps ++ [prog])) l) as D. fold a in D. pose proof (proj1 (proj2 (proj2 (C122_same std 0 a 0 0%Z None)))) as X.
  destruct (mode_cases (path root (ps ++ [prog])) l) as [(m & E & M)|[E M]]; change (args_of (path root (ps ++ [prog]) :: l)) with a in E; rewrite E in X.
  - left. exists m. split; [apply plain_got; exact X|exact M].
  - right. split; [|exact M]. destruct (filter is_mode l) as [|m1 [|m2 r]]; [rewrite D in X; discriminate X..|exact D].
Qed.
Lemma load_says : forall w, (exists x, load = Says x w) <-> stops w.
Proof.
  assert (D : forall dir mode w, (exists x, newTextDataT fs writable reg sort mode ltr dir initStatic 0 = Says x w) <-> dir_stops fs writable reg ltr mode dir w).
  { intros dir mode w. rewrite fresh. destruct (C132_directory fs writable reg Hbytes Hreg sort mode ltr dir initStatic 0 Hsort) as (A & _). unfold dir_stops.
    split; intros [x H]; exists x; apply A; exact H. }
  assert (U : forall w, (exists x, getDataDirT fs (path true cs) a = Says x w) <-> dir_says fs cs root ps prog l w) by (intro w; apply (C124_directory fs Hnames); assumption).
  intro w. unfold load, loadArgsT. split.
  - intros [x E]. destruct (getDataDirT fs (path true cs) a) as [dir|x' w'| |] eqn:G; cbn [rbind] in E; try discriminate E.
    + pose proof (proj1 (dir_uses dir) G) as Us. destruct mode_text as [(m & Em & M)|[Em M]]; rewrite Em in E; cbn [rbind] in E.
      * destruct (newTextDataT fs writable reg sort (reportMode m) ltr dir initStatic 0) as [[e d]|x' w'| |] eqn:N; cbn [rbind] in E; try discriminate E.
        apply (stop_data _ _ _ _ _ _ _ _ _ dir (reportMode m)); [exact Us|exact M|]. apply D. exists x'. rewrite N. congruence.
      * assert (w = b_ "can only specify one '-debug' or '-info' option") as -> by congruence. exact (stop_mode _ _ _ _ _ _ _ _ _ dir Us M).
    + apply stop_dir. apply U. exists x'. congruence.
  - intros [w' H|dir H M|dir mode w' H M N].
    + destruct (proj2 (U w') H) as [x E]. exists x. rewrite E. reflexivity.
    + rewrite (proj2 (dir_uses dir) H). cbn [rbind]. destruct mode_text as [(m & _ & X)|[E _]]; [destruct (M _ X)|]. rewrite E. eexists. reflexivity.
    + rewrite (proj2 (dir_uses dir) H). cbn [rbind]. destruct mode_text as [(m & E & X)|[_ X]]; [|destruct (X _ M)]. rewrite E. cbn [rbind].
      rewrite (mode_fun l _ _ X M). destruct (proj2 (D dir mode w') N) as [x Y]. rewrite Y. cbn [rbind]. eexists. reflexivity.
Qed.
Lemma load_total : (exists k, loaded k /\ load = Got (kDir k, kMode k, kEnv k, kData k)) \/ exists x w, load = Says x w.
Proof.
  assert (K : (exists y, load = Got y) \/ exists x w, load = Says x w).
  { unfold load, loadArgsT. destruct (getDataDirT fs (path true cs) a) as [dir|x w| |] eqn:G; cbn [rbind]; [|eauto|exfalso..].
    - destruct mode_text as [(m & Em & M)|[Em M]]; rewrite Em; cbn [rbind]; [|eauto]. rewrite fresh.
      destruct (C132_directory fs writable reg Hbytes Hreg sort (reportMode m) ltr dir initStatic 0 Hsort) as (_ & _ & [(e & d & E)|(x & w & E)]); rewrite E; cbn [rbind]; eauto.
    - pose proof (C124_directory_same fs (path true cs) a) as X. rewrite G in X. cbn [ErrBase.plain] in X.
      destruct (uses_cases fs Hnames cs root ps prog l Hcs Hps) as [(d & E & _)|[E _]]; change (args_of (path root (ps ++ [prog]) :: l)) with a in E; congruence.
    - pose proof (C124_directory_same fs (path true cs) a) as X. rewrite G in X. cbn [ErrBase.plain] in X.
      destruct (uses_cases fs Hnames cs root ps prog l Hcs Hps) as [(d & E & _)|[E _]]; change (args_of (path root (ps ++ [prog]) :: l)) with a in E; congruence. }
  destruct K as [[y Y]|K]; [left|right; exact K]. destruct (proj1 (load_got y) Y) as (k & Lk & E). exists k. split; [exact Lk|]. congruence.
Qed.

(** ** Groups and Jukugo *)
Hypothesis Hfits : forall p c, is_file fs p c -> bytes_ok c /\ JukugoLines.fits c.
Lemma group_message : forall mode e dir d x w, groupsT fs writable reg mode e dir d = Says x w <-> groups_say (findMember d) fs writable dir x w.
Proof.
  intros mode e dir d x w. rewrite <- (C128_message fs writable reg Hbytes Hreg). unfold groupsT. destruct (newGroupDataT (findMember d) fs writable reg dir) as [gd|x' w'| |]; cbn [rbind]; try tauto.
  split; [|intro E; discriminate E]. intro E. exfalso. destruct (isDebug mode); [|discriminate E].
  destruct (quiet (reportGroups (isFull mode) (leftSet mode e d) d gd)) as [y|x' w'| |] eqn:Q; cbn [rbind] in E; try discriminate E. exact (quiet_says _ _ _ _ (nt_report _ _ _ _) Q).
Qed.
Lemma group_names : forall (f : GroupReportModel.Stream) dir d gd, newGroupDataT (findMember d) fs writable reg dir = Got gd ->
  Forall (fun g => bytes_ok (gName g)) (meaningGroups gd) /\ Forall (fun g => bytes_ok (gName g)) (patternGroups gd).
Proof.
  intros f dir d gd G. pose proof (proj2 (proj2 C128_same) fs writable reg Hbytes Hreg ReportModel.DebugNone f dir d) as E. rewrite G in E. cbn [ErrBase.plain obind isDebug] in E.
  destruct (groups_complete fs writable reg Hreg _ _ _ _ _ E) as (mr & pr & Gi). destruct (groups_ok fs writable Hbytes _ _ _ Gi) as [Hm Hp].
  destruct (proj1 (proj1 (C114_load fs writable reg Hreg _ _ _ _ mr pr Gi Hm Hp) gd) (ex_intro _ f E)) as [L1 _].
  assert (Q : forall t rows gs, GroupLoadProofs.rows_ok rows -> Forall2 (GroupLoadSpec.group_of (findMember d) t) rows gs -> Forall (fun g => bytes_ok (gName g)) gs).
  { intros t rows gs Ho H. induction H as [|r g rows gs H1 H2 IH]; [constructor|]. inversion Ho; subst. constructor; [|apply IH; assumption].
    destruct H1 as (_ & -> & _). assumption. }
  destruct (GroupLoadProofs.load_groups_cases (findMember d) mr pr Hm Hp) as [(d' & E' & F1 & F2 & _)|[E' _]]; [|congruence]. assert (d' = gd) as -> by congruence. split; [exact (Q _ _ _ Hm F1)|exact (Q _ _ _ Hp F2)].
Qed.
Lemma no_undefined : forall mode e dir d gd, newGroupDataT (findMember d) fs writable reg dir = Got gd -> groupsT fs writable reg mode e dir d = Got gd.
Proof.
  intros mode e dir d gd G. destruct (group_names (leftSet mode e d) _ _ _ G) as [Hm Hp]. unfold groupsT. rewrite G. cbn [rbind]. destruct (isDebug mode); [|reflexivity].
  destruct (report_total (isFull mode) (leftSet mode e d) d gd Hm Hp) as [y ->]. reflexivity.
Qed.
Lemma jukugo_message : forall dir w, (exists x, newJukugoDataT std fs dir = Says x w) <-> exists j, child dir (b_ "jukugo") j /\ files_say std fs j GradeFiles w.
Proof.
  intros dir w. assert (P : DirProofs.plain_name (b_ "jukugo")) by (apply DirProofs.plain_check; reflexivity). split.
  - intros [x H]. apply (C127_message std fs Hfits) in H. destruct H as [_ H]. eexists. split; [apply (DirProofs.child_join _ _ _ P); reflexivity|exact H].
  - intros (j & C & H). apply (DirProofs.child_join _ _ _ P) in C. subst j. exists DomainError. apply (C127_message std fs Hfits). auto.
Qed.
Lemma both_loaded : forall k gd jd, groupsT fs writable reg (kMode k) (kEnv k) (kDir k) (kData k) = Got gd /\ newJukugoDataT std fs (kDir k) = Got jd
  <-> exists g, groups_loaded fs writable k g /\ gGroups g = gd /\ gJukugo g = jd.
Proof.
  intros k gd jd. pose proof (groups_same (kMode k) (kEnv k) (kDir k) (kData k)) as Gs. set (f := leftSet (kMode k) (kEnv k) (kData k)) in *. split.
  - intros [G J]. rewrite G in Gs. cbn [ErrBase.plain obind] in Gs.
    assert (E2 : exists f', snd (newGroupData fs writable reg (kMode k) f (kDir k) (kData k)) = Val (gd, f')).
    { destruct (isDebug (kMode k)) eqn:D; [|eauto]. unfold groupsT in G. rewrite D in G. destruct (newGroupDataT (findMember (kData k)) fs writable reg (kDir k)) as [gd'| | |]; cbn [rbind] in G; try discriminate G.
      fold f in G. destruct (reportGroups (isFull (kMode k)) f (kData k) gd') as [y|x| |] eqn:Y; cbn [quiet rbind] in G; try discriminate G. assert (gd' = gd) as -> by congruence. rewrite Y in Gs. cbn [obind] in Gs. eauto. }
    destruct E2 as [f' E2]. pose proof (proj2 (proj2 (C127_same std)) fs (kMode k) f' (kDir k) (kData k)) as E3. rewrite J in E3. cbn [ErrBase.plain] in E3. symmetry in E3.
    destruct (groups_complete fs writable reg Hreg _ _ _ _ _ E2) as (mr & pr & Gi). destruct (groups_ok fs writable Hbytes _ _ _ Gi) as [Hm Hp].
    destruct (jukugo_complete fs (fun _ => true) _ _ _ _ _ E3) as (jf & Ji).
    destruct (proj1 (proj1 (C114_load fs writable reg Hreg _ _ _ _ mr pr Gi Hm Hp) gd) (ex_intro _ f' E2)) as [L1 L2].
    exists {| gMeaningRows := mr; gPatternRows := pr; gGroups := gd; gJukugoFiles := jf; gJukugo := jd |}. split; [|auto].
    constructor; cbn [gMeaningRows gPatternRows gGroups gJukugoFiles gJukugo]; auto.
    + intros M. destruct L2 as [L2|L2]; [congruence|exact L2].
    + rewrite <- (proj1 (C115_load fs (kMode k) f' (kDir k) (kData k) jf Ji)). exact E3.
  - intros (g & [G1 G2 G3 G4 G5] & <- & <-). destruct (groups_ok fs writable Hbytes _ _ _ G1) as [Hm Hp].
    destruct (groups_load fs writable reg Hreg (kMode k) f (kDir k) (kData k) _ _ _ G1 Hm Hp G2 G3) as (m2 & f2 & E2 & _). rewrite E2 in Gs. cbn [snd] in Gs.
    pose proof (proj2 (proj2 (C127_same std)) fs (kMode k) f2 (kDir k) (kData k)) as E3. rewrite (proj1 (C115_load fs (kMode k) f2 (kDir k) (kData k) _ G4)), G5 in E3.
    split; [|apply plain_got; exact E3]. destruct (groupsT fs writable reg (kMode k) (kEnv k) (kDir k) (kData k)) as [gd|x w| |]; cbn [ErrBase.plain obind] in Gs; try discriminate Gs. f_equal.
    destruct (isDebug (kMode k)); [|congruence]. destruct (reportGroups (isFull (kMode k)) f (kData k) gd) as [y|x| |]; cbn [obind] in Gs; try discriminate Gs. congruence.
Qed.

(** ** The arguments *)
Variable sortNames : list Kanji -> list Kanji.
Variable fuel : nat.
Variable R : Type.
Variable draw : N -> R -> N * R.
Variable shuffle : list QKanji -> R -> list QKanji * R.
Variable shuffleGroups : list Group -> R -> list Group * R.
Hypothesis Hlen : len (path root (ps ++ [prog]) :: l) < 65535.
Hypothesis Hfuel : (S (List.length (path root (ps ++ [prog]) :: l)) < fuel)%nat.
Hypothesis Hargs : Forall (fun a => bytes_ok a /\ no_nul a) l.
Lemma with_quiet : forall A (x : out A) e w, nothrow x -> withText std x <> Says e w.
Proof. intros A [v|e'| |] e w H; cbn [withText]; try discriminate. destruct (H e' eq_refl). Qed.
Lemma kanji_message : forall d ucd gd jd arg w, bytes_ok arg -> no_nul arg -> (exists x, processKanjiArgT std sortNames d ucd gd jd arg = Says x w) <-> kanji_says d arg w.
Proof.
  intros d ucd gd jd arg w H1 H2. split; [|intro H; eexists; exact (C125_argument std sortNames d ucd gd jd arg w H1 H2 H)]. intros [x E].
  destruct (C125_message_or_shown d arg H1 H2) as [[[y Y] _]|[[_ (w' & W & _)]|(X1 & X2 & X3)]].
  - rewrite (C125_shown std sortNames d ucd gd jd arg y Y) in E. exfalso. revert E. apply with_quiet. destruct y; [apply nt_details|apply nt_found].
  - pose proof (C125_argument std sortNames d ucd gd jd arg w' H1 H2 W) as E'. assert (w' = w) as -> by congruence. exact W.
  - exfalso. unfold processKanjiArgT in E. rewrite (proj2 (DetailsArg.allDigits_iff arg)) in E by exact (proj2 X1). unfold getNumericIdT in E. rewrite DetailsArg.readU16_digits in E by exact (proj2 X1).
    destruct X1 as [X1 _]. destruct arg as [|c0 r0]; [congruence|]. replace (65535 <? decimal (c0 :: r0)) with false in E by lia. cbn [rbind] in E.
    destruct (findByFrequency d (decimal (c0 :: r0))) as [z|e| |] eqn:F; cbn [withText rbind] in E; try discriminate E; [exact (X3 z eq_refl)|].
    revert F. assert (Nt : nothrow (findByFrequency d (decimal (c0 :: r0)))); [|exact (Nt e)]. unfold findByFrequency. cbv zeta. repeat match goal with |- nothrow (match ?x with _ => _ end) => destruct x | |- nothrow (Val _) => apply nt_val | |- nothrow Ub => apply nt_ub end.
Qed.
Lemma launch_message : forall mode e d gd jd i r w, (exists x, launchT std sortNames fuel R draw shuffle shuffleGroups a mode e d gd jd i r = Says x w)
  <-> (exists x, first_complaint std (kept l) x w) \/ exists arg, command (kept l) (KanjiDetails arg) /\ kanji_says d arg w.
Proof.
  intros mode e d gd jd i r w. assert (O : forall arg, command (kept l) (KanjiDetails arg) -> bytes_ok arg /\ no_nul arg).
  { intros arg C. apply command_in in C. rewrite Forall_forall in Hargs. apply Hargs. exact (kept_in writable reg Hreg _ l (PeanoNat.Nat.le_refl _) _ C). }
  pose proof (fun x w => C122_says std fuel (path root (ps ++ [prog])) l x w Hlen Hfuel) as Sa. pose proof (fun c => C122_read std fuel (path root (ps ++ [prog])) l c Hlen Hfuel) as Re. fold a in Sa, Re.
  unfold launchT. split.
  - intros [x E]. destruct (readArgsT std fuel a) as [c|x' w'| |] eqn:Q; cbn [rbind] in E; try discriminate E.
    + pose proof (proj1 (Re c) eq_refl) as C. destruct c as [arg| |p]; try discriminate E. right. exists arg. split; [exact C|]. destruct (O arg C) as [O1 O2].
      destruct (processKanjiArgT std sortNames d (envUcd e) gd jd arg) as [t|x' w'| |] eqn:K; cbn [rbind] in E; try discriminate E. apply (kanji_message d (envUcd e) gd jd arg w O1 O2). exists x'. congruence.
    + left. exists x'. apply Sa. congruence.
  - intros [[x X]|(arg & C & K)].
    + apply Sa in X. rewrite X. eexists. reflexivity.
    + rewrite (proj2 (Re _) C). cbn [rbind]. destruct (O arg C) as [O1 O2]. destruct (proj2 (kanji_message d (envUcd e) gd jd arg w O1 O2) K) as [x E]. rewrite E. eexists. reflexivity.
Qed.
Lemma main_got : mainArgsT (path root (ps ++ [prog]) :: l) = Got a.
Proof. apply plain_got. rewrite (main_same 0). apply main_args. apply N.lt_le_incl. exact Hlen. Qed.
Notation quiz := (quizMainT std fs writable (path true cs) reg sort sortNames ltr fuel R draw shuffle shuffleGroups (path root (ps ++ [prog]) :: l)).
Lemma quiz_message : forall i r w, (exists x, quiz i r = Says x w) <-> quiz_stops std fs writable reg sort ltr cs root ps prog l w.
Proof.
  intros i r w. unfold quizMainT. rewrite main_got. cbn [rbind]. unfold quizRunT. fold load.
  assert (F : forall k k', loaded k -> loaded k' -> k = k') by (intros k k'; apply kanji_fun).
  destruct load_total as [(k & K & E)|(x & w0 & E)]; rewrite E; cbn [rbind].
  - assert (Ns : forall w, ~ stops w) by (intros w' X; apply load_says in X; destruct X as [x X]; congruence).
    pose proof (group_message (kMode k) (kEnv k) (kDir k) (kData k)) as Gm. pose proof (jukugo_message (kDir k)) as Jm. pose proof (both_loaded k) as Bo.
    destruct (groupsT fs writable reg (kMode k) (kEnv k) (kDir k) (kData k)) as [gd|x0 w0| |] eqn:G; cbn [rbind].
    + assert (Ng : forall x w, ~ groups_say (findMember (kData k)) fs writable (kDir k) x w) by (intros x w' X; apply Gm in X; discriminate X).
      destruct (newJukugoDataT std fs (kDir k)) as [jd|x0 w0| |] eqn:J; cbn [rbind].
      * destruct (proj1 (Bo gd jd) (conj eq_refl eq_refl)) as (g & Hg & <- & <-). rewrite launch_message. split.
        -- intros [[x X]|(arg & C & X)]; [exact (quiz_arguments _ _ _ _ _ _ _ _ _ _ _ k g x w K Hg X)|exact (quiz_kanji _ _ _ _ _ _ _ _ _ _ _ k g arg w K Hg C X)].
        -- intros [w' X|k' x w' K' X|k' j w' K' X1 X2 X3|k' g' x w' K' G' X|k' g' arg w' K' G' X1 X2]; [destruct (Ns _ X)|pose proof (F _ _ K K') as <-..].
           ++ destruct (Ng _ _ X).
           ++ exfalso. destruct (proj2 (Jm w') (ex_intro _ j (conj X2 X3))) as [x X]. discriminate X.
           ++ left. eauto.
           ++ right. eauto.
      * assert (Nl : forall g, ~ groups_loaded fs writable k g) by (intros g X; destruct (proj2 (Bo _ _) (ex_intro _ g (conj X (conj eq_refl eq_refl)))) as [_ Y]; discriminate Y). split.
        -- intros [x X]. destruct (proj1 (Jm w)) as (j & C & Y); [exists x0; congruence|]. exact (quiz_jukugo _ _ _ _ _ _ _ _ _ _ _ k j w K Ng C Y).
        -- intros [w' X|k' x w' K' X|k' j w' K' X1 X2 X3|k' g' x w' K' G' X|k' g' arg w' K' G' X1 X2]; [destruct (Ns _ X)|pose proof (F _ _ K K') as <-..].
           ++ destruct (Ng _ _ X).
           ++ destruct (proj2 (Jm w') (ex_intro _ j (conj X2 X3))) as [x X]. exists x. congruence.
           ++ destruct (Nl _ G').
           ++ destruct (Nl _ G').
      * assert (Nl : forall g, ~ groups_loaded fs writable k g) by (intros g X; destruct (proj2 (Bo _ _) (ex_intro _ g (conj X (conj eq_refl eq_refl)))) as [_ Y]; discriminate Y).
        split; [intros [x X]; discriminate X|]. intros [w' X|k' x w' K' X|k' j w' K' X1 X2 X3|k' g' x w' K' G' X|k' g' arg w' K' G' X1 X2]; [destruct (Ns _ X)|pose proof (F _ _ K K') as <-..].
        { destruct (Ng _ _ X). } { destruct (proj2 (Jm w') (ex_intro _ j (conj X2 X3))) as [x X]. discriminate X. } { destruct (Nl _ G'). } { destruct (Nl _ G'). }
      * assert (Nl : forall g, ~ groups_loaded fs writable k g) by (intros g X; destruct (proj2 (Bo _ _) (ex_intro _ g (conj X (conj eq_refl eq_refl)))) as [_ Y]; discriminate Y).
        split; [intros [x X]; discriminate X|]. intros [w' X|k' x w' K' X|k' j w' K' X1 X2 X3|k' g' x w' K' G' X|k' g' arg w' K' G' X1 X2]; [destruct (Ns _ X)|pose proof (F _ _ K K') as <-..].
        { destruct (Ng _ _ X). } { destruct (proj2 (Jm w') (ex_intro _ j (conj X2 X3))) as [x X]. discriminate X. } { destruct (Nl _ G'). } { destruct (Nl _ G'). }
    + assert (Nl : forall g, ~ groups_loaded fs writable k g) by (intros g X; destruct (proj2 (Bo _ _) (ex_intro _ g (conj X (conj eq_refl eq_refl)))) as [Y _]; discriminate Y).
      pose proof (proj1 (Gm x0 w0) eq_refl) as Y. split.
      * intros [x X]. apply (quiz_groups _ _ _ _ _ _ _ _ _ _ _ k x0 w K). apply Gm. congruence.
      * intros [w' X|k' x w' K' X|k' j w' K' X1 X2 X3|k' g' x w' K' G' X|k' g' arg w' K' G' X1 X2]; [destruct (Ns _ X)|pose proof (F _ _ K K') as <-..].
        { apply Gm in X. exists x. congruence. } { destruct (X1 _ _ Y). } { destruct (Nl _ G'). } { destruct (Nl _ G'). }
    + exfalso. destruct (C128_loaded_or_message fs writable reg Hbytes Hreg (findMember (kData k)) (kDir k)) as [(gd & Gd & _)|(x & w' & Gd & _)]; [rewrite (no_undefined _ _ _ _ _ Gd) in G; discriminate G|].
      unfold groupsT in G; rewrite Gd in G; discriminate G.
    + exfalso. destruct (C128_loaded_or_message fs writable reg Hbytes Hreg (findMember (kData k)) (kDir k)) as [(gd & Gd & _)|(x & w' & Gd & _)]; [rewrite (no_undefined _ _ _ _ _ Gd) in G; discriminate G|].
      unfold groupsT in G; rewrite Gd in G; discriminate G.
  - pose proof (proj1 (load_says w0) (ex_intro _ x E)) as S0.
    assert (Nk : forall k, ~ loaded k) by (intros k K; pose proof (proj2 (load_got _) (ex_intro _ k (conj K eq_refl))) as X; congruence). split.
    + intros [x' X]. apply quiz_load. apply load_says. exists x. congruence.
    + intros [w' X|k' x' w' K' X|k' j w' K' X1 X2 X3|k' g' x' w' K' G' X|k' g' arg w' K' G' X1 X2]; [|destruct (Nk _ K')..]. apply load_says in X. destruct X as [x' X]. exists x. congruence.
Qed.

(** ** kanjiStats *)
Variable order : N -> list StatsModel.SCount -> list StatsModel.SCount.
Variable I : bytes -> list Utf8CharSpec.item.
Hypothesis Horder : forall m ks, exists t, StatsModel.built (StatsModel.less m) ks t /\ order m ks = StatsModel.inorder t.
Hypothesis Hreader : CountSpec.reader I.
Hypothesis Hnodes : forall p n, fs p = Some n -> CountSpec.node_ok n.
Hypothesis Hlists : Forall bytes_ok (StatsReportSpec.file_names (kept l)).
Hypothesis Hmax : forall k, loaded k -> dMax (kData k) < 65535.
Notation stats := (statsMainT std fs writable (path true cs) reg sort ltr fuel order (path root (ps ++ [prog]) :: l)).
Lemma stats_cases : (exists x w, stats = Says x w /\ stats_stops fs writable reg sort ltr cs root ps prog l w) \/ (stats = Got tt /\ forall w, ~ stats_stops fs writable reg sort ltr cs root ps prog l w).
Proof.
  unfold statsMainT. rewrite main_got. cbn [rbind]. fold load.
  assert (F : forall k k', loaded k -> loaded k' -> k = k') by (intros k k'; apply kanji_fun).
  destruct load_total as [(k & K & E)|(x & w0 & E)]; rewrite E; cbn [rbind].
  - assert (Ns : forall w, ~ stops w) by (intros w' X; apply load_says in X; destruct X as [x X]; congruence).
    destruct (C124_stats (dMax (kData k)) std (loadedUcd (kEnv k)) (loadedEntry (kData k)) (order (dMax (kData k))) fs I fuel (path root (ps ++ [prog])) l (isDebug (kMode k))
      (Hmax k K) (Horder _) Hreader Hnodes Hlen Hfuel Hlists) as [(w & W & Q)|[W Q]]; fold a in Q.
    + left. exists DomainError, w. split; [exact Q|]. exact (stats_arguments _ _ _ _ _ _ _ _ _ _ k w K W).
    + right. split; [exact Q|]. intros w [w' X|k' w' K' X]; [exact (Ns _ X)|]. pose proof (F _ _ K K') as <-. exact (W _ X).
  - left. exists x, w0. split; [reflexivity|]. apply stats_load. apply load_says. eauto.
Qed.
Lemma stats_message : forall w, (exists x, stats = Says x w) <-> stats_stops fs writable reg sort ltr cs root ps prog l w.
Proof.
  intro w. assert (F : forall k k', loaded k -> loaded k' -> k = k') by (intros k k'; apply kanji_fun). split.
  - intros [x X]. destruct stats_cases as [(x' & w' & E & H)|[E _]]; [|congruence]. assert (w' = w) as -> by congruence. exact H.
  - intro H. destruct stats_cases as [(x' & w' & E & H')|[_ Q]]; [|destruct (Q _ H)]. exists x'. rewrite E. f_equal.
    assert (Nk : forall w, stops w -> forall k, ~ loaded k).
    { intros w0 X k K. apply load_says in X. destruct X as [x X]. pose proof (proj2 (load_got _) (ex_intro _ k (conj K eq_refl))) as Y. congruence. }
    destruct H as [w X|k w K X], H' as [w' X'|k' w' K' X'].
    + apply load_says in X, X'. destruct X as [y X], X' as [y' X']. congruence.
    + destruct (Nk _ X _ K').
    + destruct (Nk _ X' _ K).
    + pose proof (F _ _ K K') as <-. exact (C124_one_message _ _ _ _ _ X' X).
Qed.
End Run.
