(** Lemmas about the programs: the quiz. *)
From Verif Require Import BaseFacts ArgsProofs ArgsProps LoadModel LoadSpec LoadAttr LoadLogModel LoadLogTrace LoadLogLists LoadLogProps LoadLogSpec LaunchLoop LaunchProps StartProps
  GroupLoadProofs DetailsArg DetailsProps JukugoLoad ReportProps RowsSpec DirModel DirSpec DirPaths DirProofs DirProps QuizAsk QuizDataModel QuizDataSpec QuizDataGroups QuizDataDir QuizDataProps
  MainModel MainSpec MainQuiet MainProofs MainNames MainLoad.
Open Scope N_scope.
Arguments N.mul : simpl never. Arguments N.add : simpl never. Arguments N.sub : simpl never.

Section Run.
Variable fs : bytes -> option CountModel.node.
Variable writable : bytes -> bool.
Variable reg : bytes -> registry.
Variable sort sortNames : list Kanji -> list Kanji.
Variable ltr : bool.
Variable fuel : nat.
Variable R : Type.
Variable draw : N -> R -> N * R.
Variable shuffle : list QKanji -> R -> list QKanji * R.
Variable shuffleGroups : list Group -> R -> list Group * R.
Variable st : list_static.
Notation quiz := (fun cwd => quizMain fs writable cwd reg sort sortNames ltr fuel R draw shuffle shuffleGroups).

(** without debug options loading writes nothing to the output *)
Lemma quiet_then : forall A B (m : L A) (f : A -> L B), quiet m -> (forall x, snd m = Val x -> quiet (f x)) -> quiet (lbind m f).
Proof.
  intros A B [w x] f H K. unfold quiet in *. unfold lbind. destruct x; cbn [fst] in *; try exact H.
  specialize (K a eq_refl). destruct (f a). cbn [fst] in *. rewrite output_app, H, K. reflexivity.
Qed.
Lemma load_args_quiet : forall cwd p l, no_mode l -> quiet (loadArgs fs writable cwd reg sort ltr (args_of (p :: l)) st 0)
  /\ forall dir mode e d, snd (loadArgs fs writable cwd reg sort ltr (args_of (p :: l)) st 0) = Val (dir, mode, e, d) -> mode = DebugNone.
Proof.
  intros cwd p l Hn.
  assert (M : forall m, getDebugMode (args_of (p :: l)) = Val m -> reportMode m = DebugNone).
  { intros m E. destruct (mode_cases p l) as [(m' & M1 & M2)|[M1 _]]; rewrite E in M1; [|discriminate M1]. injection M1 as <-. exact (mode_fun _ _ _ M2 (mode_none l Hn)). }
  unfold loadArgs. split.
  - apply quiet_bind; [reflexivity|]. intros dir. apply quiet_then; [reflexivity|]. intros m E. rewrite (M m E). apply quiet_bind; [apply dir_quiet|]. intros [e d]. reflexivity.
  - intros dir mode e d H. rewrite lbind_snd in H. peel H x X. rewrite lbind_snd in H. peel H m E. rewrite lbind_snd in H. peel H q Q. destruct q as [e' d']. injection H as <- <- <- <-.
    exact (M m E).
Qed.
Lemma quiz_quiet : forall cwd p l i r, no_mode l -> outputText (fst (quiz cwd (p :: l) st i r)) = [].
Proof.
  intros cwd p l i r Hn. unfold quizMain. match goal with |- outputText (fst ?m) = [] => change (quiet m) end.
  apply quiet_then; [reflexivity|]. intros a E. unfold llift in E. cbn [snd] in E.
  assert (A : a = args_of (p :: l)).
  { destruct (N.leb_spec (len (p :: l)) 65535) as [Q|Q]; [rewrite (main_args p l Q) in E; injection E as <-; reflexivity|rewrite (too_many _ Q) in E; discriminate E]. }
  subst a. destruct (load_args_quiet cwd p l Hn) as [Q M]. unfold quizRun. apply quiet_then; [exact Q|]. intros [[[dir mode] e] d] V. rewrite (M _ _ _ _ V).
  apply quiet_bind; [apply groups_quiet|]. intros [gd f]. apply quiet_bind; [apply jukugo_quiet|]. intros jd. reflexivity.
Qed.
Lemma quiz_many : forall cwd l i r, 65535 < len l -> quiz cwd l st i r = ([], Throw RangeError).
Proof. intros cwd l i r H. unfold quizMain. rewrite (too_many l H). reflexivity. Qed.

Hypothesis Hnames : names_ok fs.
Hypothesis Hbytes : files_bytes fs.
Hypothesis Hreg : forall n, known (reg n).
Hypothesis Hsort : sorts orderByQualifiedName sortNames.

Lemma kept_in : forall n l, (length l <= n)%nat -> forall a, In a (kept l) -> In a l.
Proof.
  induction n as [|n IH]; intros [|x l] H a I; cbn [length] in H; try lia; try destruct I. cbn [kept] in I. destruct (beq x (b_ "-data")).
  - destruct l as [|y l]; [destruct I|]. cbn [length] in H. right. right. apply IH; [lia|exact I].
  - destruct (beq x (b_ "-debug") || beq x (b_ "-info")); [right; apply IH; [lia|exact I]|]. destruct I as [<-|I]; [left; reflexivity|right; apply IH; [lia|exact I]].
Qed.
Lemma command_in : forall l a, command l (KanjiDetails a) -> In a l.
Proof. intros l a H. inversion H; subst; apply in_or_app; right; [left; reflexivity|right; left; reflexivity]. Qed.
Lemma launch_does : forall k g p l i r, groups_loaded fs writable k g -> (forall n q, findByName (kData k) n = Some q -> kanji_ok q) -> ten (kData k) ->
  len (p :: l) < 65535 -> (S (length (p :: l)) < fuel)%nat -> Forall (fun a => bytes_ok a /\ no_nul a) l ->
  does sortNames fuel R draw shuffle shuffleGroups k g l i r
    (launch sortNames fuel R draw shuffle shuffleGroups (args_of (p :: l)) (kMode k) (kEnv k) (kData k) (gGroups g) (gJukugo g) i r).
Proof.
  intros k g p l i r G Hk T L F A. destruct G as [G1 G2 _ _ _]. destruct (groups_ok fs writable Hbytes _ _ _ G1) as [Hm Hp].
  unfold launch. destruct (read_total fuel p l L F) as [(c & E)|(x & E & X)]; change (args_of (p :: l)) with (argsOf (p :: l)); rewrite E; cbn [obind].
  - apply (C85_command_line fuel p l c L F) in E. destruct c as [a| |o].
    + assert (Ba : bytes_ok a /\ no_nul a).
      { rewrite Forall_forall in A. apply A. exact (kept_in _ l (le_n _) a (command_in _ _ E)). }
      destruct (arg_refused sortNames (kData k) (envUcd (kEnv k)) (gGroups g) (gJukugo g) a (proj1 Ba) (proj2 Ba)) as [(x & X)|[Y [X|(X1 & X2 & X3 & X)]]].
      * rewrite (C87_shown sortNames _ (envUcd (kEnv k)) (gGroups g) (gJukugo g) a x X). exact (does_details sortNames fuel R draw shuffle shuffleGroups k g l i r a x E X).
      * rewrite X. exact (does_not_stand sortNames fuel R draw shuffle shuffleGroups k g l i r a E Y).
      * rewrite X. apply (does_undefined sortNames fuel R draw shuffle shuffleGroups k g l i r a E). exact (conj X1 (conj X2 X3)).
    + apply does_help. exact E.
    + destruct (kMode k) eqn:M; cbn [isDebug startsQuiz negb andb orb]; [eapply does_nothing; [exact E|rewrite M; discriminate]..|].
      unfold startsQuiz. cbn [isDebug negb andb orb]. destruct (lines_exist i) as (ls & Hl). unfold quizWith.
      destruct (C90_start R draw shuffle shuffleGroups (groupNumber (gGroups g)) (fun q => extraTypeText (qKanji q) (kDetails (qKanji q)))
        (fun q => shownOr (reviewText sortNames (gGroups g) (gJukugo g) (qKanji q))) (kData k) (meaningGroups (gGroups g)) (patternGroups (gGroups g)) fuel l o i ls r E T Hl)
        as (keys & e & ls' & s & D & Ev & Rg & L' & Re).
      eapply does_quiz; [exact E|exact M|exact Hl| |exact D|exact Ev|exact Rg|exact L'|exact Re].
      intros q x js J. assert (Hf : forall n q, findMember (kData k) n = Some q -> kanji_ok (qKanji q)).
      { intros n q' H. apply C114_members in H. exact (Hk _ _ (proj1 H)). }
      destruct (C88_review sortNames (findMember (kData k)) _ _ _ (gJukugo g) x Hsort Hm Hp G2 Hf J) as (t & E1 & E2). fold x. rewrite E1. exact E2.
  - apply does_refuse; [|exact X]. intros c C. apply (C85_command_line fuel p l c L F) in C. rewrite E in C. discriminate C.
Qed.

(** the whole program *)
Lemma quiz_loaded : forall cs root ps prog l k g i r, plain cs -> plain (ps ++ [prog]) -> kanji_loaded fs writable sort ltr st cs root ps l k -> groups_loaded fs writable k g ->
  let p := path root (ps ++ [prog]) in
  len (p :: l) < 65535 -> (S (length (p :: l)) < fuel)%nat -> Forall (fun a => bytes_ok a /\ no_nul a) l ->
  exists ms x, quiz (path true cs) (p :: l) st i r = (ms, x)
    /\ does sortNames fuel R draw shuffle shuffleGroups k g l i r x
    /\ errors ms = errors (fst (loadDataL sort (kMode k) ltr (kFiles k) st 0)) ++ repeats [] (patternGroups (gGroups g))
    /\ (kMode k = DebugNone -> outputText ms = [])
    /\ (kMode k <> DebugNone -> forall js, files_fit (gJukugoFiles g) -> all_words (gJukugoFiles g) js ->
         exists t ks, printGroupData (isFull (kMode k)) (leftSet (kMode k) (kEnv k) (kData k)) (kData k) (gGroups g) = Val t /\ kanji_in (distinct js) ks
           /\ outputText ms = outputText (fst (loadDataL sort (kMode k) ltr (kFiles k) st 0)) ++ t ++ jukugo_report (jukugo_fill k g) (kData k) (distinct js) ks).
Proof.
  intros cs root ps prog l k g i r C P K G p Hl Hf Ha. pose proof K as K0. destruct K as [K1 K2 K3 K4 K5]. pose proof G as G0. destruct G as [G1 G2 G3 G4 G5].
  destruct (groups_ok fs writable Hbytes _ _ _ G1) as [Hm Hp].
  destruct (dir_names fs writable Hbytes _ _ _ _ _ _ _ K3 K4) as [_ Hk].
  pose proof (loaded_ten _ _ _ _ _ _ K4) as T.
  pose proof (kanji_load fs Hnames writable reg Hreg sort ltr st cs root ps prog l k C P K0) as E1.
  destruct (groups_load fs writable reg Hreg (kMode k) (leftSet (kMode k) (kEnv k) (kData k)) (kDir k) (kData k) _ _ _ G1 Hm Hp G2 G3) as (m2 & f & E2 & F2 & Er2 & Q2 & O2).
  pose proof (C115_load fs (kMode k) f (kDir k) (kData k) _ G4) as (E3 & Er3 & Q3).
  pose proof (C115_report fs (kMode k) f (kDir k) (kData k) (gJukugoFiles g)) as O3.
  exists (fst (loadDataL sort (kMode k) ltr (kFiles k) st 0) ++ m2 ++ fst (newJukugoData fs (kMode k) f (kDir k) (kData k))).
  eexists. split; [|split; [apply (launch_does k g p l i r G0); [intros n q X; apply (Hk n q X)|exact T|exact Hl|exact Hf|exact Ha]|]].
  - unfold quizMain. rewrite main_args by (fold p; lia). unfold llift at 1. cbn [lbind]. unfold quizRun. fold p in E1. rewrite E1. cbn [lbind]. rewrite E2. cbn [lbind].
    destruct (newJukugoData fs (kMode k) f (kDir k) (kData k)) as [m3 y]. cbn [fst snd] in *. subst y. rewrite G5. cbn [lbind]. unfold llift. rewrite app_nil_r. reflexivity.
  - split; [rewrite !errors_app, Er2, Er3, app_nil_r; reflexivity|]. split.
    + intros M. rewrite !output_app, (Q2 M). rewrite (Q3 M). cbn [outputText app]. rewrite app_nil_r. rewrite M.
      pose proof (dir_quiet fs writable reg sort ltr (kDir k) st 0) as X. unfold quiet in X. rewrite (load_dir fs writable reg Hreg _ _ _ _ _ _ _ K3) in X. exact X.
    + intros M js Ff W. destruct (G3 M) as (t & Ht). destruct (O3 js (gJukugo g) G4 Ff M W G5) as (ks & I & O). exists t, ks. split; [exact Ht|]. split; [exact I|].
      rewrite !output_app, (O2 t M Ht), O, F2. do 3 f_equal. unfold fill_of, jukugo_fill, leftSet. destruct (kMode k); try reflexivity.
      destruct (meaningGroups (gGroups g)); [|reflexivity]. destruct (hasVariants (kData k)); [rewrite andb_false_r; reflexivity|]. rewrite andb_true_r.
      destruct (missesRadicals (kEnv k) (kData k)); reflexivity.
Qed.
Lemma quiz_complete : forall cs root ps prog l i r y, plain cs -> plain (ps ++ [prog]) ->
  snd (quiz (path true cs) (path root (ps ++ [prog]) :: l) st i r) = Val y ->
  exists k g, kanji_loaded fs writable sort ltr st cs root ps l k /\ groups_loaded fs writable k g.
Proof.
  intros cs root ps prog l i r y C P H. unfold quizMain in H. rewrite lbind_snd in H. peel H a E. unfold llift in E. cbn [snd] in E.
  assert (A : a = args_of (path root (ps ++ [prog]) :: l)).
  { destruct (N.leb_spec (len (path root (ps ++ [prog]) :: l)) 65535) as [Q|Q]; [rewrite main_args in E by exact Q; injection E as <-; reflexivity|rewrite (too_many _ Q) in E; discriminate E]. }
  subst a. unfold quizRun in H. rewrite lbind_snd in H. peel H z E1. apply (kanji_complete fs Hnames writable reg Hreg sort ltr st cs root ps prog l z C P) in E1.
  destruct E1 as (k & K & ->). rewrite lbind_snd in H. peel H z E2. destruct z as [gd f]. rewrite lbind_snd in H. peel H jd E3. exists k.
  destruct (groups_complete fs writable reg Hreg _ _ _ _ _ E2) as (mr & pr & G). destruct (groups_ok fs writable Hbytes _ _ _ G) as [Hm Hp].
  destruct (jukugo_complete fs (fun _ => true) _ _ _ _ _ E3) as (jf & J).
  destruct (proj1 (proj1 (C114_load fs writable reg Hreg _ _ _ _ mr pr G Hm Hp) gd) (ex_intro _ f E2)) as [L1 L2].
  exists {| gMeaningRows := mr; gPatternRows := pr; gGroups := gd; gJukugoFiles := jf; gJukugo := jd |}. split; [exact K|].
  constructor; cbn [gMeaningRows gPatternRows gGroups gJukugoFiles gJukugo]; auto.
  - intros M. destruct L2 as [L2|L2]; [congruence|exact L2].
  - rewrite <- (proj1 (C115_load fs (kMode k) f (kDir k) (kData k) jf J)). exact E3.
Qed.
End Run.
