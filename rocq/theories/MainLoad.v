(** Lemmas about the programs: what they load. *)
From Verif Require Import BaseFacts ArgsProofs ArgsProps LoadModel LoadAttr LoadLogModel LoadLogTrace LoadLogLists LoadLogProps LoadLogWhole LaunchProps StartProps
  GroupLoadProofs JukugoLoad ReportProps RowsSpec DirModel DirSpec DirPaths DirProofs DirProps QuizDataModel QuizDataSpec QuizDataGroups QuizDataDir QuizDataProps
  MainModel MainSpec MainQuiet MainProofs.
Open Scope N_scope.
Arguments N.mul : simpl never. Arguments N.add : simpl never. Arguments N.sub : simpl never.

Lemma main_args : forall p l, len (p :: l) <= 65535 -> mainArgs (p :: l) = Val (args_of (p :: l)).
Proof.
  intros p l H. unfold mainArgs, newArgsInt, checkInt. replace ((Z.of_nat (List.length (p :: l)) <? 0)%Z) with false by lia.
  replace ((65535 <? Z.of_nat (List.length (p :: l)))%Z) with false by (unfold len in H; lia). cbn [obind]. unfold newArgs, args_of.
  replace (Z.to_N (Z.of_nat (List.length (p :: l)))) with (len (p :: l)) by (unfold len; lia).
  replace (len (p :: l) =? 0) with false by (rewrite len_cons; lia). reflexivity.
Qed.
Lemma too_many : forall l, 65535 < len l -> mainArgs l = Throw RangeError.
Proof.
  intros l H. unfold mainArgs, newArgsInt, checkInt. replace ((Z.of_nat (List.length l) <? 0)%Z) with false by lia.
  replace ((65535 <? Z.of_nat (List.length l))%Z) with true by (unfold len in H; lia). reflexivity.
Qed.

(** ** The fill of the stream *)
Lemma lines_fill : forall full w gs f types u t types' u' f', groupLines full w f gs types u = Val (t, types', u', f') -> 
  sFill f' = (if full && existsb (fun g => match gType g with MeaningType => true | _ => false end) gs then 32 else sFill f).
Proof.
  intros full w. induction gs as [|g gs IH]; intros f types u t types' u' f' H; cbn [groupLines existsb] in *.
  - injection H as <- <- <- <-. rewrite andb_false_r. reflexivity.
  - peel H p E. destruct p as [[[t1 ty1] u1] f1]. peel H p E2. destruct p as [[[t2 ty2] u2] f2]. injection H as <- <- <- <-. apply IH in E2. rewrite E2.
    destruct (gType g).
    + unfold printMeaningGroup in E. peel E p H1. destruct p as [hd fx]. peel E p H2. destruct p as [[tt1 tt2] tt3]. injection E as <- <- <- <-.
      destruct full; cbn [andb orb].
      * peel H1 n H3. injection H1 as <- <-. cbn [sFill]. destruct (existsb _ gs); reflexivity.
      * injection H1 as <- <-. reflexivity.
    + peel E p H1. destruct p as [x y]. injection E as <- <- <- <-. reflexivity.
Qed.
Lemma groups_fill : forall full f d keys gs t g, printGroups full f d keys gs = Val (t, g) ->
  sFill g = (if full && existsb (fun g => match gType g with MeaningType => true | _ => false end) gs then 32 else sFill f).
Proof.
  intros full f d keys gs t g H. unfold printGroups in H. peel H p E. destruct p as [[[a b] c] h]. injection H as <- <-. apply lines_fill in E. rewrite <- E.
  unfold afterBreakdown. destruct (existsb _ AllKanjiTypes); reflexivity.
Qed.
Lemma types_exists : forall gs, Forall (fun g => gType g = PatternGroupType) gs ->
  existsb (fun g => match gType g with MeaningType => true | _ => false end) gs = false.
Proof. intros gs H. induction H as [|g gs E H IH]; [reflexivity|]. cbn [existsb]. rewrite E. exact IH. Qed.
Lemma report_fill : forall full f d gd t g, Forall (fun g => gType g = MeaningType) (meaningGroups gd) -> Forall (fun g => gType g = PatternGroupType) (patternGroups gd) ->
  reportGroups full f d gd = Val (t, g) -> sFill g = (if full then match meaningGroups gd with [] => sFill f | _ => 32 end else sFill f).
Proof.
  intros full f d gd t g M P H. unfold reportGroups in H. peel H p E1. destruct p as [a f1]. peel H p E2. destruct p as [b f2]. injection H as <- <-.
  apply groups_fill in E1, E2. rewrite types_exists in E2 by exact P. rewrite andb_false_r in E2. rewrite E2, E1.
  destruct M as [|x l M _]; destruct full; cbn [andb existsb]; try reflexivity. rewrite M. reflexivity.
Qed.

(** ** Kanji *)
Section Load.
Variable fs : bytes -> option CountModel.node.
Hypothesis Hnames : names_ok fs.
Variable writable : bytes -> bool.
Variable reg : bytes -> registry.
Hypothesis Hreg : forall n, known (reg n).
Variable sort : list Kanji -> list Kanji.
Variable ltr : bool.
Variable st : list_static.

Lemma kanji_load : forall cs root ps prog l k, plain cs -> plain (ps ++ [prog]) -> kanji_loaded fs writable sort ltr st cs root ps l k ->
  loadArgs fs writable (path true cs) reg sort ltr (args_of (path root (ps ++ [prog]) :: l)) st 0
  = (fst (loadDataL sort (kMode k) ltr (kFiles k) st 0), Val (kDir k, kMode k, kEnv k, kData k)).
Proof.
  intros cs root ps prog l k C P H. destruct H as [D M F L R]. apply (uses_iff fs Hnames cs root ps prog l _ C P) in D.
  unfold loadArgs. rewrite D. destruct (mode_cases (path root (ps ++ [prog])) l) as [(m & E & M')|[_ N]]; [|destruct (N _ M)].
  rewrite E. unfold llift. cbn [lbind]. rewrite <- (mode_fun _ _ _ M M'). rewrite (load_dir fs writable reg Hreg sort (kMode k) ltr (kDir k) (kFiles k) st 0 F).
  assert (X : snd (loadDataL sort (kMode k) ltr (kFiles k) st 0) = Val (kEnv k, kData k)).
  { rewrite loadData_erase, L. cbn [obind]. destruct (kMode k) eqn:Q.
    - destruct (R eq_refl) as (t & T). rewrite T. reflexivity.
    - rewrite (proj2 (C100_info sort (kEnv k) (kData k))). reflexivity.
    - rewrite (proj1 (C100_info sort (kEnv k) (kData k))). reflexivity. }
  destruct (loadDataL sort (kMode k) ltr (kFiles k) st 0) as [ms x]. cbn [fst snd] in X |- *. subst x. cbn [lbind app]. rewrite app_nil_r. reflexivity.
Qed.
Lemma kanji_complete : forall cs root ps prog l y, plain cs -> plain (ps ++ [prog]) ->
  snd (loadArgs fs writable (path true cs) reg sort ltr (args_of (path root (ps ++ [prog]) :: l)) st 0) = Val y ->
  exists k, kanji_loaded fs writable sort ltr st cs root ps l k /\ y = (kDir k, kMode k, kEnv k, kData k).
Proof.
  intros cs root ps prog l y C P H. unfold loadArgs in H. rewrite lbind_snd in H. peel H d D. unfold llift in D. cbn [snd] in D.
  rewrite lbind_snd in H. peel H m M. unfold llift in M. cbn [snd] in M. rewrite lbind_snd in H. peel H q E. destruct q as [e dd].
  unfold llift in H. cbn [snd] in H. injection H as <-.
  apply (uses_iff fs Hnames cs root ps prog l _ C P) in D.
  destruct (mode_cases (path root (ps ++ [prog])) l) as [(m' & E' & M')|[X _]]; [|rewrite X in M; discriminate M]. rewrite E' in M. injection M as ->.
  destruct (loaded_dir fs writable reg Hreg _ _ _ _ _ _ _ E) as (f & F).
  rewrite (load_dir fs writable reg Hreg _ _ _ _ _ _ _ F) in E.
  exists {| kDir := d; kMode := reportMode m; kFiles := f; kEnv := e; kData := dd |}. split; [|reflexivity]. constructor; cbn [kDir kMode kFiles kEnv kData]; auto.
  - exact (C110_same_data _ _ _ _ _ _ _ E).
  - intros Q. rewrite Q in E. rewrite loadData_erase in E. peel E z Z1. destruct z as [e1 d1]. peel E t T. injection E as -> ->. eauto.
Qed.
Lemma kanji_fun : forall cs root ps l k k', kanji_loaded fs writable sort ltr st cs root ps l k ->
  kanji_loaded fs writable sort ltr st cs root ps l k' -> k = k'.
Proof.
  intros cs root ps l k k' [D M F L R] [D' M' F' L' R']. pose proof (uses_fun fs cs root ps l _ _ D D') as E1. pose proof (mode_fun _ _ _ M M') as E2.
  destruct k as [d m f e dd], k' as [d' m' f' e' dd']. cbn [kDir kMode kFiles kEnv kData] in *. subst d' m'.
  pose proof (dir_files_fun fs writable (fun _ => []) (fun _ => none_known) _ _ _ F F') as E3. subst f'. rewrite L in L'. injection L' as -> ->. reflexivity.
Qed.

(** ** Groups and Jukugo *)
Lemma meaning_types : forall find mr pr gd, rows_ok mr -> rows_ok pr -> loadGroups find mr pr = Val gd ->
  Forall (fun g => gType g = MeaningType) (meaningGroups gd) /\ Forall (fun g => gType g = PatternGroupType) (patternGroups gd).
Proof.
  intros find mr pr gd Hm Hp L. destruct (load_groups_cases find mr pr Hm Hp) as [(gd' & E & F1 & F2 & _)|[E _]]; rewrite L in E; [|discriminate E]. injection E as <-.
  split; [clear -F1; induction F1 as [|r g rs gs G F IH]|clear -F2; induction F2 as [|r g rs gs G F IH]]; constructor; auto; destruct G; assumption.
Qed.
Definition fill_of (mode : ReportModel.DebugMode) (f : Stream) (gd : GroupData) : N :=
  match mode with DebugFull => match meaningGroups gd with [] => sFill f | _ => 32 end | _ => sFill f end.
Lemma groups_load : forall mode f dir d mr pr gd, groups_in fs writable dir mr pr -> rows_ok mr -> rows_ok pr -> loadGroups (findMember d) mr pr = Val gd ->
  (mode <> DebugNone -> exists t, printGroupData (isFull mode) f d gd = Val t) ->
  exists ms g, newGroupData fs writable reg mode f dir d = (ms, Val (gd, g)) /\ sFill g = fill_of mode f gd
    /\ errors ms = repeats [] (patternGroups gd)
    /\ (mode = DebugNone -> outputText ms = [])
    /\ (forall t, mode <> DebugNone -> printGroupData (isFull mode) f d gd = Val t -> outputText ms = t).
Proof.
  intros mode f dir d mr pr gd G Hm Hp L R.
  destruct (proj2 (proj1 (C114_load fs writable reg Hreg mode f dir d mr pr G Hm Hp) gd)) as (g & E).
  { split; [exact L|]. destruct mode; [right; apply R; discriminate|right; apply R; discriminate|left; reflexivity]. }
  pose proof (C114_errors fs writable reg Hreg mode f dir d mr pr gd G Hm Hp L) as Er.
  pose proof (fun t => C114_output fs writable reg Hreg mode f dir d mr pr gd t G Hm Hp L) as O.
  pose proof (groups_dir fs writable reg Hreg mode f dir d mr pr G) as D. pose proof (groups_erase mode f d mr pr Hp) as X. rewrite <- D, L, E in X. cbn [obind] in X. symmetry in X.
  pose proof (groups_quiet fs writable reg f dir d) as Q.
  destruct (newGroupData fs writable reg mode f dir d) as [ms y] eqn:N. cbn [fst snd] in *. subst y. exists ms, g. split; [reflexivity|].
  destruct (meaning_types _ _ _ _ Hm Hp L) as [T1 T2]. split; [|split; [exact Er|]].
  - unfold fill_of. destruct mode; cbn [isDebug isFull] in X.
    + peel X q Y. destruct q as [t g']. injection X as ->. exact (report_fill true f d gd t g T1 T2 Y).
    + peel X q Y. destruct q as [t g']. injection X as ->. exact (report_fill false f d gd t g T1 T2 Y).
    + injection X as <-. reflexivity.
  - split.
    + intros ->. rewrite N in Q. exact Q.
    + intros t M P. rewrite (O t P). destruct mode; [reflexivity|reflexivity|congruence].
Qed.
End Load.
