(** C123: what kanaConvert and kanjiFormat write to std::cerr. *)
From Verif Require Import BaseFacts StringProofs ArgsProofs ArgsProps MainSpec MainLoad MainProps ErrArgsSpec ErrArgsProps ErrArgsProofs ProgramProofs ErrConvertProofs.
From Verif Require Import ErrConvertModel ErrConvertSpec.
From Verif Require DirPaths ColumnFileModel.
Open Scope N_scope.

Lemma main_argsT : forall p l, len (p :: l) <= 65535 -> mainArgsT (p :: l) = Got (argsOf (p :: l)).
Proof.
  intros p l H. apply plain_val. unfold mainArgsT. rewrite newArgsInt_plain. exact (main_args p l H).
Qed.
Lemma too_manyT : forall l, 65535 < len l -> exists d, written d (len l) /\ mainArgsT l = Says RangeError (b_ "argc " ++ d ++ b_ " is greater than 65535").
Proof.
  intros l H. assert (X : exists e w, mainArgsT l = Says e w).
  { pose proof (too_many l H) as E. unfold mainArgs in E. rewrite <- newArgsInt_plain in E. destruct (plain_throw _ _ _ E) as (w & E'). eauto. }
  destruct X as (e & w & E). unfold len in H. destruct (C122_count _ _ _ _ E) as [(d & N & _)|[(d & N & W & -> & ->)|[(N & _)|(d & N & _)]]]; try lia.
  exists d. split; [|exact E]. unfold len. replace (N.of_nat (List.length l)) with (Z.to_N (Z.of_nat (List.length l))) by lia. exact W.
Qed.

(** * kanaConvert *)
Lemma caught_plain : forall A (x : ErrBase.res A) y, ErrBase.plain x = y -> snd (caught x) = ended y.
Proof. intros A x y <-. destruct x as [v|e w| |]; reflexivity. Qed.
(** std::cout and the end are those of C119 *)
Theorem C123_same : forall std ltr fuel l terminal i,
  fst (convertWhole std ltr fuel l terminal i) = outputText (fst (convertMain ltr fuel l terminal i))
  /\ snd (snd (convertWhole std ltr fuel l terminal i)) = ended (snd (convertMain ltr fuel l terminal i)).
Proof.
  intros std ltr fuel l terminal i. unfold convertWhole, convertMain.
  assert (E : ErrBase.plain (mainArgsT l) = mainArgs l) by apply newArgsInt_plain. rewrite <- E.
  destruct (mainArgsT l) as [a|e w| |]; [|split; reflexivity|split; reflexivity|split; reflexivity].
  cbn [ErrBase.plain]. unfold llift at 1 3. cbn [LoadLogModel.lbind]. pose proof (program_plain std ltr fuel a terminal i) as P.
  destruct (programT std ltr fuel a terminal i) as [t x]. cbn [fst snd] in P. rewrite <- P. cbn.
  rewrite app_nil_r. split; [reflexivity|]. apply caught_plain. reflexivity.
Qed.
Print Assumptions C123_same.
(** wrong arguments are answered with one line on std::cerr, nothing on std::cout, and exit code 1 *)
Theorem C123_refused : forall std ltr fuel prog l terminal i w, len (prog :: l) < 65535 -> (S (List.length l) < fuel)%nat ->
  refusal terminal l w -> convertWhole std ltr fuel (prog :: l) terminal i = ([], (w ++ [10], Exit 1)).
Proof.
  intros std ltr fuel prog l terminal i w L F R. unfold convertWhole. rewrite main_argsT by lia. rewrite programT_plan, read_programT by assumption.
  rewrite (refusal_says _ _ _ R). reflexivity.
Qed.
Print Assumptions C123_refused.
(** without such an argument nothing is written to std::cerr and the exit code, if the program ends, is 0 *)
Theorem C123_quiet : forall std ltr fuel prog l terminal text, len (prog :: l) < 65535 -> (S (List.length l) < fuel)%nat -> (S (List.length text) < fuel)%nat ->
  Forall bytes_ok l -> bytes_ok text -> (forall w, ~ refusal terminal l w) ->
  exists o x, convertWhole std ltr fuel (prog :: l) terminal (MkIn text false) = (o, ([], x)) /\ converts ltr terminal l text o x /\ x <> Exit 1.
Proof.
  intros std ltr fuel prog l terminal text L F T Bl Bt N.
  pose proof (C119_program ltr fuel prog l terminal text L F T Bl Bt) as (_ & H). cbv zeta in H.
  destruct (C123_same std ltr fuel (prog :: l) terminal (MkIn text false)) as [S1 S2]. rewrite <- S1, <- S2 in H.
  destruct (convertWhole std ltr fuel (prog :: l) terminal (MkIn text false)) as [o [e x]] eqn:W. cbn [fst snd] in H.
  assert (G : exists t, (o <~ readProgramT fuel (argsOf (prog :: l)) ;; planT terminal o) = Got t).
  { rewrite read_programT by assumption. destruct (o <~ readListT l noProg ;; planT terminal o) as [t|e' w'| |] eqn:E; [eauto| | |].
    - exfalso. exact (N w' (proj2 (says_refusal _ _ _ _ E))).
    - exfalso. apply (f_equal ErrBase.plain) in E. rewrite plain_bind, (readList_plain (List.length l) l noProg (le_n _)) in E. cbn [ErrBase.plain] in E.
      assert (Q : (o <- readList l noProg;; plan terminal o) = Ub) by (rewrite <- E; destruct (readList l noProg); try reflexivity; cbn [obind]; symmetry; apply plan_plain).
      destruct (planned terminal l) as [(t & C)|K]; [rewrite (command_plan _ _ _ C) in Q; discriminate Q|congruence].
    - exfalso. apply (f_equal ErrBase.plain) in E. rewrite plain_bind, (readList_plain (List.length l) l noProg (le_n _)) in E. cbn [ErrBase.plain] in E.
      assert (Q : (o <- readList l noProg;; plan terminal o) = Fuel) by (rewrite <- E; destruct (readList l noProg); try reflexivity; cbn [obind]; symmetry; apply plan_plain).
      destruct (planned terminal l) as [(t & C)|K]; [rewrite (command_plan _ _ _ C) in Q; discriminate Q|congruence]. }
  destruct G as (t & G).
  assert (X1 : x <> Exit 1).
  { intros ->. inversion H as [NC| | | | |]; subst.
    apply (f_equal ErrBase.plain) in G. rewrite plain_bind, readProgram_plain in G. cbn [ErrBase.plain] in G.
    assert (Q : (o <- readProgram fuel (argsOf (prog :: l)) ;; plan terminal o) = Val t)
      by (rewrite <- G; destruct (readProgram fuel (argsOf (prog :: l))); try reflexivity; cbn [obind]; symmetry; apply plan_plain).
    rewrite read_program in Q by assumption. destruct (planned terminal l) as [(t' & C)|K]; [exact (NC t' C)|congruence]. }
  exists o, x. split; [|split; assumption]. f_equal. unfold convertWhole in W. destruct (match mainArgsT (prog :: l) with Got a => _ | _ => _ end) as [o' r].
  destruct r as [v|ee ww| |]; cbn [caught] in W; congruence.
Qed.
Print Assumptions C123_quiet.
(** more arguments than fit 16 bits *)
Theorem C123_too_many : forall std ltr fuel l terminal i, 65535 < len l -> exists d, written d (len l)
  /\ convertWhole std ltr fuel l terminal i = ([], (b_ "argc " ++ d ++ b_ " is greater than 65535" ++ [10], Exit 1)).
Proof.
  intros std ltr fuel l terminal i H. destruct (too_manyT l H) as (d & W & E). exists d. split; [exact W|]. unfold convertWhole. rewrite E.
  cbn [failT caught]. rewrite <- !app_assoc. reflexivity.
Qed.
Print Assumptions C123_too_many.
(** arguments are refused with one message only *)
Theorem C123_one_message : forall terminal l w w', refusal terminal l w -> refusal terminal l w' -> w = w'.
Proof. intros terminal l w w' H H'. apply refusal_says in H, H'. rewrite H in H'. exact (proj2 (says_eq _ _ _ _ _ H')). Qed.
Print Assumptions C123_one_message.

(** * kanjiFormat *)
Lemma lval : forall A B (a : A) (k : A -> LoadLogModel.L B), LoadLogModel.lbind (LoadLogModel.llift (Val a)) k = k a.
Proof. intros A B a k. unfold LoadLogModel.llift, LoadLogModel.lbind. destruct (k a). reflexivity. Qed.
Theorem C123_format_same : forall std fs writable l,
  fst (formatWhole std fs writable l) = outputText (fst (formatMain fs writable l))
  /\ snd (snd (formatWhole std fs writable l)) = ended (snd (formatMain fs writable l)).
Proof.
  intros std fs writable l. unfold formatWhole, formatMain.
  assert (E : ErrBase.plain (mainArgsT l) = mainArgs l) by apply newArgsInt_plain. rewrite <- E.
  destruct (mainArgsT l) as [a|e w| |]; [|split; reflexivity|split; reflexivity|split; reflexivity].
  cbn [ErrBase.plain]. rewrite !lval. unfold formatT. destruct (argc a <? 2); [split; reflexivity|].
  rewrite <- argAt_plain. destruct (argAtT a 1) as [f|e w| |]; [|split; reflexivity|split; reflexivity|split; reflexivity].
  cbn [ErrBase.plain]. rewrite !lval. destruct (isRegular fs f); [|split; reflexivity].
  destruct (FormatModel.format _) as [t|e| |]; cbn; [rewrite app_nil_r| | |]; split; reflexivity.
Qed.
Print Assumptions C123_format_same.
(** without a file to format nothing is written to std::cout, one line says why, and the exit code is 1 *)
Theorem C123_format_refused : forall std fs writable p l, len (p :: l) <= 65535 ->
  match l with
  | [] => formatWhole std fs writable (p :: l) = ([], (b_ "specify a file to format" ++ [10], Exit 1))
  | a :: _ => (forall c, ~ is_file fs a c) -> formatWhole std fs writable (p :: l) = ([], (b_ "file not found: " ++ a ++ [10], Exit 1))
  end.
Proof.
  intros std fs writable p l H. unfold formatWhole. destruct l as [|a l].
  - rewrite main_argsT by exact H. reflexivity.
  - intro N. rewrite main_argsT by exact H. unfold formatT. replace (argc (argsOf (p :: a :: l)) <? 2) with false by (cbn [argsOf argc]; rewrite !len_cons; lia).
    rewrite (argAtT_spec (p :: a :: l) 1 a eq_refl). destruct (isRegular fs a) eqn:E; [apply (proj1 (DirPaths.regular_file fs a)) in E; contradiction (N _ E)|].
    cbn [caught]. rewrite <- app_assoc. reflexivity.
Qed.
Print Assumptions C123_format_refused.
(** a file is formatted without a word on std::cerr *)
Theorem C123_format_quiet : forall std fs writable p a rest c, files_bytes fs -> is_file fs a c -> len (p :: a :: rest) <= 65535 ->
  snd (formatWhole std fs writable (p :: a :: rest)) = ([], Exit 0).
Proof.
  intros std fs writable p a rest c B F L. destruct (C123_format_same std fs writable (p :: a :: rest)) as [_ S2].
  assert (X : ended (snd (formatMain fs writable (p :: a :: rest))) = Exit 0).
  { destruct (writable a) eqn:W.
    - pose proof (proj2 (ListProofs.cut_getlines 10 c _) eq_refl) as C. remember (ColumnFileModel.getlines 10 c) as ls. destruct (C118_formatted fs writable p a rest c ls B F W C L) as (ps & left & _ & E). rewrite E. reflexivity.
    - exact (proj2 (C118_read_only_refuted fs writable p a rest c F W L)). }
  rewrite X in S2. unfold formatWhole in *. destruct (match mainArgsT (p :: a :: rest) with Got a0 => _ | _ => _ end) as [t [v|e w| |]]; cbn in *; congruence.
Qed.
Print Assumptions C123_format_quiet.

Example C123_example :
  refusal true [b_ "-k"; b_ "-i"; b_ "-n"] (b_ "can only specify one of -i, -m, -n, or -p")
  /\ refusal true [b_ "-f"; b_ "x"] (b_ "illegal option for -f: x")
  /\ (forall w, ~ refusal false [b_ "-k"; b_ "ka"] w)
  /\ convertWhole (fun _ => []) true 50 [b_ "kanaConvert"; b_ "-k"; b_ "ka"] false (MkIn [] false) = (b_ "カ
", ([], Exit 0))
  /\ convertWhole (fun _ => []) true 50 [b_ "kanaConvert"; b_ "-q"] false (MkIn [] false) = ([], (b_ "illegal option: -q
", Exit 1))
  /\ convertWhole (fun _ => []) true 50 [b_ "kanaConvert"] true (MkIn [] false) = ([], (b_ "provide one or more 'strings' or '-i' for interactive mode
", Exit 1)).
Proof.
  split; [|split; [|split; [|vm_compute; auto]]].
  - apply (rf_two_modes true [ITarget Katakana; IMode MInteractive] [b_ "-k"; b_ "-i"] (b_ "-n") []); [|reflexivity|cbn [In]; auto].
    apply (sp_cons _ [b_ "-k"]); [constructor; constructor|]. apply (sp_cons _ [b_ "-i"]); constructor.
  - apply (rf_flag true [] [] (b_ "x") []); [constructor|cbn; lia|]. intros c n H X. injection X as <-. inversion H.
  - intros w H. apply refusal_says in H. vm_compute in H. discriminate H.
Qed.
