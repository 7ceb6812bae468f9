(** Facts about the messages about the data directory. *)
From Verif Require Import BaseFacts ArgsSpec ArgsProofs DirModel DirSpec DirPaths DirProofs ErrArgsProofs ErrDirModel ErrDirSpec.
From Verif Require ErrConvertProofs.
Open Scope N_scope.
Arguments N.mul : simpl never. Arguments N.add : simpl never. Arguments N.sub : simpl never.

Section Dir.
Variable fs : bytes -> option CountModel.node.

(** ** The same as without texts *)
Lemma dataArg_plain : forall n a i, ErrBase.plain (dataArgT fs n a i) = dataArg fs n a i.
Proof.
  induction n as [|n IH]; intros a i; [reflexivity|]. cbn [dataArgT dataArg]. rewrite plain_bind, argAt_plain.
  destruct (argAt a i) as [s|e| |]; [|reflexivity|reflexivity|reflexivity]. cbn [obind]. destruct (beq s DataArg); [|apply IH].
  destruct (i + 1 =? argc a); [reflexivity|]. rewrite plain_bind, argAt_plain. destruct (argAt a (i + 1)) as [d|e| |]; [|reflexivity|reflexivity|reflexivity].
  cbn [obind]. destruct (negb (isDirectory fs d)); [reflexivity|]. destruct (negb (isValidDataDir fs d)); reflexivity.
Qed.
Lemma search_plain : forall p, ErrBase.plain (searchT fs p) = searchUpForDataDir fs p.
Proof. intro p. unfold searchT. destruct (searchUpForDataDir fs p); reflexivity. Qed.
Lemma getDataDir_plain : forall cwd a, ErrBase.plain (getDataDirT fs cwd a) = getDataDir fs cwd a.
Proof.
  intros cwd a. unfold getDataDirT, getDataDir. rewrite plain_bind, dataArg_plain. destruct (dataArg fs _ a 1) as [[d|]|e| |]; try reflexivity.
  cbn [obind]. rewrite plain_bind, search_plain. destruct (searchUpForDataDir fs cwd) as [[d|]|e| |]; try reflexivity.
  cbn [obind]. rewrite plain_bind. destruct (argc a =? 0); [reflexivity|]. rewrite plain_bind, argAt_plain. destruct (argAt a 0) as [s|e| |]; try reflexivity.
  cbn [obind]. cbv zeta. destruct (isDirectory fs (parentPath s)); [|reflexivity]. rewrite plain_bind, search_plain.
  destruct (searchUpForDataDir fs (parentPath (parentPath s))) as [[d|]|e| |]; reflexivity.
Qed.

Lemma searchT_val : forall p x, searchUpForDataDir fs p = Val x -> searchT fs p = Got x.
Proof. intros p x H. unfold searchT. rewrite H. reflexivity. Qed.
Lemma argAtT_list : forall l i s, nth_error l (N.to_nat i) = Some s -> argAtT (args_of l) i = Got s.
Proof. intros l i s H. apply plain_val. rewrite argAt_plain. apply argAt_list. exact H. Qed.
Lemma data_argT_some : forall before after n pre, ~ In DataArg before -> n = List.length (before ++ DataArg :: after) ->
  dataArgT fs n (args_of (pre ++ before ++ DataArg :: after)) (len pre) =
  match after with
  | [] => Says DomainError (b_ "'-data' must be followed by a directory name")
  | d :: _ => if negb (isDirectory fs d) then Says DomainError (b_ "'" ++ d ++ b_ "' is not a valid directory")
              else if negb (isValidDataDir fs d) then Says DomainError (b_ "'" ++ d ++ b_ "' does not contain " ++ ExpectedTextFiles)
              else Got (Some d)
  end.
Proof.
  induction before as [|x l IH]; intros after n pre H ->; cbn [List.length dataArgT app].
  - rewrite (argAtT_list _ _ DataArg) by (unfold len; rewrite Nat2N.id, nth_error_app2, Nat.sub_diag by lia; reflexivity).
    cbn [rbind]. rewrite (proj2 (beq_eq DataArg DataArg) eq_refl). cbn [args_of argc].
    unfold len at 2. rewrite app_length. cbn [List.length]. unfold len. destruct after as [|d after].
    + cbn [List.length]. replace (N.of_nat (List.length pre) + 1 =? N.of_nat (List.length pre + 1)) with true by lia. reflexivity.
    + cbn [List.length]. replace (N.of_nat (List.length pre) + 1 =? N.of_nat (List.length pre + S (S (List.length after)))) with false by lia.
      rewrite (argAtT_list _ _ d); [reflexivity|]. replace (N.to_nat (N.of_nat (List.length pre) + 1)) with (List.length pre + 1)%nat by lia.
      rewrite nth_error_app2 by lia. replace (List.length pre + 1 - List.length pre)%nat with 1%nat by lia. reflexivity.
  - rewrite (argAtT_list _ _ x) by (unfold len; rewrite Nat2N.id, nth_error_app2, Nat.sub_diag by lia; reflexivity).
    cbn [rbind]. destruct (beq x DataArg) eqn:E; [apply beq_eq in E; exfalso; apply H; left; exact E|].
    replace (pre ++ x :: l ++ DataArg :: after) with ((pre ++ [x]) ++ l ++ DataArg :: after) by (rewrite <- app_assoc; reflexivity).
    replace (len pre + 1) with (len (pre ++ [x])) by (unfold len; rewrite app_length; cbn [List.length]; lia).
    apply IH; [intros I; apply H; right; exact I|reflexivity].
Qed.
Hypothesis names : names_ok fs.
Lemma first_data : forall l, In (b_ "-data") l -> exists before after, l = before ++ b_ "-data" :: after /\ ~ In (b_ "-data") before.
Proof.
  induction l as [|x l IH]; intro I; [destruct I|]. destruct (beq x (b_ "-data")) eqn:E.
  - apply beq_eq in E. subst. exists [], l. split; [reflexivity|intros []].
  - destruct I as [->|I]; [rewrite beq_refl in E; discriminate E|]. destruct (IH I) as (b & a & -> & N). exists (x :: b), a. split; [reflexivity|].
    intros [->|J]; [rewrite beq_refl in E; discriminate E|exact (N J)].
Qed.
Lemma dir_outcome : forall cs root ps prog l, plain cs -> plain (ps ++ [prog]) ->
  (exists d, getDataDirT fs (path true cs) (args_of (path root (ps ++ [prog]) :: l)) = Got d)
  \/ exists w, getDataDirT fs (path true cs) (args_of (path root (ps ++ [prog]) :: l)) = Says DomainError w /\ dir_says fs cs root ps prog l w.
Proof.
  intros cs root ps prog l P Pp. unfold getDataDirT. rewrite args_count. set (p := path root (ps ++ [prog])).
  destruct (in_dec bytes_eq_dec (b_ "-data") l) as [I|I].
  - destruct (first_data l I) as (before & after & -> & N).
    pose proof (data_argT_some before after _ [p] N eq_refl) as E. change (len [p]) with 1 in E. cbn [app] in E.
    unfold DataArg in E. rewrite E. clear E. destruct after as [|d rest]; [right; eexists; split; [reflexivity|apply (ds_last _ _ _ _ _ _ before); [reflexivity|exact N]]|].
    destruct (isDirectory fs d) eqn:D; cbn [negb].
    + destruct (isValidDataDir fs d) eqn:V; cbn [negb]; [left; eexists; reflexivity|]. right. eexists. split; [reflexivity|].
      apply (ds_not_data _ _ _ _ _ _ before d rest); [reflexivity|exact N|apply directory; exact D|]. intro K. apply valid_dir in K; [|exact names]. rewrite D, V in K. discriminate K.
    + right. eexists. split; [reflexivity|]. apply (ds_no_dir _ _ _ _ _ _ before d rest); [reflexivity|exact N|]. intro K. apply directory in K. congruence.
  - assert (E : dataArgT fs (List.length l) (args_of (p :: l)) 1 = Got None).
    { apply plain_val. rewrite dataArg_plain. pose proof (data_arg_none fs l _ [p] I eq_refl) as E. exact E. }
    rewrite E. cbn [rbind]. destruct (plain_snoc _ _ Pp) as (Pps & Hp1 & Hp2).
    destruct (search_dir fs names cs true P) as [(q & E1 & Nq)|(E1 & Nc)]; rewrite (searchT_val _ _ E1); cbn [rbind]; [left; eexists; reflexivity|].
    replace (argc (args_of (p :: l)) =? 0) with false by (cbn [args_of argc]; rewrite len_cons; lia).
    rewrite (argAtT_list (p :: l) 0 p eq_refl). cbn [rbind]. cbv zeta. assert (PP : parentPath p = path root ps) by (apply parent_path; assumption). rewrite !PP, !parent_of by assumption.
    destruct (isDirectory fs (path root ps)) eqn:D.
    + destruct (search_dir fs names (removelast ps) root (plain_removelast ps Pps)) as [(q & E2 & Nq)|(E2 & Nq)]; rewrite (searchT_val _ _ E2); cbn [rbind]; [left; eexists; reflexivity|].
      right. eexists. split; [reflexivity|]. apply directory in D. apply (ds_both fs cs root ps prog l I Nc D Nq).
    + right. eexists. split; [reflexivity|]. apply ds_current; [exact I|exact Nc|]. intro K. apply directory in K. congruence.
Qed.
Lemma dir_says_throws : forall cs root ps prog l w, plain cs -> plain (ps ++ [prog]) -> dir_says fs cs root ps prog l w ->
  getDataDirT fs (path true cs) (args_of (path root (ps ++ [prog]) :: l)) = Says DomainError w.
Proof.
  intros cs root ps prog l w P Pp H. set (p := path root (ps ++ [prog])). destruct (plain_snoc _ _ Pp) as (Pps & Hp1 & Hp2).
  assert (K : forall before after, l = before ++ b_ "-data" :: after -> ~ In (b_ "-data") before ->
    dataArgT fs (List.length l) (args_of (p :: l)) 1 = match after with
      | [] => Says DomainError (b_ "'-data' must be followed by a directory name")
      | d :: _ => if negb (isDirectory fs d) then Says DomainError (b_ "'" ++ d ++ b_ "' is not a valid directory")
                  else if negb (isValidDataDir fs d) then Says DomainError (b_ "'" ++ d ++ b_ "' does not contain " ++ ExpectedTextFiles)
                  else Got (Some d) end).
  { intros before after -> N. exact (data_argT_some before after _ [p] N eq_refl). }
  assert (E : ~ In (b_ "-data") l -> dataArgT fs (List.length l) (args_of (p :: l)) 1 = Got None).
  { intro I. apply plain_val. rewrite dataArg_plain. exact (data_arg_none fs l _ [p] I eq_refl). }
  unfold getDataDirT. rewrite args_count. destruct H as [before L N|before d rest L N D|before d rest L N D V|I Nc D|I Nc D Nq].
  - rewrite (K _ _ L N). reflexivity.
  - rewrite (K _ _ L N). destruct (isDirectory fs d) eqn:X; [apply directory in X; contradiction|]. reflexivity.
  - rewrite (K _ _ L N). apply directory in D. rewrite D. cbn [negb].
    destruct (isValidDataDir fs d) eqn:X; [|reflexivity]. exfalso. apply V. apply valid_dir; [exact names|]. rewrite D, X. reflexivity.
  - rewrite (E I). cbn [rbind]. destruct (search_dir fs names cs true P) as [(q & E1 & Nq)|(E1 & _)]; [contradiction (Nc q Nq)|].
    rewrite (searchT_val _ _ E1). cbn [rbind]. replace (argc (args_of (p :: l)) =? 0) with false by (cbn [args_of argc]; rewrite len_cons; lia).
    rewrite (argAtT_list (p :: l) 0 p eq_refl). cbn [rbind]. cbv zeta. assert (PP : parentPath p = path root ps) by (apply parent_path; assumption). rewrite !PP.
    destruct (isDirectory fs (path root ps)) eqn:X; [apply directory in X; contradiction|]. reflexivity.
  - rewrite (E I). cbn [rbind]. destruct (search_dir fs names cs true P) as [(q & E1 & Nq')|(E1 & _)]; [contradiction (Nc q Nq')|].
    rewrite (searchT_val _ _ E1). cbn [rbind]. replace (argc (args_of (p :: l)) =? 0) with false by (cbn [args_of argc]; rewrite len_cons; lia).
    rewrite (argAtT_list (p :: l) 0 p eq_refl). cbn [rbind]. cbv zeta. assert (PP : parentPath p = path root ps) by (apply parent_path; assumption). rewrite !PP, !parent_of by assumption.
    apply directory in D. rewrite D. destruct (search_dir fs names (removelast ps) root (plain_removelast ps Pps)) as [(q & E2 & Nq')|(E2 & _)]; [contradiction (Nq q Nq')|]. rewrite (searchT_val _ _ E2). reflexivity.
Qed.
End Dir.
