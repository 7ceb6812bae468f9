(** Lemmas about the programs: the arguments and the files. *)
From Verif Require Import BaseFacts ArgsProofs ArgsProps ColumnFileLemmas LoadModel LoadSpec LoadAttr LoadLogModel LoadLogTrace LoadLogProps UcdSpec GroupLoadProofs
  ListProofs RowsSpec DirModel DirSpec DirPaths DirProofs QuizDataModel QuizDataSpec QuizDataGroups QuizDataDir MainModel MainSpec.
Open Scope N_scope.

(** ** The arguments *)
Lemma first_split : forall (x : bytes) l, In x l -> exists before after, l = before ++ x :: after /\ ~ In x before.
Proof.
  intros x. induction l as [|y l IH]; intros H; [destruct H|]. destruct (beq y x) eqn:E.
  - apply beq_eq in E. subst. exists [], l. split; [reflexivity|intros []].
  - assert (Q : y <> x) by (intros ->; rewrite beq_refl in E; discriminate). destruct H as [H|H]; [congruence|].
    destruct (IH H) as (a & b & -> & K). exists (y :: a), b. split; [reflexivity|]. intros [X|X]; [congruence|exact (K X)].
Qed.
Lemma in_bytes_dec : forall (x : bytes) l, {In x l} + {~ In x l}.
Proof.
  intros x l. apply in_dec. intros a b. destruct (beq a b) eqn:E; [left; apply beq_eq; exact E|right]. intros ->. rewrite beq_refl in E. discriminate.
Qed.
Lemma first_unique : forall (x : bytes) a b a' b', a ++ x :: b = a' ++ x :: b' -> ~ In x a -> ~ In x a' -> a = a' /\ b = b'.
Proof.
  intros x. induction a as [|y a IH]; intros b [|z a'] b' E H H'; cbn [app] in E.
  - injection E as E. auto.
  - injection E as E1 E2. subst. exfalso. apply H'. left. reflexivity.
  - injection E as E1 E2. subst. exfalso. apply H. left. reflexivity.
  - injection E as E1 E2. subst. destruct (IH _ _ _ E2) as [-> ->]; [intros X; apply H; right; exact X|intros X; apply H'; right; exact X|]. auto.
Qed.

Section Dir.
Variable fs : bytes -> option CountModel.node.
Hypothesis Hnames : names_ok fs.
Lemma data_dir_dec : forall d, {data_dir fs d} + {~ data_dir fs d}.
Proof.
  intros d. destruct (isDirectory fs d && isValidDataDir fs d) eqn:E; [left; apply valid_dir; assumption|right]. intros H. apply valid_dir in H; [|exact Hnames].
  congruence.
Qed.
Lemma uses_cases : forall cs root ps prog l, plain cs -> plain (ps ++ [prog]) ->
  (exists d, getDataDir fs (path true cs) (args_of (path root (ps ++ [prog]) :: l)) = Val d /\ uses fs cs root ps l d)
  \/ (getDataDir fs (path true cs) (args_of (path root (ps ++ [prog]) :: l)) = Throw DomainError /\ forall d, ~ uses fs cs root ps l d).
Proof.
  intros cs root ps prog l P Pp. destruct (in_bytes_dec (b_ "-data") l) as [I|I].
  - destruct (first_split _ _ I) as (a & b & -> & N). destruct (data_option fs Hnames (path true cs) (path root (ps ++ [prog])) a b N) as [A B].
    destruct b as [|d rest]; [|destruct (data_dir_dec d) as [D|D]].
    + right. split; [apply B; intros d rest E; discriminate E|]. intros d [(a' & r' & E & N' & _)|[X _]]; [|exact (X I)].
      apply first_unique in E; [|assumption|assumption]. destruct E as [_ E]. discriminate E.
    + left. exists d. split; [apply (A d rest eq_refl D)|]. left. exists a, rest. auto.
    + right. split; [apply B; intros d' r' E; injection E as <- <-; exact D|]. intros d' [(a' & r' & E & N' & D')|[X _]]; [|exact (X I)].
      apply first_unique in E; [|assumption|assumption]. destruct E as [_ E]. injection E as -> ->. exact (D D').
  - destruct (search_dir fs Hnames cs true P) as [(q & E & Nq)|(E & Nq)].
    + left. exists q. split; [exact (search_current fs Hnames cs _ l P I q Nq)|]. right. auto.
    + destruct (search_program fs Hnames cs root ps prog l P Pp I Nq) as [A B].
      destruct (isDirectory fs (path root ps)) eqn:D.
      * apply directory in D. destruct (search_dir fs Hnames (removelast ps) root) as [(q & E2 & N2)|(E2 & N2)].
        { apply plain_removelast. exact (proj1 (plain_snoc _ _ Pp)). }
        { left. exists q. split; [exact (A q D N2)|]. right. auto. }
        right. split; [apply B; auto|]. intros d [(a & r & -> & _)|[_ [X|(_ & _ & X)]]]; [apply I; apply in_or_app; right; left; reflexivity|exact (Nq d X)|exact (N2 d X)].
      * assert (D' : ~ is_dir fs (path root ps)) by (intros X; apply directory in X; congruence). right. split; [apply B; auto|].
        intros d [(a & r & -> & _)|[_ [X|(_ & X & _)]]]; [apply I; apply in_or_app; right; left; reflexivity|exact (Nq d X)|exact (D' X)].
Qed.
Lemma uses_fun : forall cs root ps l d d', uses fs cs root ps l d -> uses fs cs root ps l d' -> d = d'.
Proof.
  intros cs root ps l d d' H H'.
  assert (K : forall a r d, l = a ++ b_ "-data" :: d :: r -> In (b_ "-data") l) by (intros a r x ->; apply in_or_app; right; left; reflexivity).
  destruct H as [(a & r & E & N1 & _)|[I H]], H' as [(a' & r' & E' & N1' & _)|[I' H']].
  - subst l. apply first_unique in E'; [|assumption|assumption]. destruct E' as [_ E']. congruence.
  - exfalso. eauto.
  - exfalso. eauto.
  - destruct H as [H|(H0 & _ & H)], H' as [H'|(H0' & _ & H')].
    + eapply nearest_fun; eassumption.
    + exfalso. exact (H0' _ H).
    + exfalso. exact (H0 _ H').
    + eapply nearest_fun; eassumption.
Qed.
Lemma uses_iff : forall cs root ps prog l d, plain cs -> plain (ps ++ [prog]) ->
  (getDataDir fs (path true cs) (args_of (path root (ps ++ [prog]) :: l)) = Val d <-> uses fs cs root ps l d).
Proof.
  intros cs root ps prog l d P Pp. destruct (uses_cases cs root ps prog l P Pp) as [(q & E & U)|[E U]]; rewrite E; split; intros H.
  - injection H as <-. exact U.
  - f_equal. eapply uses_fun; eassumption.
  - discriminate H.
  - destruct (U d H).
Qed.
End Dir.

Lemma no_mode_filter : forall l, no_mode l <-> filter is_mode l = [].
Proof.
  intros l. unfold no_mode. induction l as [|a l IH]; cbn [filter In]; [tauto|]. unfold is_mode at 1.
  destruct (beq a (b_ "-debug")) eqn:E1; cbn [orb].
  { apply beq_eq in E1. subst. split; [intros [X _]; destruct X; auto|intros X; discriminate X]. }
  destruct (beq a (b_ "-info")) eqn:E2.
  { apply beq_eq in E2. subst. split; [intros [_ X]; destruct X; auto|intros X; discriminate X]. }
  assert (A : a <> b_ "-debug") by (intros ->; rewrite beq_refl in E1; discriminate).
  assert (B : a <> b_ "-info") by (intros ->; rewrite beq_refl in E2; discriminate). tauto.
Qed.
Lemma filter_one : forall (p : bytes -> bool) l m, filter p l = [m] -> exists a b, l = a ++ m :: b /\ filter p (a ++ b) = [].
Proof.
  intros p. induction l as [|x l IH]; intros m H; [discriminate H|]. cbn [filter] in H. destruct (p x) eqn:E.
  - injection H as -> H. exists [], l. auto.
  - destruct (IH m H) as (a & b & -> & K). exists (x :: a), b. split; [reflexivity|]. cbn [app filter]. rewrite E. exact K.
Qed.
Lemma mode_cases : forall p l,
  (exists m, getDebugMode (args_of (p :: l)) = Val m /\ mode_of l (reportMode m))
  \/ (getDebugMode (args_of (p :: l)) = Throw DomainError /\ forall m, ~ mode_of l m).
Proof.
  intros p l. unfold args_of. rewrite C57_debug_mode. destruct (filter is_mode l) as [|m [|m' r]] eqn:F.
  - left. exists NoDebug. split; [reflexivity|]. constructor. apply no_mode_filter. exact F.
  - left. assert (I : In m (filter is_mode l)) by (rewrite F; left; reflexivity). apply filter_In in I. destruct I as [_ I]. unfold is_mode in I.
    destruct (filter_one _ _ _ F) as (a & b & -> & K). apply no_mode_filter in K. destruct (beq m (b_ "-debug")) eqn:E.
    + exists Full. split; [reflexivity|]. apply beq_eq in E. subst m. eapply mode_full; [reflexivity|exact K].
    + exists Info. split; [reflexivity|]. apply beq_eq in I. subst m. eapply mode_info; [reflexivity|exact K].
  - right. split; [reflexivity|]. intros x [H|a b -> H|a b -> H]; apply no_mode_filter in H.
    + congruence.
    + rewrite filter_app in F. cbn [filter] in F. rewrite filter_app in H. apply app_eq_nil in H. destruct H as [H1 H2]. rewrite H1, H2 in F. discriminate F.
    + rewrite filter_app in F. cbn [filter] in F. rewrite filter_app in H. apply app_eq_nil in H. destruct H as [H1 H2]. rewrite H1, H2 in F. discriminate F.
Qed.
Lemma mode_fun : forall l m m', mode_of l m -> mode_of l m' -> m = m'.
Proof.
  intros l m m' H H'.
  assert (K : forall x, mode_of l x -> filter is_mode l = match x with DebugNone => [] | DebugFull => [b_ "-debug"] | DebugInfo => [b_ "-info"] end).
  { intros x [A|a b -> A|a b -> A]; apply no_mode_filter in A; [exact A|..]; rewrite filter_app in *; cbn [filter]; apply app_eq_nil in A; destruct A as [A1 A2];
      rewrite A1, A2; reflexivity. }
  pose proof (K _ H) as E. rewrite (K _ H') in E. destruct m, m'; try reflexivity; discriminate E.
Qed.

(** ** The bytes of the files *)
Lemma join_bytes : forall c l, bytes_ok (join c l) -> Forall bytes_ok l.
Proof.
  intros c. induction l as [|x l IH]; intros H; [constructor|]. destruct l as [|y l]; [constructor; [exact H|constructor]|].
  change (join c (x :: y :: l)) with (x ++ c :: join c (y :: l)) in H. apply Forall_app in H. destruct H as [H1 H2].
  constructor; [exact H1|]. inversion H2; subst. apply IH. assumption.
Qed.
Lemma cut_bytes : forall c s l, cut c s l -> bytes_ok s -> Forall bytes_ok l.
Proof. intros c s l H B. apply ListProofs.cut_getlines in H. subst l. apply ListProofs.getlines_generic_ok; [exact B|constructor]. Qed.
Lemma row_bytes_ok : forall headers names line row, line_row headers names line row -> bytes_ok line -> Forall bytes_ok row.
Proof.
  intros headers names line row (fs & vals & (_ & _ & ->) & Q & _ & F) B. apply join_bytes in B.
  assert (V : Forall bytes_ok vals) by (destruct Q as [->| ->]; [exact B|apply Forall_app in B; apply B]).
  clear -F V. induction F as [|n v names row (p & _ & P) F IH]; constructor; [|exact IH]. rewrite Forall_forall in V. apply V. eapply nth_error_In. exact P.
Qed.
Lemma table_bytes : forall names c rows, RowsSpec.table names c rows -> bytes_ok c -> Forall (Forall bytes_ok) rows.
Proof.
  intros names c rows (hl & lines & headers & C & _ & F) B. apply cut_bytes in C; [|exact B]. inversion C as [|? ? _ C']; subst. clear -F C'.
  induction F as [|l r ls rs H F IH]; [constructor|]. inversion C'; subst. constructor; [eapply row_bytes_ok; eassumption|apply IH; assumption].
Qed.
Section Bytes.
Variable fs : bytes -> option CountModel.node.
Variable writable : bytes -> bool.
Hypothesis Hbytes : files_bytes fs.
Lemma opened_bytes : forall p q c, opened_for fs p q c -> bytes_ok c.
Proof. intros p q c [[_ H]|(_ & _ & H)]; exact (Hbytes _ _ H). Qed.
Lemma text_bytes : forall p c, text_at fs p c -> bytes_ok c.
Proof. intros p c (q & H). eapply opened_bytes. exact H. Qed.
Lemma records_bytes : forall R dir name (cols : list (bytes * (R -> bytes))) rs, table_in fs writable dir name cols rs ->
  Forall (fun r => Forall (fun c => bytes_ok (snd c r)) cols) rs.
Proof.
  intros R dir name cols rs (p & q & c & _ & O & _ & T). apply opened_bytes in O. unfold records in T. apply table_bytes in T; [|exact O]. clear -T.
  induction rs as [|r rs IH]; [constructor|]. inversion T as [|? ? H1 H2]; subst. constructor; [|apply IH; exact H2]. clear -H1.
  induction cols as [|c cols IH]; [constructor|]. inversion H1; subst. constructor; [assumption|apply IH; assumption].
Qed.
Lemma lists_bytes : forall A dir sub (names files : list (A * bytes)), lists_in fs dir sub names files ->
  map fst files = map fst names /\ Forall (fun p => bytes_ok (snd p)) files.
Proof.
  intros A dir sub names files (d & _ & F). induction F as [|n f ns fs' (E & p & _ & T) F [IH1 IH2]]; [split; [reflexivity|constructor]|].
  split; [cbn [map]; rewrite IH1, E; reflexivity|]. constructor; [eapply text_bytes; exact T|exact IH2].
Qed.
(** the hypotheses of the theorems about loading hold of a directory *)
Theorem dir_ok : forall dir f, dir_files fs writable dir f -> files_ok f /\ Forall row_bytes (ucdRows f).
Proof.
  intros dir f (_ & L & K & (p & _ & T) & U & _). apply lists_bytes in L, K. destruct L as [L1 L2], K as [K1 K2]. apply text_bytes in T. apply records_bytes in U.
  split; [split; [rewrite L1; reflexivity|split; [rewrite K1; reflexivity|auto]]|].
  eapply Forall_impl; [|exact U]. intros r H. unfold ucd_columns in H. rewrite Forall_forall in H. split.
  - apply (H (b_ "Name", rName)). right. left. reflexivity.
  - apply (H (b_ "LinkNames", rLinkNames)). repeat (try (left; reflexivity); right).
Qed.
Theorem groups_ok : forall dir mr pr, groups_in fs writable dir mr pr -> rows_ok mr /\ rows_ok pr.
Proof.
  intros dir mr pr (_ & M & P). apply records_bytes in M, P.
  split; (eapply Forall_impl; [|eassumption]); intros r H; rewrite Forall_forall in H; apply (H (b_ "Name", grName)); right; left; reflexivity.
Qed.
End Bytes.
