(** C128: the messages about groups. *)
From Verif Require Import BaseFacts QuizSample ColumnFileProofs ColumnFileLemmas GroupProofs GroupLoadProofs QuizDataGroups QuizDataDir ErrTableProofs ErrJukugoLoad.
From Verif Require Import DirProps DirPaths LoadLogTrace ErrArgsProps ErrGroupProofs.
From Verif Require Import ErrBase.
Open Scope N_scope.

(** The functions with texts are those of the other models: they give the same groups and throw the same exceptions. *)
Lemma load_l_snd : forall R A t (mk : list bytes -> R) (load : list R -> L A) (load' : list R -> out A),
  (forall rows ended, t = Val (rows, ended) -> snd (load (map mk rows)) = load' (map mk rows)) -> snd (loadFromL t mk load) = loadFrom t mk load'.
Proof.
  intros R A t mk load load' H. unfold loadFromL, loadFrom. rewrite lbind_snd. destruct t as [[rows ended]|e| |]; try reflexivity. cbn [llift snd obind].
  rewrite lbind_snd, (H rows ended eq_refl). destruct (load' (map mk rows)); try reflexivity. cbn [obind]. destruct ended; reflexivity.
Qed.
Theorem C128_same :
  (forall number name l p, plain (createGroupT number name l p) = createGroup number name l p)
  /\ (forall find t file k r, plain (rowGroupT find t file k r) = rowGroup find t r)
  /\ forall fs writable reg, (forall p c, is_file fs p c -> bytes_ok c) -> (forall n, known (reg n)) -> forall mode f dir d,
       snd (newGroupData fs writable reg mode f dir d)
       = obind (plain (newGroupDataT (findMember d) fs writable reg dir))
           (fun gd => if isDebug mode then obind (reportGroups (isFull mode) f d gd) (fun x => Val (gd, snd x)) else Val (gd, f)).
Proof.
  split; [exact create_plain|]. split; [exact row_plain|]. intros fs writable reg Hfs Hreg mode f dir d.
  assert (Ne : GroupColumns <> []) by discriminate.
  assert (Nd : NoDup GroupColumns) by (exact (proj2 three_columns)).
  unfold newGroupData, newGroupDataT. rewrite lbind_snd, plain_bind.
  rewrite (load_l_snd _ _ _ _ _ (fun rows => loadMeaning (findMember d) rows [] [])) by (intros; apply meaning_erase).
  rewrite (tableLoadT_plain (meaningBody (findMember d)) groupRow (fun rows a => loadMeaning (findMember d) rows (fst a) (snd a))); try assumption; [|intros []; reflexivity| |apply Hreg].
  2:{ intros r rs [m l] name k row <-. cbn [loadMeaning fst snd]. unfold meaningBody. rewrite plain_bind, row_plain.
      destruct (rowGroup (findMember d) MeaningType (groupRow row)); reflexivity. }
  cbn [fst snd].
  destruct (loadFrom (fileRows fs writable reg dir (b_ "meaning-groups") GroupColumns) groupRow (fun rows => loadMeaning (findMember d) rows [] [])) as [[mm ml]|e| |]; try reflexivity.
  cbn [obind]. rewrite lbind_snd, plain_bind.
  rewrite (load_l_snd _ _ _ _ _ (fun rows => loadPattern (findMember d) rows [] [])).
  2:{ intros rows ended E. apply pattern_erase. apply rows_bytes in E; try assumption; [|apply Hreg]. unfold rows_ok. apply Forall_map. clear - E.
      induction E as [|row rows H E IH]; constructor; [|exact IH]. unfold groupRow. cbn [grName]. rewrite Forall_forall in H. unfold field.
      destruct row as [|x [|y row]]; cbn [nth]; try constructor. apply H. cbn. auto. }
  rewrite (tableLoadT_plain (patternBody (findMember d)) groupRow (fun rows a => loadPattern (findMember d) rows (fst a) (snd a))); try assumption; [|intros []; reflexivity| |apply Hreg].
  2:{ intros r rs [m l] name k row <-. cbn [loadPattern fst snd]. unfold patternBody. rewrite plain_bind, row_plain.
      destruct (rowGroup (findMember d) PatternGroupType (groupRow row)); reflexivity. }
  cbn [fst snd].
  destruct (loadFrom (fileRows fs writable reg dir (b_ "pattern-groups") GroupColumns) groupRow (fun rows => loadPattern (findMember d) rows [] [])) as [[pm pl]|e| |]; try reflexivity.
  cbn [obind plain]. destruct (isDebug mode); [|reflexivity]. rewrite lbind_snd. cbn [llift snd].
  destruct (reportGroups (isFull mode) f d (MkGroupData mm ml pm pl)) as [[t f']|e| |]; try reflexivity.
Qed.
Print Assumptions C128_same.

(** A group is made if it has two to 58 members without repetitions; otherwise the message names the group and says what is wrong with its members. *)
Theorem C128_group : forall number name l p,
  (forall w, createGroupT number name l p = Says DomainError w <-> exists why, members_wrong l why /\ in_group number name why w)
  /\ ((exists g, createGroupT number name l p = Got g) <-> 2 <= len l <= 58 /\ NoDup (map qName l)).
Proof.
  intros number name l p.
  assert (Y : forall why w, members_wrong l why -> in_group number name why w -> createGroupT number name l p = Says DomainError w) by (intros; eapply create_wrong; eassumption).
  assert (G : proper_members l -> exists g, createGroupT number name l p = Got g).
  { intro P. pose proof (create_plain number name l p) as X. destruct (GroupFacts.check_iff l) as [[_ Ck]|[Nc _]]; [|contradiction]. unfold createGroup, meaningGroup, patternGroup in X. rewrite Ck in X.
    destruct (createGroupT number name l p) as [g|e w| |]; [eauto|destruct p; discriminate X..]. }
  assert (T : forall why, exists w, in_group number name why w) by (intro why; eexists; exists (to_string number); split; [apply to_string_written|reflexivity]).
  destruct (check_total l) as [P|[why W]].
  - destruct (G P) as [g Eg]. split; [|split; [intros _; exact P|intros _; eauto]]. intro w. split; [congruence|]. intros (why & W & In). rewrite (Y why w W In) in Eg. discriminate Eg.
  - destruct (T why) as [w0 W0]. pose proof (Y why w0 W W0) as E. split; [|split].
    + intro w. split; [|intros (why' & W1 & W2); exact (Y why' w W1 W2)]. intro H. exists why. split; [exact W|]. rewrite E in H. injection H as <-. exact W0.
    + intros [g Eg]. congruence.
    + intro P. destruct (G P) as [g Eg]. congruence.
Qed.
Print Assumptions C128_group.
(** The repeated members of a message are the names that are in the list twice or more often, each once and in the order of their first places. *)
Fixpoint bef (m n : bytes) (l : list bytes) : bool := match l with [] => false | x :: r => if beq m x then true else if beq n x then false else bef m n r end.
Lemma bef_iff : forall m n l, m <> n -> (bef m n l = true <-> exists a b, l = a ++ m :: b /\ ~ In n a).
Proof.
  intros m n l Ne. induction l as [|x l IH]; cbn [bef]; [split; [discriminate|intros (a & b & E & _); destruct a; discriminate E]|]. destruct (beq m x) eqn:Em.
  - apply beq_eq in Em. subst x. split; [|reflexivity]. intros _. exists [], l. split; [reflexivity|intros []].
  - apply beq_neq in Em. destruct (beq n x) eqn:En.
    + apply beq_eq in En. subst x. split; [discriminate|]. intros (a & b & E & No). destruct a as [|y a]; injection E as E1 E2; [congruence|]. exfalso. apply No. left. congruence.
    + apply beq_neq in En. rewrite IH. split.
      * intros (a & b & -> & No). exists (x :: a), b. split; [reflexivity|]. intros [H|H]; [congruence|contradiction].
      * intros (a & b & E & No). destruct a as [|y a]; injection E as E1 E2; [congruence|]. exists a, b. split; [exact E2|]. intro H. apply No. right. exact H.
Qed.
Lemma bef_filter : forall p m n l, p m = true -> p n = true -> bef m n (filter p l) = bef m n l.
Proof.
  intros p m n l Pm Pn. induction l as [|x l IH]; [reflexivity|]. cbn [filter bef]. destruct (p x) eqn:Px; cbn [bef]; [rewrite IH; reflexivity|].
  destruct (beq m x) eqn:Em; [apply beq_eq in Em; congruence|]. destruct (beq n x) eqn:En; [apply beq_eq in En; congruence|]. exact IH.
Qed.
Lemma bef_firsts : forall m n l, bef m n (firsts l) = bef m n l.
Proof.
  intros m n l. induction l as [|x l IH]; [reflexivity|]. cbn [firsts bef]. destruct (beq m x) eqn:Em; [reflexivity|]. destruct (beq n x) eqn:En; [reflexivity|].
  rewrite bef_filter, IH; [reflexivity| |]; rewrite Bool.negb_true_iff; apply beq_neq; apply beq_neq in Em; apply beq_neq in En; congruence.
Qed.
Theorem C128_repeated : forall l, NoDup (repeated l) /\ (forall n, In n (repeated l) <-> 2 <= times n l)
  /\ forall m n, In m (repeated l) -> In n (repeated l) -> m <> n ->
     ((exists a b c, repeated l = a ++ m :: b ++ n :: c) <-> exists a b, l = a ++ m :: b /\ ~ In n a).
Proof.
  intro l. assert (I : forall n, In n (repeated l) <-> 2 <= times n l).
  { intro n. unfold repeated. rewrite filter_In, firsts_in, N.leb_le. split; [tauto|]. intro H. split; [apply times_in; lia|exact H]. }
  assert (Nd : NoDup (repeated l)) by (apply NoDup_filter, firsts_nodup). split; [exact Nd|]. split; [exact I|]. intros m n Im Jn Ne.
  rewrite <- bef_iff, <- bef_firsts by exact Ne. rewrite <- (bef_filter (fun n => 2 <=? times n l)) by (apply N.leb_le; apply I; assumption).
  fold (repeated l). rewrite bef_iff by exact Ne. split.
  - intros (a & b & c & E). exists a, (b ++ n :: c). split; [exact E|]. rewrite E in Nd. intro H.
    change (a ++ m :: b ++ n :: c) with (a ++ (m :: b) ++ n :: c) in Nd. rewrite app_assoc in Nd. apply NoDup_remove_2 in Nd. apply Nd. rewrite !in_app_iff. auto.
  - intros (a & b & E & No). rewrite E in Jn. apply in_app_iff in Jn. destruct Jn as [H|[H|H]]; [contradiction|congruence|]. apply in_split in H. destruct H as (b1 & c & ->). eauto.
Qed.
Print Assumptions C128_repeated.

Section Files.
Variable fs : bytes -> option CountModel.node.
Variable writable : bytes -> bool.
Variable reg : bytes -> registry.
Hypothesis Hfs : forall p c, is_file fs p c -> bytes_ok c.
Hypothesis Hreg : forall n, known (reg n).
Variable find : bytes -> option QKanji.
Lemma groups_message : forall dir e w, newGroupDataT find fs writable reg dir = Says e w <-> groups_say find fs writable dir e w.
Proof.
  intros dir e w. destruct (groups_cases find fs writable reg Hfs Hreg dir) as [(gd & E & _ & _ & No)|(e0 & w0 & E & S1 & Un & _)].
  - split; [congruence|]. intro H. destruct (No _ _ H).
  - split; [intro H; rewrite E in H; injection H as <- <-; exact S1|]. intro H. destruct (Un _ _ H) as [-> ->]. exact E.
Qed.
Lemma groups_ends : forall dir,
  (exists gd, newGroupDataT find fs writable reg dir = Got gd /\ table_groups find fs writable MeaningType dir (b_ "meaning-groups") (meaningGroups gd)
     /\ table_groups find fs writable PatternGroupType dir (b_ "pattern-groups") (patternGroups gd))
  \/ exists e w, newGroupDataT find fs writable reg dir = Says e w.
Proof. intro dir. destruct (groups_cases find fs writable reg Hfs Hreg dir) as [(gd & E & A & B & _)|(e0 & w0 & E & _)]; [left; eauto|right; eauto]. Qed.
End Files.
(** Loading the groups of a data directory throws exactly the message of the first fault: of the first table that has one, and in that table of the first row that has one. *)
Theorem C128_message : forall fs writable reg, (forall p c, is_file fs p c -> bytes_ok c) -> (forall n, known (reg n)) -> forall find dir e w,
  newGroupDataT find fs writable reg dir = Says e w <-> groups_say find fs writable dir e w.
Proof. exact groups_message. Qed.
Print Assumptions C128_message.
(** There is either one message or all groups of the two tables. *)
Theorem C128_loaded_or_message : forall fs writable reg, (forall p c, is_file fs p c -> bytes_ok c) -> (forall n, known (reg n)) -> forall find dir,
  (exists gd, newGroupDataT find fs writable reg dir = Got gd /\ table_groups find fs writable MeaningType dir (b_ "meaning-groups") (meaningGroups gd)
     /\ table_groups find fs writable PatternGroupType dir (b_ "pattern-groups") (patternGroups gd) /\ forall e w, ~ groups_say find fs writable dir e w)
  \/ exists e w, newGroupDataT find fs writable reg dir = Says e w /\ groups_say find fs writable dir e w
       /\ (forall e' w', groups_say find fs writable dir e' w' -> e' = e /\ w' = w)
       /\ ~ exists ms ps, table_groups find fs writable MeaningType dir (b_ "meaning-groups") ms /\ table_groups find fs writable PatternGroupType dir (b_ "pattern-groups") ps.
Proof. intros fs writable reg A B find. exact (groups_cases find fs writable reg A B). Qed.
Print Assumptions C128_loaded_or_message.

(** two tables, of which one is wrong *)
Definition groupFs (meaning pattern : bytes) (p : bytes) : option CountModel.node :=
  MapModel.mfind p [(b_ "/d", CountModel.Dir []); (b_ "/d/meaning-groups.txt", CountModel.File meaning); (b_ "/d/pattern-groups.txt", CountModel.File pattern)].
Definition small (c : bytes) : bool := forallb (fun b => b <? 256) c.
Lemma groupFs_ok : forall m q, small m = true -> small q = true -> forall p c, is_file (groupFs m q) p c -> bytes_ok c.
Proof.
  intros m q A B p c (n & Hn & S1). apply MapProofs.In_mfind in Hn. apply resolve_seen in S1.
  assert (K : forall c, small c = true -> bytes_ok c) by (intros x X; apply Forall_forall; intros b I; unfold small in X; rewrite forallb_forall in X; apply N.ltb_lt; exact (X b I)).
  repeat (destruct Hn as [Hn|Hn]; [injection Hn as _ <-; cbn in S1; first [discriminate S1|injection S1 as <-; apply K; assumption]|]). destruct Hn.
Qed.
Definition head : bytes := b_ "Number" ++ [9] ++ b_ "Name" ++ [9] ++ b_ "Members" ++ [10].
Definition row3 (a b c : bytes) : bytes := a ++ [9] ++ b ++ [9] ++ c ++ [10].
Definition known_ones (n : bytes) : option QKanji :=
  if existsb (beq n) [b_ "東"; b_ "西"; b_ "南"; b_ "北"] then Some (MkQ (sample n 1 2) [] []) else None.
Definition all_writable (_ : bytes) : bool := true.
Example C128_case :
  let says m q w := groups_say known_ones (groupFs m q) all_writable (b_ "/d") DomainError w in
  let one := head ++ row3 (b_ "1") (b_ "方向") (b_ "北,西") in
  says (head ++ row3 (b_ "1") (b_ "方向") (b_ "北,西,北")) head (b_ "group [1 方向] has 1 duplicate member: 北 - file: meaning-groups.txt, row: 1")
  /\ says one (head ++ row3 (b_ "01") (b_ "西、東") (b_ "北,西,西,北,北,東")) (b_ "group [1 西、東] has 2 duplicate members: 北 西 - file: pattern-groups.txt, row: 1")
  /\ says one (head ++ row3 (b_ "3") (b_ "北：ホク") (b_ "西") ++ row3 (b_ "4") (b_ "西：セイ") []) (b_ "group [4 西：セイ] has only one member - file: pattern-groups.txt, row: 2")
  /\ says (head ++ row3 (b_ "x1") (b_ "方向") (b_ "北,東")) head
       (b_ "failed to convert to unsigned number - file: meaning-groups.txt, row: 1, column: 'Number', value: 'x1' - file: meaning-groups.txt, row: 1")
  /\ says (head ++ row3 (b_ "1") (b_ "方向") (b_ "北,中")) head (b_ "group failed to load all members - file: meaning-groups.txt, row: 1")
  /\ says (head ++ row3 (b_ "1") (b_ "2") (b_ "北,中")) head (b_ "group name must be all MB characters - file: meaning-groups.txt, row: 1").
Proof.
  intros says one.
  assert (K : forall m q w, small m = true -> small q = true -> newGroupDataT known_ones (groupFs m q) all_writable (fun _ => []) (b_ "/d") = Says DomainError w -> says m q w).
  { intros m q w A B H. apply (C128_message _ all_writable _ (groupFs_ok m q A B) (fun _ => none_known)) in H. exact H. }
  split; [apply K; vm_compute; reflexivity|]. split; [apply K; vm_compute; reflexivity|]. split; [apply K; vm_compute; reflexivity|].
  split; [apply K; vm_compute; reflexivity|]. split; [apply K; vm_compute; reflexivity|]. apply K; vm_compute; reflexivity.
Qed.
Example C128_loaded_case : exists gd,
  newGroupDataT known_ones (groupFs (head ++ row3 (b_ "1") (b_ "方向") (b_ "北,西")) (head ++ row3 (b_ "3") (b_ "北：ホク") (b_ "西"))) all_writable (fun _ => []) (b_ "/d") = Got gd
  /\ map gName (meaningGroups gd) = [b_ "方向"] /\ map (fun g => map qName (gMembers g)) (patternGroups gd) = [[b_ "北"; b_ "西"]].
Proof. eexists. split; [vm_compute; reflexivity|split; vm_compute; reflexivity]. Qed.
Example C128_group_case : exists w, createGroupT 7 (b_ "数") [q1; q2; q1; q3; q2; q2] NoPattern = Says DomainError w /\ w = b_ "group [7 数] has 2 duplicate members: 一 二"
  /\ repeated (map qName [q1; q2; q1; q3; q2; q2]) = [b_ "一"; b_ "二"].
Proof. eexists. split; [vm_compute; reflexivity|split; vm_compute; reflexivity]. Qed.
