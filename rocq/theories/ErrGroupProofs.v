(** Proofs about the messages about groups. *)
From Verif Require Import BaseFacts ColumnFileProofs ColumnFileLemmas GroupProofs GroupLoadProofs QuizDataGroups ErrTableProofs ErrTableRows ErrArgsProps ErrJukugoLoad.
From Verif Require Export ErrRowsProofs ErrGroupSpec.
From Verif Require Import ErrBase.
Open Scope N_scope.
Arguments N.add : simpl never.

(** ** repeated names *)
Lemma in_names : forall n l, existsb (beq n) l = true <-> In n l.
Proof. intros n l. rewrite existsb_exists. split; [intros (x & I & E); apply beq_eq in E; subst; exact I|intro I; exists n; split; [exact I|apply beq_refl]]. Qed.
Lemma firsts_in : forall l n, In n (firsts l) <-> In n l.
Proof.
  induction l as [|x l IH]; intro n; [reflexivity|]. cbn [firsts In]. rewrite filter_In, IH. destruct (beq x n) eqn:E; cbn [negb].
  - apply beq_eq in E. subst. tauto.
  - intuition.
Qed.
Lemma firsts_nodup : forall l, NoDup (firsts l).
Proof.
  induction l as [|x l IH]; [constructor|]. cbn [firsts]. constructor; [|apply NoDup_filter; exact IH]. rewrite filter_In, beq_refl. cbn. intros [_ H]. discriminate H.
Qed.
Lemma times_cons : forall n x l, times n (x :: l) = (if beq n x then 1 else 0) + times n l.
Proof. intros n x l. unfold times. cbn [filter]. destruct (beq n x); [rewrite len_cons|]; lia. Qed.
Lemma times_in : forall n l, 1 <= times n l <-> In n l.
Proof.
  intros n l. induction l as [|x l IH]; [unfold times; cbn; split; [lia|tauto]|]. rewrite times_cons. cbn [In]. destruct (beq n x) eqn:E.
  - apply beq_eq in E. subst. split; [auto|lia].
  - rewrite N.add_0_l, IH. split; [auto|]. intros [->|H]; [rewrite beq_refl in E; discriminate E|exact H].
Qed.
Lemma dup_in : forall l seen dups n, In n (dupNames seen dups l) <-> In n dups \/ (In n seen /\ 1 <= times n (map qName l)) \/ 2 <= times n (map qName l).
Proof.
  induction l as [|k l IH]; intros seen dups n; [cbn [dupNames map]; unfold times; cbn; split; [auto|intros [H|[[_ H]|H]]; [exact H|lia|lia]]|].
  cbn [dupNames map]. rewrite times_cons. destruct (existsb (beq (qName k)) seen) eqn:E.
  - apply in_names in E. rewrite IH. destruct (beq n (qName k)) eqn:B.
    + apply beq_eq in B. subst n. assert (X : In (qName k) (if existsb (beq (qName k)) dups then dups else qName k :: dups)) by (destruct (existsb (beq (qName k)) dups) eqn:D; [apply in_names; exact D|left; reflexivity]).
      split; [intros _; right; left; split; [exact E|lia]|auto].
    + rewrite N.add_0_l. assert (X : In n (if existsb (beq (qName k)) dups then dups else qName k :: dups) <-> In n dups).
      { destruct (existsb (beq (qName k)) dups); [reflexivity|]. cbn [In]. split; [intros [H|H]; [subst n; rewrite beq_refl in B; discriminate B|exact H]|auto]. }
      rewrite X. reflexivity.
  - assert (E' : ~ In (qName k) seen) by (intro H; apply in_names in H; congruence). rewrite IH. cbn [In]. destruct (beq n (qName k)) eqn:B.
    + apply beq_eq in B. subst n. split; [|intros [H|[[H _]|H]]; [auto|contradiction|]].
      * intros [H|[[_ H]|H]]; [auto|right; right; lia|right; right; lia].
      * right. left. split; [auto|lia].
    + rewrite N.add_0_l. split; [intros [H|[[[H|H] H1]|H]]; [auto|subst n; rewrite beq_refl in B; discriminate B|auto|auto]|intros [H|[[H H1]|H]]; auto].
Qed.
Lemma dup_nodup : forall l seen dups, NoDup dups -> NoDup (dupNames seen dups l).
Proof.
  induction l as [|k l IH]; intros seen dups H; [exact H|]. cbn [dupNames]. destruct (existsb (beq (qName k)) seen); [|apply IH; exact H]. apply IH.
  destruct (existsb (beq (qName k)) dups) eqn:E; [exact H|]. constructor; [|exact H]. intro I. apply in_names in I. congruence.
Qed.
Lemma dup_text : forall l dups, dupText dups l = flat_map (fun n => b_ " " ++ n) (filter (fun n => existsb (beq n) dups) (firsts (map qName l))).
Proof.
  induction l as [|k l IH]; intro dups; [reflexivity|]. cbn [dupText map firsts filter].
  assert (K : forall D m, filter (fun n => existsb (beq n) (filter (fun d => negb (beq (qName k) d)) D)) m = filter (fun n => existsb (beq n) D) (filter (fun n => negb (beq (qName k) n)) m)).
  { intros D m. induction m as [|x m IHm]; [reflexivity|]. cbn [filter]. destruct (beq (qName k) x) eqn:E; cbn [negb filter].
    - apply beq_eq in E. subst x. destruct (existsb _ _) eqn:X; [|exact IHm]. exfalso. apply in_names in X. apply filter_In in X. destruct X as [_ X]. rewrite beq_refl in X. discriminate X.
    - replace (existsb (beq x) (filter (fun d => negb (beq (qName k) d)) D)) with (existsb (beq x) D); [rewrite IHm; reflexivity|].
      apply Bool.eq_iff_eq_true. rewrite !in_names, filter_In, E. cbn. tauto. }
  destruct (existsb (beq (qName k)) dups) eqn:E.
  - cbn [flat_map]. rewrite IH, K, <- app_assoc. reflexivity.
  - rewrite IH. f_equal. clear K IH. induction (firsts (map qName l)) as [|x m IHm]; [reflexivity|]. cbn [filter].
    destruct (beq (qName k) x) eqn:B; cbn [negb filter]; [|rewrite IHm; reflexivity]. apply beq_eq in B. subst x. rewrite E. exact IHm.
Qed.
Lemma dup_repeated : forall l, Permutation (dupNames [] [] l) (repeated (map qName l)) /\ dupText (dupNames [] [] l) l = flat_map (fun n => b_ " " ++ n) (repeated (map qName l)).
Proof.
  intro l. assert (I : forall n, In n (dupNames [] [] l) <-> 2 <= times n (map qName l)) by (intro n; rewrite dup_in; cbn [In]; tauto). split.
  - apply NoDup_Permutation; [apply dup_nodup; constructor|apply NoDup_filter, firsts_nodup|]. intro n. rewrite I. unfold repeated. rewrite filter_In, firsts_in, N.leb_le.
    split; [|tauto]. intro H. split; [apply times_in; lia|exact H].
  - rewrite dup_text. f_equal. unfold repeated. apply filter_ext. intro n. apply Bool.eq_iff_eq_true. rewrite in_names, I, N.leb_le. reflexivity.
Qed.

(** ** the constructor *)
Lemma dup_cons : forall l seen d ds, dupNames seen (d :: ds) l <> [].
Proof. induction l as [|k l IH]; intros seen d ds; cbn [dupNames]; [discriminate|]. destruct (existsb (beq (qName k)) seen); [destruct (existsb (beq (qName k)) (d :: ds))|]; apply IH. Qed.
Lemma dup_has : forall l seen, dupNames seen [] l = [] <-> hasDuplicate seen l = false.
Proof.
  induction l as [|k l IH]; intro seen; [split; reflexivity|]. cbn [dupNames hasDuplicate]. destruct (existsb (beq (qName k)) seen); cbn [orb existsb]; [|apply IH].
  split; [intro H; exfalso; exact (dup_cons _ _ _ _ H)|discriminate].
Qed.
Lemma check_plain : forall number name l, plain (checkMembersT number name l) = checkMembers l.
Proof.
  intros number name l. unfold checkMembersT, checkMembers. destruct (len l =? 0); [reflexivity|]. destruct (len l =? 1); [reflexivity|]. destruct (MaxGroupSize <? len l); [reflexivity|].
  destruct (hasDuplicate [] l) eqn:E.
  - destruct (dupNames [] [] l) eqn:D; [apply dup_has in D; congruence|reflexivity].
  - apply dup_has in E. rewrite E. reflexivity.
Qed.
Lemma create_plain : forall number name l p, plain (createGroupT number name l p) = createGroup number name l p.
Proof.
  intros number name l p. unfold createGroupT, createGroup, meaningGroupT, meaningGroup, patternGroupT, patternGroup.
  destruct p; rewrite plain_bind, check_plain; destruct (checkMembers l); reflexivity.
Qed.
Lemma check_wrong : forall number name l why w, members_wrong l why -> in_group number name why w -> checkMembersT number name l = Says DomainError w.
Proof.
  intros number name l why w H (d & Wd & ->). apply number_of in Wd. subst d.
  assert (M : forall why : bytes, @groupErrorT unit number name why = Says DomainError (b_ "group [" ++ to_string number ++ b_ " " ++ name ++ b_ "] has " ++ why)).
  { intro x. unfold groupErrorT. f_equal. rewrite <- !app_assoc. reflexivity. }
  unfold checkMembersT. destruct H as [->|k ->|L|n L R|d m n ns L R W].
  - apply M.
  - apply M.
  - replace (len l =? 0) with false by lia. replace (len l =? 1) with false by lia. unfold MaxGroupSize. replace (58 <? len l) with true by lia. rewrite M. reflexivity.
  - replace (len l =? 0) with false by lia. replace (len l =? 1) with false by lia. unfold MaxGroupSize. replace (58 <? len l) with false by lia.
    destruct (dup_repeated l) as [P T]. rewrite R in P, T. pose proof (Permutation_length P) as Ln. destruct (dupNames [] [] l) as [|x [|y ds]]; try discriminate Ln.
    rewrite T, M. do 5 f_equal. cbn [flat_map]. rewrite app_nil_r. change (len [x]) with 1. reflexivity.
  - replace (len l =? 0) with false by lia. replace (len l =? 1) with false by lia. unfold MaxGroupSize. replace (58 <? len l) with false by lia.
    destruct (dup_repeated l) as [P T]. rewrite R in P, T. pose proof (Permutation_length P) as Ln. apply number_of in W. subst d.
    assert (Le : len (dupNames [] [] l) = len (m :: n :: ns)) by (unfold len; rewrite Ln; reflexivity).
    destruct (dupNames [] [] l) as [|x ds]; [discriminate Ln|]. rewrite T, M, Le. replace (1 <? len (m :: n :: ns)) with true by (rewrite !len_cons; lia). reflexivity.
Qed.
Lemma check_total : forall l, proper_members l \/ exists why, members_wrong l why.
Proof.
  intro l. destruct l as [|k [|k' r]]; [right; eexists; apply mw_none; reflexivity|right; eexists; apply (mw_one _ k); reflexivity|].
  remember (k :: k' :: r) as l eqn:E. assert (L2 : 2 <= len l) by (subst l; rewrite !len_cons; lia). clear E.
  destruct (58 <? len l) eqn:L; [right; eexists; apply mw_many; lia|]. assert (L3 : 2 <= len l <= 58) by lia.
  destruct (repeated (map qName l)) as [|m [|n ns]] eqn:R.
  - left. split; [exact L3|]. rewrite (NoDup_count_occ bytes_eq_dec). intro x.
    assert (T : forall m, N.of_nat (count_occ bytes_eq_dec m x) = times x m).
    { induction m as [|y m IH]; [reflexivity|]. rewrite times_cons, <- IH. cbn [count_occ]. destruct (bytes_eq_dec y x) as [->|N]; [rewrite beq_refl; lia|].
      destruct (beq x y) eqn:B; [apply beq_eq in B; congruence|lia]. }
    specialize (T (map qName l)). destruct (2 <=? times x (map qName l)) eqn:X; [|lia]. exfalso.
    assert (I : In x (repeated (map qName l))); [|rewrite R in I; exact I]. apply filter_In. rewrite X. split; [apply firsts_in, times_in; lia|reflexivity].
  - right. eexists. exact (mw_twice l m L3 R).
  - right. eexists. exact (mw_several l _ m n ns L3 R (to_string_written _)).
Qed.
Lemma create_wrong : forall number name l p why w, members_wrong l why -> in_group number name why w -> createGroupT number name l p = Says DomainError w.
Proof. intros number name l p why w H W. unfold createGroupT, meaningGroupT, patternGroupT. rewrite (check_wrong number name l why w H W). destruct p; reflexivity. Qed.

(** ** a row *)
Section Groups.
Variable findMember : bytes -> option QKanji.
Notation rowGroupT := (rowGroupT findMember).
Lemma row_plain : forall t file k r, plain (rowGroupT t file k r) = rowGroup findMember t r.
Proof.
  intros t file k r. unfold ErrGroupModel.rowGroupT, rowGroup. destruct (beq (grName r) []); [reflexivity|]. destruct (isAnySingleByte (grName r)); [reflexivity|].
  destruct (endsWithComma (grMembers r)); [reflexivity|]. rewrite plain_bind. unfold namesT. destruct (getKanjiNames t (grName r) (grMembers r)) as [[p names]|e| |]; try reflexivity.
  cbn [plain obind]. destruct (findMembers findMember names) as [ms|]; [|reflexivity]. rewrite <- (u64_plain file k (grNumber r) NumberColumn 65535).
  destruct (processU64E file k (grNumber r) NumberColumn 65535) as [n|e w| |]; try reflexivity. cbn [rbind plain obind]. rewrite <- create_plain.
  destruct (createGroupT n (grName r) ms p); reflexivity.
Qed.
Section Row.
Variables (t : GroupType) (file : bytes) (k : N) (r : GroupRow).
Hypothesis Hk : k <> 0.
Hypothesis Hb : bytes_ok (grName r).
Lemma row_text : forall A m, @tableError A file k m = Says DomainError (m ++ in_row file k).
Proof. intros A m. unfold tableError, errorMsg, in_row, in_file. replace (k =? 0) with false by lia. rewrite <- !app_assoc. reflexivity. Qed.
Lemma not_single : forall s : bytes, ~ Forall (fun b => 128 <= b) s -> isAnySingleByte s = true.
Proof. intros s H. destruct (isAnySingleByte s) eqn:E; [reflexivity|]. apply any_single_false in E. contradiction. Qed.
Lemma ends_with_comma : forall s, endsWithComma (s ++ b_ ",") = true.
Proof. intro s. unfold endsWithComma. rewrite rev_app_distr. reflexivity. Qed.
Lemma number_column : forall why, number_wrong 65535 (grNumber r) why ->
  processU64E file k (grNumber r) NumberColumn 65535 = Says DomainError (why ++ in_row file k ++ in_column (b_ "Number") (grNumber r)).
Proof.
  intros why H. unfold processU64E.
  assert (M : forall m, @valueError N file k m NumberColumn (grNumber r) = Says DomainError (m ++ in_row file k ++ in_column (b_ "Number") (grNumber r))).
  { intro m. unfold valueError, errorMsg, in_row, in_file, in_column, quoted. replace (k =? 0) with false by lia. cbn [cname NumberColumn]. rewrite <- !app_assoc. reflexivity. }
  destruct H as [H|v H _ L].
  - destruct (stoul (grNumber r)) as [i|e| |] eqn:S; [exfalso; apply stoul_iff in S; exact (H _ S)|apply M| |].
    + exfalso. pose proof (number_u16 (grNumber r)) as X. unfold processU64 in X. rewrite S in X. destruct X as [(n & X & _)|[X _]]; discriminate X.
    + exfalso. pose proof (number_u16 (grNumber r)) as X. unfold processU64 in X. rewrite S in X. destruct X as [(n & X & _)|[X _]]; discriminate X.
  - apply stoul_iff in H. rewrite H. replace (65535 <? v) with true by lia. cbn [negb N.eqb andb]. rewrite M. reflexivity.
Qed.
Lemma listed_names : forall names, listed t r names -> exists p, namesT t (grName r) (grMembers r) = Got (p, names).
Proof.
  intros names (p & P & M). destruct (names_cases t (grName r) (grMembers r) Hb) as (p' & names' & K & P' & M'). pose proof (pattern_fun _ _ _ _ P P'). subst p'.
  pose proof (names_fun _ _ _ _ _ Hb M M'). subst names'. exists p. unfold namesT. rewrite K. reflexivity.
Qed.
Lemma group_says_row : forall w, group_says findMember t r (in_row file k) w -> rowGroupT t file k r = Says DomainError w.
Proof.
  intros w H. unfold ErrGroupModel.rowGroupT.
  assert (Rd : readable_row r -> beq (grName r) [] = false /\ isAnySingleByte (grName r) = false /\ endsWithComma (grMembers r) = false) by (apply readable_iff).
  destruct H as [E|N E|s N E C|names n Re Li I Fn|names ks why Re Li F W|names ks v why w Re Li F V L W G].
  - rewrite E. apply row_text.
  - replace (beq (grName r) []) with false by (symmetry; apply beq_neq; exact N). rewrite (not_single _ E). apply row_text.
  - replace (beq (grName r) []) with false by (symmetry; apply beq_neq; exact N). apply any_single_false in E. rewrite E, C, ends_with_comma. apply row_text.
  - destruct (Rd Re) as (-> & -> & ->). destruct (listed_names names Li) as [p ->]. cbn [rbind].
    destruct (findMembers findMember names) as [ms|] eqn:X; [|apply row_text]. exfalso. apply find_members_iff in X. clear - X I Fn.
    induction X as [|m q names ms Y X IH]; [destruct I|]. destruct I as [->|I]; [congruence|auto].
  - destruct (Rd Re) as (-> & -> & ->). destruct (listed_names names Li) as [p ->]. cbn [rbind]. apply find_members_iff in F. rewrite F, (number_column why W). cbn [rbind].
    rewrite row_text. f_equal. rewrite <- !app_assoc. reflexivity.
  - destruct (Rd Re) as (-> & -> & ->). destruct (listed_names names Li) as [p ->]. cbn [rbind]. apply find_members_iff in F. rewrite F. unfold processU64E.
    apply stoul_iff in V. rewrite V. replace (65535 <? v) with false by lia. rewrite Bool.andb_false_r. cbn [rbind]. rewrite (create_wrong v (grName r) ks p why w W G). apply row_text.
Qed.
Lemma group_of_row : forall g, group_of findMember t r g -> rowGroupT t file k r = Got g.
Proof.
  intros g G. destruct (row_cases findMember t r Hb) as [(h & E & H)|[_ X]]; [|destruct (X g G)]. rewrite (group_fun findMember t r g h Hb G H).
  rewrite <- (row_plain t file k) in E. destruct (rowGroupT t file k r); cbn [plain] in E; try discriminate E. injection E as ->. reflexivity.
Qed.
Lemma row_total : (exists g, group_of findMember t r g) \/ exists w, group_says findMember t r (in_row file k) w.
Proof.
  destruct (row_cases findMember t r Hb) as [(g & _ & G)|[_ No]]; [left; eauto|right].
  destruct (beq (grName r) []) eqn:E1; [apply beq_eq in E1; eexists; apply gs_no_name; exact E1|]. assert (N1 : grName r <> []) by (apply beq_neq; exact E1).
  destruct (isAnySingleByte (grName r)) eqn:E2.
  { eexists. apply gs_ascii; [exact N1|]. intro X. apply any_single_false in X. congruence. }
  destruct (endsWithComma (grMembers r)) eqn:E3.
  { assert (X : exists s, grMembers r = s ++ b_ ",").
    { unfold endsWithComma in E3. destruct (rev (grMembers r)) as [|c l] eqn:R; [discriminate E3|]. apply N.eqb_eq in E3. subst c. exists (rev l).
      rewrite <- (rev_involutive (grMembers r)), R. reflexivity. }
    destruct X as [s X]. eexists. apply (gs_comma findMember t r _ s N1); [apply any_single_false; exact E2|exact X]. }
  assert (Re : readable_row r) by (apply readable_iff; auto).
  destruct (names_cases t (grName r) (grMembers r) Hb) as (p & names & _ & P & M). assert (Li : listed t r names) by (exists p; auto).
  destruct (findMembers findMember names) as [ks|] eqn:F.
  2:{ assert (X : exists n, In n names /\ findMember n = None).
      { clear - F. induction names as [|n names IH]; [discriminate F|]. cbn [findMembers] in F. destruct (findMember n) eqn:E; [|exists n; split; [left; reflexivity|exact E]].
        destruct (findMembers findMember names) eqn:G; [discriminate F|]. destruct (IH eq_refl) as (m & I & H). exists m. split; [right; exact I|exact H]. }
      destruct X as (n & I & H). eexists. exact (gs_missing findMember t r _ names n Re Li I H). }
  apply find_members_iff in F. destruct (stoul (grNumber r)) as [v|e| |] eqn:S.
  - destruct (65535 <? v) eqn:L.
    + eexists. eapply (gs_number findMember t r _ names ks _ Re Li F). apply (nw_large 65535 _ v); [apply stoul_iff; exact S|discriminate|lia].
    + destruct (check_total ks) as [Pm|[why W]].
      * exfalso. apply (No (MkGroup t v (grName r) ks p)). unfold group_of. cbn [gType gName gNumber gPattern gMembers].
        split; [reflexivity|]. split; [reflexivity|]. split; [split; [apply stoul_iff; exact S|lia]|]. split; [exact P|]. destruct Re as (Re1 & Re2 & Re3).
        split; [split; assumption|]. split; [exact Re3|]. split; [exists names; auto|exact Pm].
      * eexists. eapply (gs_members findMember t r _ names ks v why _ Re Li F); [apply stoul_iff; exact S|lia|exact W|]. exists (to_string v). split; [apply to_string_written|reflexivity].
  - eexists. eapply (gs_number findMember t r _ names ks _ Re Li F). apply nw_not. intros v H. apply stoul_iff in H. congruence.
  - eexists. eapply (gs_number findMember t r _ names ks _ Re Li F). apply nw_not. intros v H. apply stoul_iff in H. congruence.
  - eexists. eapply (gs_number findMember t r _ names ks _ Re Li F). apply nw_not. intros v H. apply stoul_iff in H. congruence.
Qed.
End Row.

(** ** a table *)
Lemma row_three : forall headers line row, line_row headers group_names line row -> fields_are row (groupRow row).
Proof.
  intros headers line row (fs & vals & _ & _ & _ & F). assert (Ln : List.length group_names = List.length row) by (clear - F; induction F; cbn; congruence). clear F. rename Ln into F. unfold fields_are, groupRow, field. cbn [grNumber grName grMembers].
  destruct row as [|a [|b [|c [|d row]]]]; try discriminate F. reflexivity.
Qed.
Lemma fields_groupRow : forall row r, fields_are row r -> r = groupRow row.
Proof. intros row [a b c] ->. reflexivity. Qed.
Section Table.
Context {M : Type}.
Variable t : GroupType.
Variable add : Group -> M -> M.
Definition body_of (file : bytes) (k : N) (l : list bytes) (a : M * list Group) : res (M * list Group) :=
  g <~ rowGroupT t file k (groupRow l) ;; Got (add g (fst a), snd a ++ [g]).
Definition step_of (file : bytes) (k : N) (l : list bytes) (a b : M * list Group) : Prop :=
  exists g, group_of findMember t (groupRow l) g /\ b = (add g (fst a), snd a ++ [g]).
Definition wrong_of (file : bytes) (k : N) (l : list bytes) (a : M * list Group) (e : exn) (w : bytes) : Prop :=
  e = DomainError /\ group_says findMember t (groupRow l) (in_row file k) w.
Lemma second_ok : forall row, Forall bytes_ok row -> bytes_ok (grName (groupRow row)).
Proof. intros row H. cbn [groupRow grName]. unfold field. destruct row as [|a [|b row]]; cbn; [constructor|constructor|]. inversion H as [|? ? _ H2]; subst. inversion H2; assumption. Qed.
Variable fs : bytes -> option CountModel.node.
Variable writable : bytes -> bool.
Variable reg : bytes -> registry.
Hypothesis Hfs : forall p c, is_file fs p c -> bytes_ok c.
Variables (dir file : bytes).
Hypothesis Hreg : known (reg file).
Hypothesis Nf : file <> [].
Hypothesis Ns : no_slash file.
Lemma three_columns : group_names <> [] /\ NoDup group_names.
Proof.
  split; [discriminate|]. unfold group_names. constructor; [|constructor; [|constructor; [|constructor]]].
  - intros [H|[H|[]]]; discriminate H.
  - intros [H|[]]; discriminate H.
  - intros [].
Qed.
Lemma group_table : forall m,
  (forall gs, (exists m', tableLoadT body_of fs writable reg dir file group_names (m, []) = Got (m', gs)) <-> table_groups findMember fs writable t dir file gs)
  /\ (forall e w, tableLoadT body_of fs writable reg dir file group_names (m, []) = Says e w <-> table_group_says findMember fs writable t dir file e w)
  /\ ((exists b, tableLoadT body_of fs writable reg dir file group_names (m, []) = Got b) \/ exists e w, tableLoadT body_of fs writable reg dir file group_names (m, []) = Says e w).
Proof.
  intro m. destruct three_columns as [C1 C2].
  assert (T : forall name k row (a : M * list Group), k <> 0 -> True -> Forall bytes_ok row -> (exists b, step_of name k row a b) \/ exists e w, wrong_of name k row a e w).
  { intros name k row a K _ B. destruct (row_total t name k (groupRow row) K (second_ok row B)) as [[g G]|[w W]].
    - left. eexists. exists g. split; [exact G|reflexivity].
    - right. exists DomainError, w. split; [reflexivity|exact W]. }
  assert (St : forall name k row (a b : M * list Group), k <> 0 -> True -> Forall bytes_ok row -> step_of name k row a b -> body_of name k row a = Got b /\ True).
  { intros name k row a b K _ B (g & G & ->). split; [|exact I]. unfold body_of. rewrite (group_of_row t name k (groupRow row) (second_ok row B) g G). reflexivity. }
  assert (W : forall name k row (a : M * list Group) e w, k <> 0 -> True -> Forall bytes_ok row -> wrong_of name k row a e w -> body_of name k row a = Says e w).
  { intros name k row a e w K _ B [-> G]. unfold body_of. rewrite (group_says_row t name k (groupRow row) K (second_ok row B) w G). reflexivity. }
  destruct (table_exact body_of (fun _ => True) step_of wrong_of T St W fs writable Hfs reg dir file group_names Hreg Nf Ns C1 C2 (m, []) I) as (X1 & X2 & X3).
  assert (V1 : forall headers line name k row (a a' : M * list Group) b, line_row headers group_names line row -> step_of name k row a a' -> snd a = b ->
    exists b', group_step findMember t name k row b b' /\ snd a' = b').
  { intros headers line name k row a a' b Lr (g & G & ->) <-. eexists. split; [|reflexivity]. exists (groupRow row), g. split; [exact (row_three _ _ _ Lr)|]. auto. }
  assert (V2 : forall headers line name k row a a' (b : M * list Group), line_row headers group_names line row -> group_step findMember t name k row a a' -> a = snd b ->
    exists b', step_of name k row b b' /\ a' = snd b').
  { intros headers line name k row a a' b Lr (r & g & F & G & ->) ->. apply fields_groupRow in F. subst r. eexists. split; [exists g; split; [exact G|reflexivity]|reflexivity]. }
  assert (U1 : forall headers line name k row (a : M * list Group) b e w, line_row headers group_names line row -> wrong_of name k row a e w -> snd a = b -> group_fault findMember t name k row b e w).
  { intros headers line name k row a b e w Lr [-> X] _. split; [reflexivity|]. exists (groupRow row). split; [exact (row_three _ _ _ Lr)|exact X]. }
  assert (U2 : forall headers line name k row a (b : M * list Group) e w, line_row headers group_names line row -> group_fault findMember t name k row a e w -> a = snd b -> wrong_of name k row b e w).
  { intros headers line name k row a b e w Lr [-> (r & F & X)] _. apply fields_groupRow in F. subst r. split; [reflexivity|exact X]. }
  split; [|split; [|exact X3]].
  - intro gs. split.
    + intros [m' H]. apply X1 in H. destruct (loads_view _ _ _ (fun a b => snd a = b) V1 _ _ _ _ _ _ [] H eq_refl) as (b' & Y & E). cbn [snd] in E. subst b'. exact Y.
    + intro H. destruct (loads_view _ _ _ (fun a b => a = snd b) V2 _ _ _ _ _ _ (m, []) H eq_refl) as ([m' b'] & Y & E). cbn [snd] in E. subst b'. exists m'. apply X1. exact Y.
  - intros e w. rewrite X2. split.
    + intro H. exact (says_view _ _ _ _ _ (fun a b => snd a = b) V1 U1 _ _ _ _ _ [] _ _ H eq_refl).
    + intro H. exact (says_view _ _ _ _ _ (fun a b => a = snd b) V2 U2 _ _ _ _ _ (m, []) _ _ H eq_refl).
Qed.
End Table.

(** ** both tables *)
Section Files.
Variable fs : bytes -> option CountModel.node.
Variable writable : bytes -> bool.
Variable reg : bytes -> registry.
Hypothesis Hfs : forall p c, is_file fs p c -> bytes_ok c.
Hypothesis Hreg : forall file, known (reg file).
Lemma file_names_ok : (b_ "meaning-groups" <> [] /\ no_slash (b_ "meaning-groups")) /\ b_ "pattern-groups" <> [] /\ no_slash (b_ "pattern-groups").
Proof. split; (split; [discriminate|]); unfold no_slash; intro I; cbn in I; repeat (destruct I as [I|I]; [discriminate I|]); exact I. Qed.
Lemma groups_cases : forall dir,
  (exists gd, newGroupDataT findMember fs writable reg dir = Got gd /\ table_groups findMember fs writable MeaningType dir (b_ "meaning-groups") (meaningGroups gd)
     /\ table_groups findMember fs writable PatternGroupType dir (b_ "pattern-groups") (patternGroups gd) /\ forall e w, ~ groups_say findMember fs writable dir e w)
  \/ exists e w, newGroupDataT findMember fs writable reg dir = Says e w /\ groups_say findMember fs writable dir e w
       /\ (forall e' w', groups_say findMember fs writable dir e' w' -> e' = e /\ w' = w)
       /\ ~ exists ms ps, table_groups findMember fs writable MeaningType dir (b_ "meaning-groups") ms /\ table_groups findMember fs writable PatternGroupType dir (b_ "pattern-groups") ps.
Proof.
  intro dir. destruct file_names_ok as [[A1 A2] [B1 B2]].
  destruct (group_table MeaningType addMeaning fs writable reg Hfs dir (b_ "meaning-groups") (Hreg _) A1 A2 []) as (X1 & X2 & X3).
  destruct (group_table PatternGroupType addPattern fs writable reg Hfs dir (b_ "pattern-groups") (Hreg _) B1 B2 []) as (Y1 & Y2 & Y3).
  unfold newGroupDataT. remember (tableLoadT (meaningBody findMember) fs writable reg dir (b_ "meaning-groups") GroupColumns ([], [])) as tm eqn:Em.
  remember (tableLoadT (patternBody findMember) fs writable reg dir (b_ "pattern-groups") GroupColumns ([], [])) as tp eqn:Ep.
  change (tableLoadT (body_of MeaningType addMeaning) fs writable reg dir (b_ "meaning-groups") group_names ([], [])) with
    (tableLoadT (meaningBody findMember) fs writable reg dir (b_ "meaning-groups") GroupColumns ([], [])) in X1, X2, X3.
  change (tableLoadT (body_of PatternGroupType addPattern) fs writable reg dir (b_ "pattern-groups") group_names ([], [])) with
    (tableLoadT (patternBody findMember) fs writable reg dir (b_ "pattern-groups") GroupColumns ([], [])) in Y1, Y2, Y3.
  rewrite <- Em in X1, X2, X3. rewrite <- Ep in Y1, Y2, Y3. clear Em Ep.
  destruct X3 as [[[mm ml] X3]|(e & w & X3)]; rewrite X3; cbn [rbind].
  - assert (G1 : table_groups findMember fs writable MeaningType dir (b_ "meaning-groups") ml) by (apply X1; eauto).
    assert (N1 : forall e w, ~ table_group_says findMember fs writable MeaningType dir (b_ "meaning-groups") e w) by (intros e w H; apply X2 in H; rewrite X3 in H; discriminate H).
    destruct Y3 as [[[pm pl] Y3]|(e & w & Y3)]; rewrite Y3; cbn [rbind].
    + left. eexists. split; [reflexivity|]. cbn [meaningGroups patternGroups]. split; [exact G1|]. split; [apply Y1; eauto|].
      intros e w H. destruct H as [e w H|gs e w H1 H2]; [exact (N1 _ _ H)|]. apply Y2 in H2. rewrite Y3 in H2. discriminate H2.
    + right. exists e, w. split; [reflexivity|]. split; [apply (gg_pattern _ _ _ _ ml); [exact G1|apply Y2; exact Y3]|]. split.
      * intros e' w' H. destruct H as [e' w' H|gs e' w' H1 H2]; [destruct (N1 _ _ H)|]. apply Y2 in H2. rewrite Y3 in H2. clear - H2. injection H2 as -> ->. auto.
      * intros (ms & ps & _ & H). apply Y1 in H. destruct H as [m' H]. rewrite Y3 in H. discriminate H.
  - right. exists e, w. split; [reflexivity|]. split; [apply gg_meaning, X2; exact X3|]. split.
    + intros e' w' H. destruct H as [e' w' H|gs e' w' H1 H2].
      * apply X2 in H. rewrite X3 in H. clear - H. injection H as -> ->. auto.
      * apply X1 in H1. destruct H1 as [m' H1]. rewrite X3 in H1. discriminate H1.
    + intros (ms & ps & H & _). apply X1 in H. destruct H as [m' H]. rewrite X3 in H. discriminate H.
Qed.
End Files.
End Groups.
