(** Lemmas about the messages about files and lists. *)
From Verif Require Import BaseFacts StringModel StringSpec StringProofs ColumnFileProofs RowsProofs ListProofs DirPaths ErrArgsProps ErrListSpec.
From Verif Require Import ErrBase.
Open Scope N_scope.
Arguments N.mul : simpl never.
Arguments N.add : simpl never.
Arguments N.sub : simpl never.

(** ** Names of files *)
Lemma fileName_of : forall d f, leading d -> no_slash f -> fileName (d ++ f) = f.
Proof.
  intros d f D F. unfold fileName. rewrite rev_app_distr.
  assert (A : Forall (fun b => negb (isSlash b) = true) (rev f)).
  { apply Forall_forall. intros x I. apply in_rev in I. unfold isSlash. destruct (N.eqb_spec x 47); [subst; contradiction|reflexivity]. }
  destruct D as [->|[d' ->]].
  - cbn [rev]. rewrite app_nil_r, takeWhile_all by exact A. apply rev_involutive.
  - rewrite rev_app_distr. change (rev (b_ "/")) with [47]. cbn [app]. rewrite takeWhile_app by (try exact A; reflexivity). apply rev_involutive.
Qed.
Lemma path_split : forall p, exists d f, p = d ++ f /\ leading d /\ no_slash f.
Proof.
  intro p. destruct (takeWhile_split (fun b => negb (isSlash b)) (rev p)) as [F|(a & b & t & E & F & B)].
  - exists [], p. split; [reflexivity|]. split; [left; reflexivity|]. intro I. rewrite Forall_forall in F. specialize (F 47 (proj1 (in_rev _ _) I)). discriminate F.
  - exists (rev t ++ [47]), (rev a). apply negb_false_iff in B. unfold isSlash in B. apply N.eqb_eq in B. subst b.
    split; [|split].
    + apply (f_equal (@rev N)) in E. rewrite rev_involutive, rev_app_distr in E. cbn [rev] in E. exact E.
    + right. exists (rev t). reflexivity.
    + intro I. rewrite Forall_forall in F. specialize (F 47 (proj2 (in_rev _ _) I)). discriminate F.
Qed.
Lemma ext_of : forall base e, base <> [] -> ~ In 46 e -> base ++ b_ "." ++ e <> b_ ".." -> no_slash (base ++ b_ "." ++ e) ->
  forall d, leading d -> extension (d ++ base ++ b_ "." ++ e) = b_ "." ++ e.
Proof.
  intros base e B E Ne S d D. change (b_ ".") with [46] in *. cbn [app] in *. unfold extension. rewrite (fileName_of d (base ++ 46 :: e)) by assumption. cbv zeta.
  destruct (beq (base ++ 46 :: e) (b_ "..")) eqn:Q; [apply beq_eq in Q; contradiction|].
  rewrite rev_app_distr. cbn [rev]. rewrite <- app_assoc. cbn [app]. rewrite takeWhile_app; [|apply Forall_forall; intros x I; apply in_rev in I; destruct (N.eqb_spec x 46); [subst; contradiction|reflexivity]|reflexivity].
  rewrite rev_involutive. rewrite len_app, len_cons. destruct base as [|c base]; [congruence|]. rewrite len_cons.
  replace (len e + 2 <=? 1 + len base + (1 + len e)) with true by lia. reflexivity.
Qed.
Lemma ext_none : forall base, no_slash base -> (forall a e, base = a ++ b_ "." ++ e -> a = [] \/ In 46 e \/ base = b_ "..") ->
  forall d, leading d -> extension (d ++ base) = [].
Proof.
  intros base S H d D. unfold extension. rewrite fileName_of by assumption. cbv zeta. destruct (beq base (b_ "..")) eqn:Q; [reflexivity|]. apply beq_neq in Q.
  destruct (takeWhile_split (fun b => negb (b =? 46)) (rev base)) as [F|(a & b & t & E & F & B)].
  - rewrite takeWhile_all by exact F. rewrite rev_involutive. replace (len base + 2 <=? len base) with false by lia. reflexivity.
  - rewrite E at 1. rewrite takeWhile_app by assumption. apply negb_false_iff in B. apply N.eqb_eq in B. subst b.
    apply (f_equal (@rev N)) in E. rewrite rev_involutive, rev_app_distr in E. cbn [rev] in E. rewrite <- app_assoc in E. cbn [app] in E.
    destruct (H (rev t) (rev a) E) as [K|[K|K]]; [|exfalso|contradiction].
    + rewrite E, K. cbn [app]. rewrite len_cons. replace (len (rev a) + 2 <=? 1 + len (rev a)) with false by lia. reflexivity.
    + rewrite Forall_forall in F. apply in_rev in K. specialize (F 46 K). discriminate F.
Qed.
Lemma name_exists : forall p, exists base e, file_name p base e.
Proof.
  intro p. destruct (path_split p) as (d & f & -> & D & F).
  destruct (takeWhile_split (fun b => negb (b =? 46)) (rev f)) as [A|(a & b & t & E & A & B)].
  - exists f, []. apply fn_none; try assumption. intros x e E. exfalso. rewrite Forall_forall in A.
    assert (I : In 46 (rev f)) by (apply -> in_rev; rewrite E; apply in_or_app; right; left; reflexivity). specialize (A 46 I). discriminate A.
  - apply negb_false_iff in B. apply N.eqb_eq in B. subst b.
    apply (f_equal (@rev N)) in E. rewrite rev_involutive, rev_app_distr in E. cbn [rev] in E. rewrite <- app_assoc in E. cbn [app] in E.
    assert (A' : ~ In 46 (rev a)). { intro I. apply in_rev in I. rewrite Forall_forall in A. specialize (A 46 I). discriminate A. }
    destruct (beq f (b_ "..")) eqn:Q.
    { apply beq_eq in Q. exists f, []. apply fn_none; try assumption. auto. }
    apply beq_neq in Q. destruct (rev t) as [|c u] eqn:T.
    + exists f, []. apply fn_none; try assumption. intros x e X. change (b_ "." ++ e) with (46 :: e) in X. rewrite E in X. cbn [app] in X.
      destruct x as [|y x]; [left; reflexivity|]. cbn [app] in X. assert (X2 : rev a = x ++ 46 :: e) by congruence.
      exfalso. apply A'. rewrite X2. apply in_or_app. right. left. reflexivity.
    + exists (c :: u), (b_ "." ++ rev a). rewrite E. apply (fn_ext d (c :: u) (rev a)); try assumption; [|discriminate|].
      * intro I. apply F. rewrite E. exact I.
      * intro X. apply Q. rewrite E. exact X.
Qed.
Lemma name_parts : forall p base e, file_name p base e -> fileName p = base ++ e /\ extension p = e.
Proof.
  intros p base e H. destruct H as [d base e D S B E Q|d base D S E].
  - split; [apply fileName_of; assumption|apply ext_of; assumption].
  - rewrite app_nil_r. split; [apply fileName_of; assumption|apply ext_none; assumption].
Qed.
Lemma name_unique : forall p b e b' e', file_name p b e -> file_name p b' e' -> b = b' /\ e = e'.
Proof.
  intros p b e b' e' H H'. apply name_parts in H, H'. destruct H as [H1 H2], H' as [H3 H4].
  rewrite H2 in H4. rewrite H1, <- H4 in H3. apply app_inv_tail in H3. split; [exact H3|exact H4].
Qed.
Lemma hasExt_iff : forall p, hasExtension p = true <-> has_ext p.
Proof.
  intro p. unfold hasExtension. split.
  - intro H. destruct (name_exists p) as (b & e & F). exists b, e. split; [exact F|]. destruct (name_parts _ _ _ F) as [_ E]. rewrite E in H. destruct e; [discriminate|discriminate].
  - intros (b & e & F & Ne). destruct (name_parts _ _ _ F) as [_ E]. rewrite E. destruct e; [congruence|reflexivity].
Qed.
Lemma hasExt_not : forall p, hasExtension p = false <-> ~ has_ext p.
Proof. intro p. rewrite <- hasExt_iff. destruct (hasExtension p); split; congruence. Qed.
Lemma stem_of : forall p b e, file_name p b e -> stem p = b.
Proof.
  intros p b e H. apply name_parts in H. destruct H as [H1 H2]. unfold stem. rewrite H1, H2, len_app. replace (len b + len e - len e) with (len b) by lia.
  unfold len. rewrite Nat2N.id, firstn_app, Nat.sub_diag. cbn [firstn]. rewrite app_nil_r. apply firstn_all.
Qed.
Lemma list_name_of : forall p given n, list_name p given n <-> n = match given with [] => firstUpper (stem p) | _ => given end.
Proof.
  intros p given n. unfold list_name. destruct given as [|g given].
  - split.
    + intros [[H _]|[_ (b & e & F & H)]]; [congruence|]. rewrite (stem_of _ _ _ F). destruct H as [[-> ->]|(c & r & -> & ->)]; [reflexivity|].
      unfold firstUpper, capital, c_islower, c_toupper, c_islower. destruct ((97 <=? c) && (c <=? 122)); reflexivity.
    + intros ->. right. split; [reflexivity|]. destruct (name_exists p) as (b & e & F). exists b, e. split; [exact F|]. rewrite (stem_of _ _ _ F).
      destruct b as [|c r]; [left; split; reflexivity|right]. exists c, r. split; [reflexivity|].
      unfold firstUpper, capital, c_islower, c_toupper, c_islower. destruct ((97 <=? c) && (c <=? 122)); reflexivity.
  - split.
    + intros [[_ H]|[H _]]; [exact H|discriminate].
    + intros ->. left. split; [discriminate|reflexivity].
Qed.

Section Fs.
Variable fs : bytes -> option CountModel.node.
Lemma there_iff : forall p, isThere fs p = true <-> there fs p.
Proof.
  intro p. unfold isThere, there. split.
  - destruct (look fs p) as [x|] eqn:E; [|discriminate]. intros _. exists x. apply look_at. exact E.
  - intros [x H]. apply look_at in H. rewrite H. reflexivity.
Qed.
Lemma there_not : forall p, isThere fs p = false <-> ~ there fs p.
Proof. intro p. rewrite <- there_iff. destruct (isThere fs p); split; congruence. Qed.
Lemma no_dir : forall p, isDirectory fs p = false <-> ~ is_dir fs p.
Proof. intro p. rewrite <- directory. destruct (isDirectory fs p); split; congruence. Qed.

(** ** getFile *)
Lemma getFile_plain : forall dir file, ErrBase.plain (getFileT fs dir file) = getFile fs dir file.
Proof.
  intros dir file. unfold getFileT, getFile. destruct (negb (isDirectory fs dir)); [reflexivity|]. cbv zeta.
  destruct (negb (isThere fs _)); [reflexivity|]. destruct (negb (isRegular fs _)); reflexivity.
Qed.
Lemma child_iff : forall dir name p, name <> [] -> no_slash name -> (child dir name p <-> p = joinPath dir name).
Proof.
  intros dir name p N S. unfold child, joinPath. destruct name as [|c r]; [congruence|].
  assert (C : isSlash c = false). { unfold isSlash. destruct (N.eqb_spec c 47) as [->|]; [exfalso; apply S; left; reflexivity|reflexivity]. }
  rewrite C. destruct dir as [|x dir].
  - split; [|auto]. intros [[_ H]|[(d & H & _)|[H _]]]; [exact H|destruct d; discriminate H|congruence].
  - assert (L : ends_with (x :: dir) 47 = true <-> exists d, x :: dir = d ++ b_ "/").
    { unfold ends_with. destruct (exists_last (l := x :: dir) ltac:(discriminate)) as (i & y & E). rewrite E. change (b_ "/") with [47].
      assert (Y : last_byte (i ++ [y]) = Some y).
      { rewrite last_byte_app2 by discriminate. reflexivity. }
      rewrite Y. rewrite N.eqb_eq. split.
      - intros ->. exists i. reflexivity.
      - intros (d & H). apply app_inj_tail in H. destruct H as [_ H]. congruence. }
    destruct (ends_with (x :: dir) 47).
    + split.
      * intros [[H _]|[(d & _ & H)|[_ [H _]]]]; [discriminate|exact H|]. destruct (proj1 L eq_refl) as [d E]. exfalso. exact (H d E).
      * intros ->. right. left. destruct (proj1 L eq_refl) as [d E]. exists d. split; [exact E|reflexivity].
    + split.
      * intros [[H _]|[(d & E & _)|[_ [_ H]]]]; [discriminate| |exact H]. assert (X : false = true) by (apply L; eauto). discriminate X.
      * intros ->. right. right. split; [discriminate|]. split; [|reflexivity]. intros d E. assert (X : false = true) by (apply L; eauto). discriminate X.
Qed.
Lemma getFile_says : forall dir name w, name <> [] -> no_slash name -> (getFileT fs dir name = Says DomainError w <-> file_says fs dir name w).
Proof.
  intros dir name w N S. unfold getFileT. cbv zeta.
  assert (Same : forall a b : bytes, Says (A := bytes) DomainError a = Says DomainError b <-> b = a) by (intros a b; split; congruence).
  destruct (isDirectory fs dir) eqn:D; cbn [negb].
  2:{ apply no_dir in D. rewrite Same. split; [intros ->; apply fs_no_dir; exact D|]. intro H. destruct H; [reflexivity|contradiction..]. }
  apply directory in D. remember (joinPath dir name) as p eqn:Ep. assert (C : child dir name p) by (apply child_iff; assumption).
  assert (Cu : forall q, child dir name q -> q = p) by (intros q Q; apply child_iff in Q; congruence).
  destruct (isRegular fs p) eqn:R; cbn [negb andb].
  { rewrite (regular_there fs p R), R. cbn [negb]. split; [discriminate|]. apply regular_file in R. intro H. exfalso.
    destruct H as [H|q _ Q X H|q _ Q X H H'|q r _ Q H X H' H'']; [contradiction| | |]; apply Cu in Q; subst q.
    - apply H. eexists. exact R.
    - exact (H _ R).
    - exact (H _ R). }
  pose proof (proj1 (not_regular fs p) R) as NF.
  destruct (hasExtension name) eqn:X; cbn [negb].
  - apply hasExt_iff in X. destruct (isThere fs p) eqn:T; cbn [negb].
    + rewrite R. cbn [negb]. apply there_iff in T. rewrite Same. split.
      * intros ->. apply (fs_other fs dir name p p); auto.
      * intro H. destruct H as [H|q _ Q Y H|q _ Q Y H H'|q r _ Q H Y H' H'']; [contradiction| |contradiction|reflexivity]. apply Cu in Q; subst q. contradiction.
    + apply there_not in T. rewrite Same. unfold quoted. split.
      * intros ->. rewrite <- !app_assoc. apply (fs_missing fs dir name p); assumption.
      * intro H. destruct H as [H|q _ Q Y H|q _ Q Y H H'|q r _ Q H Y H' H'']; [contradiction| |contradiction|].
        -- rewrite <- !app_assoc. reflexivity.
        -- apply Cu in Q; subst q. destruct Y as [[_ ->]|[Y _]]; contradiction.
  - apply hasExt_not in X. change TextFileExtension with (b_ ".txt"). destruct (isThere fs (p ++ b_ ".txt")) eqn:T; cbn [negb].
    + apply there_iff in T. destruct (isRegular fs (p ++ b_ ".txt")) eqn:R2; cbn [negb].
      * split; [discriminate|]. apply regular_file in R2. intro H. exfalso.
        destruct H as [H|q _ Q Y H|q _ Q Y H H'|q r _ Q H Y H' H'']; [contradiction|contradiction| |]; apply Cu in Q; subst q; [contradiction|].
        destruct Y as [[Y _]|[_ ->]]; [contradiction|]. exact (H'' _ R2).
      * pose proof (proj1 (not_regular fs _) R2) as NF2. rewrite Same. split.
        -- intros ->. apply (fs_other fs dir name p (p ++ b_ ".txt")); auto.
        -- intro H. destruct H as [H|q _ Q Y H|q _ Q Y H H'|q r _ Q H Y H' H'']; [contradiction|contradiction| |reflexivity]. apply Cu in Q; subst q. contradiction.
    + apply there_not in T. rewrite Same.
      assert (E : (dir ++ b_ " must contain '" ++ name) ++ b_ "' (also tried '" ++ b_ ".txt" ++ b_ "' extension)"
                  = dir ++ b_ " must contain " ++ quoted name ++ b_ " (also tried '.txt' extension)") by (unfold quoted; rewrite <- !app_assoc; reflexivity).
      rewrite E. split.
      * intros ->. apply (fs_missing_both fs dir name p); assumption.
      * intro H. destruct H as [H|q _ Q Y H|q _ Q Y H H'|q r _ Q H Y H' H'']; [contradiction|contradiction| |].
        -- reflexivity.
        -- apply Cu in Q; subst q. destruct Y as [[Y _]|[_ ->]]; contradiction.
Qed.
Lemma getFile_got : forall dir name q, name <> [] -> no_slash name ->
  (getFileT fs dir name = Got q <-> exists p c, is_dir fs dir /\ child dir name p
     /\ ((q = p /\ is_file fs p c) \/ (no_file fs p /\ ~ has_ext name /\ q = p ++ b_ ".txt" /\ is_file fs q c))).
Proof.
  intros dir name q N S. unfold getFileT. cbv zeta. destruct (isDirectory fs dir) eqn:D; cbn [negb].
  2:{ apply no_dir in D. split; [discriminate|]. intros (p & c & H & _). contradiction. }
  apply directory in D. remember (joinPath dir name) as p eqn:Ep. assert (C : child dir name p) by (apply child_iff; assumption).
  assert (Cu : forall q, child dir name q -> q = p) by (intros q' Q; apply child_iff in Q; congruence).
  destruct (isRegular fs p) eqn:R; cbn [negb andb].
  { rewrite (regular_there fs p R), R. cbn [negb]. apply regular_file in R. split.
    - intro H. injection H as <-. exists p. eexists. split; [exact D|]. split; [exact C|]. left. split; [reflexivity|exact R].
    - intros (p' & c & _ & Q & H). apply Cu in Q. subst p'. destruct H as [[-> _]|[H _]]; [reflexivity|]. exfalso. exact (H _ R). }
  pose proof (proj1 (not_regular fs p) R) as NF.
  destruct (hasExtension name) eqn:X; cbn [negb].
  - apply hasExt_iff in X. rewrite R. split.
    + destruct (isThere fs p); cbn [negb]; discriminate.
    + intros (p' & c & _ & Q & H). apply Cu in Q. subst p'. exfalso. destruct H as [[_ H]|[_ [H _]]]; [exact (NF _ H)|contradiction].
  - apply hasExt_not in X. change TextFileExtension with (b_ ".txt"). destruct (isRegular fs (p ++ b_ ".txt")) eqn:R2; cbn [negb].
    + rewrite (regular_there fs _ R2). apply regular_file in R2. cbn [negb]. split.
      * intro H. injection H as <-. exists p. eexists. split; [exact D|]. split; [exact C|]. right. split; [exact NF|]. split; [exact X|]. split; [reflexivity|exact R2].
      * intros (p' & c & _ & Q & H). apply Cu in Q. subst p'. destruct H as [[_ H]|[_ [_ [-> _]]]]; [exfalso; exact (NF _ H)|reflexivity].
    + pose proof (proj1 (not_regular fs _) R2) as NF2. split.
      * destruct (isThere fs (p ++ b_ ".txt")); cbn [negb]; discriminate.
      * intros (p' & c & _ & Q & H). apply Cu in Q. subst p'. exfalso. destruct H as [[_ H]|[_ [_ [-> H]]]]; [exact (NF _ H)|exact (NF2 _ H)].
Qed.
End Fs.
