(** Lemmas about loading a data directory. *)
From Verif Require Import BaseFacts ColumnFileProofs ListProofs LoadLogTrace RowsProofs DirModel DirSpec DirPaths.
Open Scope N_scope.
Arguments N.mul : simpl never.
Arguments N.add : simpl never.
Arguments N.sub : simpl never.

(** ** Names *)

Definition plain_name (n : bytes) : Prop := n <> [] /\ ~ In 47 n.
Definition slash_free (n : bytes) : bool := match n with [] => false | _ => negb (existsb (N.eqb 47) n) end.
Lemma plain_check : forall n, slash_free n = true -> plain_name n.
Proof.
  intros n H. unfold slash_free in H. destruct n as [|c n]; [discriminate|]. split; [discriminate|].
  intros I. apply negb_true_iff in H. assert (existsb (N.eqb 47) (c :: n) = true); [|congruence].
  apply existsb_exists. exists 47. auto.
Qed.
Lemma ends_with_spec : forall d, ends_with d 47 = true <-> exists e, d = e ++ b_ "/".
Proof.
  intros d. change (b_ "/") with [47]. unfold ends_with. split.
  - destruct d as [|x d] using rev_ind; [discriminate|]. rewrite last_byte_app. intros E. apply N.eqb_eq in E. subst x. eauto.
  - intros (e & ->). rewrite last_byte_app. reflexivity.
Qed.
Lemma child_join : forall dir n p, plain_name n -> child dir n p <-> p = joinPath dir n.
Proof.
  intros dir n p [N Sl]. destruct n as [|c n]; [congruence|]. unfold joinPath, isSlash.
  destruct (N.eqb_spec c 47) as [->|_]; [exfalso; apply Sl; left; reflexivity|].
  destruct dir as [|x dir].
  - split.
    + intros [(_ & ->)|[(d & E & _)|(E & _)]]; [reflexivity|destruct d; discriminate|congruence].
    + intros ->. left. auto.
  - destruct (ends_with (x :: dir) 47) eqn:E.
    + apply ends_with_spec in E. destruct E as (e & E). split.
      * intros [(A & _)|[(d & _ & ->)|(_ & A & _)]]; [discriminate|reflexivity|exfalso; exact (A e E)].
      * intros ->. right. left. exists e. auto.
    + split.
      * intros [(A & _)|[(d & A & _)|(_ & _ & ->)]]; [discriminate| |reflexivity].
        assert (ends_with (x :: dir) 47 = true) by (apply ends_with_spec; eauto). congruence.
      * intros ->. right. right. split; [discriminate|]. split; [|reflexivity]. intros d A.
        assert (ends_with (x :: dir) 47 = true) by (apply ends_with_spec; eauto). congruence.
Qed.
Lemma fileName_join : forall dir n, plain_name n -> fileName (joinPath dir n) = n.
Proof.
  intros dir n P. assert (C : child dir n (joinPath dir n)) by (apply child_join; auto). destruct P as [N Sl].
  assert (X : fileName n = n) by (apply fileName_plain; exact Sl).
  assert (Y : forall d, fileName ((d ++ b_ "/") ++ n) = n).
  { intros d. unfold fileName. rewrite !rev_app_distr. change (rev (b_ "/")) with [47]. cbn [app].
    rewrite takeWhile_app; [apply rev_involutive| |reflexivity].
    apply Forall_forall. intros b I. rewrite <- in_rev in I. unfold isSlash. destruct (N.eqb_spec b 47); [subst; contradiction|reflexivity]. }
  destruct C as [(-> & E)|[(d & E1 & E)|(_ & _ & E)]]; rewrite E; [exact X|rewrite E1; apply Y|rewrite app_assoc; apply Y].
Qed.
Lemma hasExtension_name : forall dir n, plain_name n -> hasExtension (joinPath dir n) = hasExtension n.
Proof.
  intros dir n P. unfold hasExtension, extension. rewrite fileName_join by exact P.
  rewrite (fileName_plain n (proj2 P)). reflexivity.
Qed.

Section Dir.
  Variable fs : bytes -> option CountModel.node.
  Variable writable : bytes -> bool.
  Variable reg : bytes -> registry.
  Hypothesis Hreg : forall n, known (reg n).

  (** ** Opening files *)

  Lemma opened_fun : forall p q c q' c', opened_for fs p q c -> opened_for fs p q' c' -> q = q' /\ c = c'.
  Proof.
    intros p q c q' c' [(-> & F)|(N & -> & F)] [(-> & G)|(M & -> & G)].
    - apply file_contents in F, G. intuition congruence.
    - exfalso. exact (M c F).
    - exfalso. exact (N c' G).
    - apply file_contents in F, G. intuition congruence.
  Qed.
  Lemma opened_contents : forall p q c, opened_for fs p q c -> contentsOf fs q = c /\ isRegular fs q = true.
  Proof. intros p q c [(-> & F)|(N & -> & F)]; apply file_contents in F; tauto. Qed.
  Lemma list_file : forall p q, hasExtension p = false ->
    (listFile fs p = Val q <-> opened_for fs p q (contentsOf fs q)) /\ (listFile fs p = Val q \/ listFile fs p = Throw DomainError \/ exists q', listFile fs p = Val q').
  Proof.
    intros p q E. unfold listFile. rewrite E. cbn [negb andb]. rewrite andb_true_r.
    destruct (isRegular fs p) eqn:R; cbn [negb].
    - rewrite R. cbn [negb]. split; [|eauto]. split.
      + intros H. inversion H; subst q. left. split; [reflexivity|]. apply regular_file. exact R.
      + intros [(-> & _)|(N & _)]; [reflexivity|]. exfalso. apply (N (contentsOf fs p)). apply regular_file. exact R.
    - destruct (isRegular fs (p ++ TextFileExtension)) eqn:R2; cbn [negb].
      + split; [|eauto]. split.
        * intros H. inversion H; subst q. right. split; [apply not_regular; exact R|]. split; [reflexivity|]. apply regular_file. exact R2.
        * intros [(-> & F)|(N & -> & F)]; [|reflexivity]. apply file_contents in F. destruct F. congruence.
      + split; [|auto]. split; [discriminate|]. intros [(-> & F)|(N & -> & F)]; apply file_contents in F; destruct F; unfold TextFileExtension in *; congruence.
  Qed.
  Lemma get_file : forall dir n q, plain_name n -> hasExtension n = false ->
    getFile fs dir n = Val q <-> is_dir fs dir /\ exists p, child dir n p /\ opened_for fs p q (contentsOf fs q).
  Proof.
    intros dir n q P E. assert (Eq : getFile fs dir n = if isDirectory fs dir then listFile fs (joinPath dir n) else Throw DomainError).
    { unfold getFile, listFile. rewrite hasExtension_name by exact P. destruct (isDirectory fs dir); [|reflexivity]. cbn [negb].
      set (f := if negb (isRegular fs (joinPath dir n)) && negb (hasExtension n) then joinPath dir n ++ TextFileExtension else joinPath dir n).
      destruct (isRegular fs f) eqn:R; [rewrite (regular_there _ _ R); reflexivity|].
      destruct (isThere fs f); reflexivity. }
    rewrite Eq. destruct (isDirectory fs dir) eqn:D.
    - apply directory in D. rewrite (proj1 (list_file (joinPath dir n) q ltac:(rewrite hasExtension_name; assumption))). split.
      + intros O. split; [exact D|]. exists (joinPath dir n). split; [apply child_join; auto|exact O].
      + intros (_ & p & C & O). apply child_join in C; [|exact P]. subst p. exact O.
    - split; [discriminate|]. intros (H & _). apply directory in H. congruence.
  Qed.
  Lemma get_file_throws : forall dir n, getFile fs dir n = Throw DomainError \/ exists q, getFile fs dir n = Val q.
  Proof.
    intros dir n. unfold getFile. destruct (isDirectory fs dir); cbn [negb]; [|auto].
    destruct (isThere fs _); cbn [negb]; [|auto]. destruct (isRegular fs _); cbn [negb]; eauto.
  Qed.

  (** ** Tables *)

  Lemma file_rows : forall dir n names rows, plain_name n -> hasExtension n = false -> names <> [] -> NoDup names ->
    fileRows fs writable reg dir n names = Val (rows, true)
    <-> is_dir fs dir /\ exists p q c, child dir n p /\ opened_for fs p q c /\ writable q = true /\ table names c rows.
  Proof.
    intros dir n names rows P E Ne Nd. unfold fileRows. destruct (get_file_throws dir n) as [G|(q & G)]; rewrite G; cbn [obind].
    - split; [discriminate|]. intros (D & p & q & c & C & O & W & T). exfalso.
      assert (X : getFile fs dir n = Val q); [|congruence]. apply get_file; auto. split; [exact D|]. exists p. split; [exact C|].
      destruct (opened_contents p q c O) as [-> _]. exact O.
    - apply get_file in G; auto. destruct G as (D & p & C & O). destruct (writable q) eqn:W.
      + rewrite rows_iff by auto. split.
        * intros T. split; [exact D|]. exists p, q, (contentsOf fs q). auto.
        * intros (_ & p' & q' & c & C' & O' & _ & T). apply child_join in C, C'; auto. subst p p'.
          destruct (opened_fun _ _ _ _ _ O O') as [_ Ec]. rewrite Ec. exact T.
      + split; [discriminate|]. intros (_ & p' & q' & c & C' & O' & W' & T). apply child_join in C, C'; auto. subst p p'.
        destruct (opened_fun _ _ _ _ _ O O') as [Eq _]. congruence.
  Qed.

  Lemma table_width : forall names c rows, table names c rows -> Forall (fun r => List.length r = List.length names) rows.
  Proof.
    intros names c rows (h & l & hs & _ & _ & F). induction F as [|x r ls rs (f & v & _ & _ & _ & G) F IH]; constructor; [|exact IH].
    symmetry. clear -G; induction G; cbn [List.length]; congruence.
  Qed.

  Section Records.
    Context {R : Type}.
    Variables (cols : list (bytes * (R -> bytes))) (mk : list bytes -> R) (absent : R -> Prop).
    Definition good_maker : Prop := (forall r, absent r -> mk (map (fun c => snd c r) cols) = r)
      /\ (forall row, List.length row = List.length cols -> map (fun c => snd c (mk row)) cols = row /\ absent (mk row)).
    Hypothesis Hmk : good_maker.
    Hypothesis Hne : map fst cols <> [].
    Hypothesis Hnd : NoDup (map fst cols).

    Lemma file_records : forall dir n rs, plain_name n -> hasExtension n = false ->
      (exists rows, fileRows fs writable reg dir n (map fst cols) = Val (rows, true) /\ rs = map mk rows)
      <-> is_dir fs dir /\ table_in fs writable dir n cols rs /\ Forall absent rs.
    Proof.
      intros dir n rs P E. destruct Hmk as [M1 M2]. split.
      - intros (rows & H & ->). apply file_rows in H; auto. destruct H as (D & p & q & c & C & O & W & T).
        split; [exact D|]. pose proof (table_width _ _ _ T) as Wd. rewrite Forall_forall in Wd. split.
        + exists p, q, c. split; [exact C|]. split; [exact O|]. split; [exact W|]. unfold records.
          replace (map (fun r => map (fun c0 => snd c0 r) cols) (map mk rows)) with rows; [exact T|].
          rewrite map_map. rewrite <- (map_id rows) at 1. apply map_ext_in. intros row I. symmetry. apply M2.
          rewrite (Wd row I), map_length. reflexivity.
        + apply Forall_forall. intros r I. apply in_map_iff in I. destruct I as (row & <- & I). apply M2. rewrite (Wd row I), map_length. reflexivity.
      - intros (D & (p & q & c & C & O & W & T) & A). unfold records in T.
        exists (map (fun r => map (fun c0 => snd c0 r) cols) rs). split.
        + apply file_rows; auto. split; [exact D|]. exists p, q, c. auto.
        + rewrite map_map. rewrite <- (map_id rs) at 1. apply map_ext_in. intros r I. symmetry. apply M1. rewrite Forall_forall in A. exact (A r I).
    Qed.
  End Records.

  Lemma load_from : forall R A rows (mk : list bytes -> R) (load : list R -> out A), loadFrom (Val (rows, true)) mk load = load (map mk rows).
  Proof. intros R A rows mk load. unfold loadFrom. cbn [obind]. destruct (load (map mk rows)); reflexivity. Qed.
  Lemma load_from_val : forall R A t (mk : list bytes -> R) (load : list R -> out A) x, loadFrom t mk load = Val x ->
    exists rows, t = Val (rows, true) /\ load (map mk rows) = Val x.
  Proof.
    intros R A t mk load x H. unfold loadFrom in H. destruct t as [[rows e]| | |]; try discriminate. cbn [obind] in H.
    destruct (load (map mk rows)) as [y| | |] eqn:E; try discriminate. cbn [obind] in H. destruct e; [|discriminate].
    inversion H; subst. exists rows. auto.
  Qed.

  (** the makers *)
  Ltac rows_of := intros row H; repeat (destruct row as [|? row]; [discriminate H|]); destruct row; [|discriminate H]; repeat split; reflexivity.
  Lemma ucd_maker : good_maker ucd_columns ucdRow (fun _ => True).
  Proof. split; [intros [] _; reflexivity|]. rows_of. Qed.
  Lemma radical_maker : good_maker radical_columns radicalRow (fun _ => True).
  Proof. split; [intros [] _; reflexivity|]. rows_of. Qed.
  Lemma reading_maker : good_maker reading_columns readingRow (fun _ => True).
  Proof. split; [intros [] _; reflexivity|]. rows_of. Qed.
  Lemma jouyou_maker : good_maker jouyou_columns jouyouRow (fun r => krReason r = []).
  Proof. split; [intros [] H; cbn in H; subst; reflexivity|]. rows_of. Qed.
  Lemma jinmei_maker : good_maker jinmei_columns jinmeiRow (fun r => krStrokes r = [] /\ krGrade r = [] /\ krMeaning r = []).
  Proof. split; [intros [] H; cbn in H; destruct H as (? & ? & ?); subst; reflexivity|]. rows_of. Qed.
  Lemma extra_maker : good_maker extra_columns extraRow (fun r => krOldNames r = [] /\ krYear r = [] /\ krGrade r = [] /\ krReason r = []).
  Proof. split; [intros [] H; cbn in H; destruct H as (? & ? & ? & ?); subst; reflexivity|]. rows_of. Qed.

  (** ** Lists *)

  Lemma text_at_file : forall p c, hasExtension p = false -> text_at fs p c <-> exists q, listFile fs p = Val q /\ contentsOf fs q = c.
  Proof.
    intros p c E. split.
    - intros (q & O). exists q. destruct (opened_contents p q c O) as [Ec _]. split; [|exact Ec]. apply list_file; [exact E|]. rewrite Ec. exact O.
    - intros (q & L & <-). exists q. apply list_file in L; assumption.
  Qed.
  Lemma read_lists : forall A k (path : A -> bytes) d names files st,
    Forall (fun n => path (fst n) = joinPath d (snd n) /\ plain_name (snd n) /\ hasExtension (snd n) = false) names ->
    Forall2 (fun n f => fst n = fst f /\ exists p, child d (snd n) p /\ text_at fs p (snd f)) names files ->
    readLists fs k path (map fst names) st = makeLists k files st.
  Proof.
    intros A k path d names. induction names as [|n names IH]; intros files st G F; inversion F; subst; [reflexivity|].
    inversion G as [|? ? (Ep & Pn & En) G']; subst. destruct y as [a c]. destruct H1 as (Ea & p & C & T). cbn [fst snd] in *. subst a.
    apply child_join in C; [|exact Pn]. subst p. apply text_at_file in T; [|rewrite hasExtension_name; assumption].
    destruct T as (q & L & <-). cbn [map readLists makeLists]. rewrite Ep, L. cbn [obind].
    destruct (construct k MultiplePerLine (contentsOf fs q) st) as [[st1 [f|x]]| | |]; cbn [obind]; try reflexivity.
    rewrite (IH _ st1 G' H3). reflexivity.
  Qed.
  Lemma list_file_cases : forall p, listFile fs p = Throw DomainError \/ exists q, listFile fs p = Val q.
  Proof. intros p. unfold listFile. destruct (isRegular fs _); cbn [negb]; eauto. Qed.
  Lemma read_lists_val : forall A k (path : A -> bytes) d names st x,
    Forall (fun n => path (fst n) = joinPath d (snd n) /\ plain_name (snd n) /\ hasExtension (snd n) = false) names ->
    readLists fs k path (map fst names) st = Val x ->
    exists files, Forall2 (fun n f => fst n = fst f /\ exists p, child d (snd n) p /\ text_at fs p (snd f)) names files.
  Proof.
    intros A k path d names. induction names as [|n names IH]; intros st x G H; [exists []; constructor|].
    inversion G as [|? ? (Ep & Pn & En) G']; subst. cbn [map readLists] in H. rewrite Ep in H.
    destruct (list_file_cases (joinPath d (snd n))) as [L|(q & L)]; rewrite L in H; cbn [obind] in H; [discriminate|].
    destruct (construct k MultiplePerLine (contentsOf fs q) st) as [[st1 [f|y]]| | |]; cbn [obind] in H; try discriminate.
    destruct (readLists fs k path (map fst names) st1) as [z| | |] eqn:E; try discriminate.
    destruct (IH st1 z G' E) as (files & F). exists ((fst n, contentsOf fs q) :: files). constructor; [|exact F].
    split; [reflexivity|]. exists (joinPath d (snd n)). split; [apply child_join; auto|]. cbn [snd].
    apply text_at_file; [rewrite hasExtension_name; assumption|]. eauto.
  Qed.

  Lemma level_names_good : forall dir, Forall (fun n => levelPath dir (fst n) = joinPath (joinPath dir (b_ "jlpt")) (snd n) /\ plain_name (snd n)
    /\ hasExtension (snd n) = false) level_names.
  Proof.
    intros dir. unfold level_names. repeat (apply Forall_cons || apply Forall_nil);
      (split; [reflexivity|split; [apply plain_check; vm_compute; reflexivity|vm_compute; reflexivity]]).
  Qed.
  Lemma kyu_names_good : forall dir, Forall (fun n => kyuPath dir (fst n) = joinPath (joinPath dir (b_ "kentei")) (snd n) /\ plain_name (snd n)
    /\ hasExtension (snd n) = false) kyu_names.
  Proof.
    intros dir. unfold kyu_names. repeat (apply Forall_cons || apply Forall_nil);
      (split; [reflexivity|split; [apply plain_check; vm_compute; reflexivity|vm_compute; reflexivity]]).
  Qed.

  (** ** The whole directory *)

  Fixpoint nodup_names (l : list bytes) : bool := match l with [] => true | x :: r => negb (existsb (beq x) r) && nodup_names r end.
  Lemma nodup_check : forall l, nodup_names l = true -> NoDup l.
  Proof.
    intros l. induction l as [|x l IH]; intros H; [constructor|]. cbn [nodup_names] in H. apply andb_true_iff in H. destruct H as [H1 H2].
    constructor; [|auto]. intros I. apply negb_true_iff in H1. assert (existsb (beq x) l = true); [|congruence].
    apply existsb_exists. exists x. split; [exact I|apply beq_refl].
  Qed.
  Ltac name_ok := apply plain_check; vm_compute; reflexivity.
  Ltac use_records M := apply (file_records _ _ _ M); [discriminate|apply nodup_check; vm_compute; reflexivity|name_ok|vm_compute; reflexivity].

  Definition T_ucd dir rs := (exists rows, fileRows fs writable reg dir (b_ "ucd") UcdColumns = Val (rows, true) /\ rs = map ucdRow rows).
  Definition T_radical dir rs := (exists rows, fileRows fs writable reg dir (b_ "radicals") RadicalColumns = Val (rows, true) /\ rs = map radicalRow rows).
  Definition T_reading dir rs := (exists rows, fileRows fs writable reg dir (b_ "frequency-readings") ReadingColumns = Val (rows, true) /\ rs = map readingRow rows).
  Definition T_jouyou dir rs := (exists rows, fileRows fs writable reg dir (b_ "jouyou") JouyouColumns = Val (rows, true) /\ rs = map jouyouRow rows).
  Definition T_jinmei dir rs := (exists rows, fileRows fs writable reg dir (b_ "jinmei") JinmeiColumns = Val (rows, true) /\ rs = map jinmeiRow rows).
  Definition T_extra dir rs := (exists rows, fileRows fs writable reg dir (b_ "extra") ExtraColumns = Val (rows, true) /\ rs = map extraRow rows).
  Lemma t_ucd : forall dir rs, T_ucd dir rs <-> is_dir fs dir /\ table_in fs writable dir (b_ "ucd") ucd_columns rs /\ Forall (fun _ => True) rs.
  Proof. intros. use_records ucd_maker. Qed.
  Lemma t_radical : forall dir rs, T_radical dir rs <-> is_dir fs dir /\ table_in fs writable dir (b_ "radicals") radical_columns rs /\ Forall (fun _ => True) rs.
  Proof. intros. use_records radical_maker. Qed.
  Lemma t_reading : forall dir rs, T_reading dir rs <-> is_dir fs dir /\ table_in fs writable dir (b_ "frequency-readings") reading_columns rs /\ Forall (fun _ => True) rs.
  Proof. intros. use_records reading_maker. Qed.
  Lemma t_jouyou : forall dir rs, T_jouyou dir rs <-> is_dir fs dir /\ table_in fs writable dir (b_ "jouyou") jouyou_columns rs /\ Forall (fun r => krReason r = []) rs.
  Proof. intros. use_records jouyou_maker. Qed.
  Lemma t_jinmei : forall dir rs, T_jinmei dir rs <-> is_dir fs dir /\ table_in fs writable dir (b_ "jinmei") jinmei_columns rs
    /\ Forall (fun r => krStrokes r = [] /\ krGrade r = [] /\ krMeaning r = []) rs.
  Proof. intros. use_records jinmei_maker. Qed.
  Lemma t_extra : forall dir rs, T_extra dir rs <-> is_dir fs dir /\ table_in fs writable dir (b_ "extra") extra_columns rs
    /\ Forall (fun r => krOldNames r = [] /\ krYear r = [] /\ krGrade r = [] /\ krReason r = []) rs.
  Proof. intros. use_records extra_maker. Qed.

  Definition dir_read (dir : bytes) (f : Files) : Prop :=
    Forall2 (fun n f => fst n = fst f /\ exists p, child (joinPath dir (b_ "jlpt")) (snd n) p /\ text_at fs p (snd f)) level_names (levelFiles f)
    /\ Forall2 (fun n f => fst n = fst f /\ exists p, child (joinPath dir (b_ "kentei")) (snd n) p /\ text_at fs p (snd f)) kyu_names (kyuFiles f)
    /\ (exists q, listFile fs (joinPath dir (b_ "frequency")) = Val q /\ contentsOf fs q = frequencyFile f)
    /\ T_ucd dir (ucdRows f) /\ T_radical dir (radicalRows f) /\ T_reading dir (readingRows f) /\ T_jouyou dir (jouyouRows f)
    /\ (exists q, getFile fs dir (b_ "linked-jinmei") = Val q /\ contentsOf fs q = linkedFile f)
    /\ T_jinmei dir (jinmeiRows f) /\ T_extra dir (extraRows f).

  Lemma lists_in_iff : forall A dir sub (names files : list (A * bytes)), plain_name sub ->
    lists_in fs dir sub names files
    <-> Forall2 (fun n f => fst n = fst f /\ exists p, child (joinPath dir sub) (snd n) p /\ text_at fs p (snd f)) names files.
  Proof.
    intros A dir sub names files P. split.
    - intros (d & C & F). apply child_join in C; [|exact P]. subst d. exact F.
    - intros F. exists (joinPath dir sub). split; [apply child_join; auto|exact F].
  Qed.
  Lemma text_child : forall dir n c, plain_name n -> hasExtension n = false ->
    (exists p, child dir n p /\ text_at fs p c) <-> exists q, listFile fs (joinPath dir n) = Val q /\ contentsOf fs q = c.
  Proof.
    intros dir n c P E. rewrite <- text_at_file by (rewrite hasExtension_name; assumption). split.
    - intros (p & C & T). apply child_join in C; [|exact P]. subst p. exact T.
    - intros T. exists (joinPath dir n). split; [apply child_join; auto|exact T].
  Qed.
  Lemma got_child : forall dir n c, plain_name n -> hasExtension n = false ->
    (exists q, getFile fs dir n = Val q /\ contentsOf fs q = c) <-> is_dir fs dir /\ exists p, child dir n p /\ text_at fs p c.
  Proof.
    intros dir n c P E. split.
    - intros (q & G & <-). apply get_file in G; auto. destruct G as (D & p & C & O). split; [exact D|]. exists p. split; [exact C|]. exists q. exact O.
    - intros (D & p & C & q & O). exists q. destruct (opened_contents _ _ _ O) as [Ec _]. split; [|exact Ec]. apply get_file; auto.
      split; [exact D|]. exists p. split; [exact C|]. rewrite Ec. exact O.
  Qed.
  Lemma all_true : forall A (l : list A), Forall (fun _ => True) l.
  Proof. intros A l. apply Forall_forall. auto. Qed.

  Lemma dir_read_iff : forall dir f, dir_files fs writable dir f <-> dir_read dir f.
  Proof.
    intros dir f. unfold dir_files, dir_read. rewrite !lists_in_iff by name_ok.
    rewrite (text_child dir (b_ "frequency")) by (name_ok || (vm_compute; reflexivity)).
    rewrite (got_child dir (b_ "linked-jinmei")) by (name_ok || (vm_compute; reflexivity)).
    rewrite t_ucd, t_radical, t_reading, t_jouyou, t_jinmei, t_extra.
    pose proof (all_true _ (ucdRows f)). pose proof (all_true _ (radicalRows f)). pose proof (all_true _ (readingRows f)). tauto.
  Qed.

  Lemma lbind_ext : forall A B (m : L A) (f g : A -> L B), (forall x, f x = g x) -> lbind m f = lbind m g.
  Proof. intros A B [w [x| | |]] f g H; cbn [lbind]; try reflexivity. rewrite H. reflexivity. Qed.
  Lemma lift_bind : forall A B (x : A) (f : A -> L B), lbind (llift (Val x)) f = f x.
  Proof. intros A B x f. cbn [llift lbind]. destruct (f x). reflexivity. Qed.

  Theorem load_dir : forall sort mode ltr dir f st max, dir_files fs writable dir f ->
    loadDir fs writable reg sort mode ltr dir st max = loadDataL sort mode ltr f st max.
  Proof.
    intros sort mode ltr dir f st max D. apply dir_read_iff in D.
    destruct D as (Fl & Fk & (q1 & L1 & E1) & (r1 & R1 & M1) & (r2 & R2 & M2) & (r3 & R3 & M3) & (r4 & R4 & M4) & (q2 & L2 & E2) & (r5 & R5 & M5) & (r6 & R6 & M6)).
    assert (Env : readEnv fs writable reg ltr dir st = loadEnv ltr f st).
    { unfold readEnv, loadEnv. change AllLevels with (map fst level_names). change AllKyus with (map fst kyu_names).
      rewrite (read_lists _ _ _ _ _ _ st (level_names_good dir) Fl).
      destruct (makeLists ListModel.LevelList (levelFiles f) st) as [[st1 lv]| | |]; cbn [obind]; try reflexivity.
      rewrite (read_lists _ _ _ _ _ _ st1 (kyu_names_good dir) Fk).
      destruct (makeLists ListModel.KyuList (kyuFiles f) st1) as [[st2 ky]| | |]; cbn [obind]; try reflexivity.
      rewrite L1. cbn [obind]. rewrite E1.
      destruct (construct PlainList OnePerLine (frequencyFile f) st2) as [[st3 [fr|x]]| | |]; cbn [obind]; try reflexivity.
      rewrite R1, R2, R3, !load_from, <- M1, <- M2, <- M3. reflexivity. }
    assert (Kan : forall e d, readKanji fs writable reg (isFull mode) e dir d = loadKanjiL (isFull mode) e f d).
    { intros e d. unfold readKanji, loadKanjiL, readPlain, readJinmei. rewrite R4, R5, R6, L2, !load_from, <- M4.
      apply lbind_ext. intros d1. rewrite lift_bind, E2. do 2 (apply lbind_ext; intros ?).
      unfold loadJinmeiL. rewrite <- M5. apply lbind_ext. intros ?. unfold loadPlainL. rewrite <- M6. reflexivity. }
    unfold loadDir, loadDataL. rewrite Env. apply lbind_ext. intros _. apply lbind_ext. intros e. rewrite Kan. reflexivity.
  Qed.

  Theorem loaded_dir : forall sort mode ltr dir st max x, snd (loadDir fs writable reg sort mode ltr dir st max) = Val x ->
    exists f, dir_files fs writable dir f.
  Proof.
    intros sort mode ltr dir st max x H. unfold loadDir in H.
    apply lbind_val in H. destruct H as (u & _ & H & _). apply lbind_val in H. destruct H as (e & Ee & H & _).
    apply lbind_val in H. destruct H as (d & Ed & _). cbn [llift snd] in Ee.
    unfold readEnv in Ee. change AllLevels with (map fst level_names) in Ee. change AllKyus with (map fst kyu_names) in Ee.
    destruct (readLists fs ListModel.LevelList (levelPath dir) (map fst level_names) st) as [[st1 lv]| | |] eqn:A1; try discriminate. cbn [obind] in Ee.
    destruct (readLists fs ListModel.KyuList (kyuPath dir) (map fst kyu_names) st1) as [[st2 ky]| | |] eqn:A2; try discriminate. cbn [obind] in Ee.
    destruct (list_file_cases (joinPath dir (b_ "frequency"))) as [L|(q1 & L)]; rewrite L in Ee; [discriminate|]. cbn [obind] in Ee.
    destruct (construct PlainList OnePerLine (contentsOf fs q1) st2) as [[st3 [fr|y]]| | |]; cbn [obind] in Ee; try discriminate.
    destruct (loadFrom (fileRows fs writable reg dir (b_ "ucd") UcdColumns) ucdRow _) as [u1| | |] eqn:B1; try discriminate. cbn [obind] in Ee.
    destruct (loadFrom (fileRows fs writable reg dir (b_ "radicals") RadicalColumns) radicalRow _) as [u2| | |] eqn:B2; try discriminate. cbn [obind] in Ee.
    destruct (loadFrom (fileRows fs writable reg dir (b_ "frequency-readings") ReadingColumns) readingRow _) as [u3| | |] eqn:B3; try discriminate.
    clear Ee. apply load_from_val in B1, B2, B3. destruct B1 as (r1 & R1 & _), B2 as (r2 & R2 & _), B3 as (r3 & R3 & _).
    destruct (read_lists_val _ _ _ _ _ _ _ (level_names_good dir) A1) as (fl & Fl).
    destruct (read_lists_val _ _ _ _ _ _ _ (kyu_names_good dir) A2) as (fk & Fk).
    unfold readKanji in Ed. apply lbind_val in Ed. destruct Ed as (d1 & C1 & Ed & _). apply lbind_val in Ed. destruct Ed as (q2 & L2 & Ed & _).
    do 2 (apply lbind_val in Ed; destruct Ed as (? & _ & Ed & _)). apply lbind_val in Ed. destruct Ed as (d2 & C2 & Ed & _).
    apply lbind_val in Ed. destruct Ed as (d3 & C3 & _). unfold readPlain, readJinmei in C1, C2, C3.
    apply lbind_val in C1, C2, C3. destruct C1 as (k1 & C1 & _), C2 as (k2 & C2 & _), C3 as (k3 & C3 & _). cbn [llift snd] in *.
    apply load_from_val in C1, C2, C3. destruct C1 as (r4 & R4 & _), C2 as (r5 & R5 & _), C3 as (r6 & R6 & _).
    exists (MkFiles fl fk (contentsOf fs q1) (map ucdRow r1) (map radicalRow r2) (map readingRow r3) (map jouyouRow r4) (contentsOf fs q2)
              (map jinmeiRow r5) (map extraRow r6)).
    apply dir_read_iff. unfold dir_read. cbn [levelFiles kyuFiles frequencyFile ucdRows radicalRows readingRows jouyouRows linkedFile jinmeiRows extraRows].
    split; [exact Fl|]. split; [exact Fk|]. split; [eauto|].
    unfold T_ucd, T_radical, T_reading, T_jouyou, T_jinmei, T_extra. repeat split; eauto.
  Qed.

  Lemma lists_fun : forall A d (names f g : list (A * bytes)), Forall (fun n => plain_name (snd n) /\ hasExtension (snd n) = false) names ->
    Forall2 (fun n f => fst n = fst f /\ exists p, child d (snd n) p /\ text_at fs p (snd f)) names f ->
    Forall2 (fun n f => fst n = fst f /\ exists p, child d (snd n) p /\ text_at fs p (snd f)) names g -> f = g.
  Proof.
    intros A d names. induction names as [|n names IH]; intros f g H F G; inversion F as [|? [a x] ? f' Hx F']; inversion G as [|? [b z] ? g' Hz G']; subst; [reflexivity|].
    inversion H as [|? ? [P E] H']; subst. destruct Hx as (Ea & p & C & T), Hz as (Eb & p' & C' & T').
    cbn [fst snd] in *. subst a b. apply child_join in C, C'; auto. subst p p'. destruct T as (q & T), T' as (q' & T').
    destruct (opened_fun _ _ _ _ _ T T') as [_ ->]. f_equal. apply IH; assumption.
  Qed.
  Lemma files_ext : forall f g, levelFiles f = levelFiles g -> kyuFiles f = kyuFiles g -> frequencyFile f = frequencyFile g -> ucdRows f = ucdRows g ->
    radicalRows f = radicalRows g -> readingRows f = readingRows g -> jouyouRows f = jouyouRows g -> linkedFile f = linkedFile g ->
    jinmeiRows f = jinmeiRows g -> extraRows f = extraRows g -> f = g.
  Proof. intros f g. destruct f, g. cbn. intros. subst. reflexivity. Qed.
  Theorem dir_files_fun : forall dir f g, dir_files fs writable dir f -> dir_files fs writable dir g -> f = g.
  Proof.
    intros dir f g F G. apply dir_read_iff in F, G.
    destruct F as (Fl & Fk & (q1 & L1 & E1) & (r1 & R1 & M1) & (r2 & R2 & M2) & (r3 & R3 & M3) & (r4 & R4 & M4) & (q2 & L2 & E2) & (r5 & R5 & M5) & (r6 & R6 & M6)).
    destruct G as (Gl & Gk & (q1' & L1' & E1') & (r1' & R1' & M1') & (r2' & R2' & M2') & (r3' & R3' & M3') & (r4' & R4' & M4') & (q2' & L2' & E2') & (r5' & R5' & M5') & (r6' & R6' & M6')).
    pose proof (lists_fun _ _ _ _ _ (Forall_impl _ (fun a H => proj2 H) (level_names_good dir)) Fl Gl) as X1.
    pose proof (lists_fun _ _ _ _ _ (Forall_impl _ (fun a H => proj2 H) (kyu_names_good dir)) Fk Gk) as X2.
    apply files_ext; congruence.
  Qed.
End Dir.
