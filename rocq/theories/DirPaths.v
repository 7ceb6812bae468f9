(** Lemmas about paths and the search for the data directory. *)
From Verif Require Import BaseFacts ColumnFileProofs ListProofs RowsProofs DirModel DirSpec.
Open Scope N_scope.
Arguments N.mul : simpl never.
Arguments N.add : simpl never.
Arguments N.sub : simpl never.

(** ** Links *)

Lemma resolve_seen : forall n x, CountModel.resolve n = Some x <-> seen n x.
Proof.
  fix IH 1. intros [c|es|[t|]|] x; cbn [CountModel.resolve].
  - split; intros H; inversion H; subst; constructor.
  - split; intros H; inversion H; subst; constructor.
  - rewrite IH. split; intros H; [constructor; exact H|inversion H; assumption].
  - split; intros H; inversion H.
  - split; intros H; inversion H; subst; constructor.
Qed.

Section Fs.
  Variable fs : bytes -> option CountModel.node.

  Lemma look_at : forall p x, look fs p = Some x <-> is_at fs p x.
  Proof.
    intros p x. unfold look, is_at. destruct (fs p) as [n|].
    - rewrite resolve_seen. split; [eauto|]. intros (m & E & H). inversion E; subst; exact H.
    - split; [discriminate|]. intros (m & E & _). discriminate.
  Qed.
  Lemma regular_file : forall p, isRegular fs p = true <-> is_file fs p (contentsOf fs p).
  Proof.
    intros p. unfold isRegular, is_file, contentsOf. rewrite <- look_at. destruct (look fs p) as [[]|]; split; intros H; auto; discriminate.
  Qed.
  Lemma file_contents : forall p c, is_file fs p c -> isRegular fs p = true /\ contentsOf fs p = c.
  Proof. intros p c H. unfold is_file in H. apply look_at in H. unfold isRegular, contentsOf. rewrite H. auto. Qed.
  Lemma not_regular : forall p, isRegular fs p = false <-> forall c, ~ is_file fs p c.
  Proof.
    intros p. split.
    - intros H c F. apply file_contents in F. destruct F. congruence.
    - intros H. destruct (isRegular fs p) eqn:E; [|reflexivity]. apply regular_file in E. exfalso. eapply H. exact E.
  Qed.
  Lemma directory : forall p, isDirectory fs p = true <-> is_dir fs p.
  Proof.
    intros p. unfold isDirectory, is_dir. split.
    - destruct (look fs p) as [[]|] eqn:E; try discriminate. intros _. eexists. apply look_at. exact E.
    - intros (es & H). apply look_at in H. rewrite H. reflexivity.
  Qed.
  Lemma regular_there : forall p, isRegular fs p = true -> isThere fs p = true.
  Proof. intros p. unfold isRegular, isThere. destruct (look fs p); [reflexivity|discriminate]. Qed.

  (** ** Text files *)

  Lemma takeWhile_all : forall p (s : bytes), Forall (fun b => p b = true) s -> takeWhile p s = s.
  Proof. intros p s H. induction H as [|b s E H IH]; cbn [takeWhile]; [reflexivity|]. rewrite E, IH. reflexivity. Qed.
  Lemma takeWhile_app : forall p (s : bytes) b t, Forall (fun b => p b = true) s -> p b = false -> takeWhile p (s ++ b :: t) = s.
  Proof.
    intros p s b t H N. induction H as [|c s E H IH]; cbn [takeWhile app]; [rewrite N; reflexivity|]. rewrite E, IH. reflexivity.
  Qed.
  Lemma takeWhile_split : forall p (s : bytes), (Forall (fun b => p b = true) s) \/ exists a b t, s = a ++ b :: t /\ Forall (fun b => p b = true) a /\ p b = false.
  Proof.
    intros p. induction s as [|c s IH]; [left; constructor|]. destruct (p c) eqn:E.
    - destruct IH as [IH|(a & b & t & -> & F & N)]; [left; constructor; assumption|]. right. exists (c :: a), b, t. repeat split; auto.
    - right. exists [], c, s. repeat split; auto.
  Qed.
  Lemma fileName_plain : forall s, ~ In 47 s -> fileName s = s.
  Proof.
    intros s H. unfold fileName. rewrite takeWhile_all; [apply rev_involutive|]. apply Forall_forall. intros x I. rewrite <- in_rev in I.
    unfold isSlash. destruct (N.eqb_spec x 47); [subst; contradiction|reflexivity].
  Qed.
  Lemma extension_txt : forall s, ~ In 47 s -> (beq (extension s) TextFileExtension = true <-> text_file s).
  Proof.
    intros s H. rewrite beq_eq. unfold extension. rewrite fileName_plain by exact H.
    destruct (takeWhile_split (fun b => negb (b =? 46)) (rev s)) as [F|(a & b & t & E & F & Nb)].
    - rewrite takeWhile_all by exact F. rewrite rev_involutive.
      assert (X : ~ text_file s).
      { intros (st & _ & ->). rewrite Forall_forall in F. specialize (F 46). rewrite <- in_rev in F.
        discriminate F. apply in_or_app. right. left. reflexivity. }
      split; [|intros T; exfalso; exact (X T)].
      destruct (beq s (b_ "..")); [discriminate|]. replace (len s + 2 <=? len s) with false by lia. discriminate.
    - rewrite E, takeWhile_app by assumption. apply (f_equal (@rev BinNums.N)) in E. rewrite rev_involutive, rev_app_distr in E. cbn [rev] in E.
      assert (Hb : b = 46) by (destruct (N.eqb_spec b 46); [assumption|discriminate]). subst b.
      rewrite <- app_assoc in E. cbn [app] in E. set (x := rev a) in *. set (y := rev t) in *.
      assert (Fx : ~ In 46 x).
      { intros I. unfold x in I. rewrite <- in_rev in I. rewrite Forall_forall in F. specialize (F _ I). discriminate F. }
      assert (Len : len s = len y + 1 + len x) by (rewrite E; unfold len; rewrite app_length; cbn [List.length]; lia).
      split.
      + destruct (beq s (b_ "..")) eqn:D; [discriminate|]. destruct (len x + 2 <=? len s) eqn:Le; [|discriminate].
        intros Q. exists y. split.
        * intros Y. rewrite Y in Len. unfold len at 2 in Len. cbn in Len. lia.
        * rewrite E. unfold TextFileExtension in Q. change (46 :: x = 46 :: b_ "txt") in Q. inversion Q as [Q']. rewrite Q'. reflexivity.
      + intros (st & Ns & T). rewrite T in E. change (b_ ".txt") with (46 :: b_ "txt") in E.
        assert (Q : rev (b_ "txt") ++ 46 :: rev st = rev x ++ 46 :: rev y).
        { apply (f_equal (@rev BinNums.N)) in E. rewrite !rev_app_distr in E. cbn [rev] in E. rewrite <- !app_assoc in E. exact E. }
        apply cut_at in Q.
        * destruct Q as [Q _]. apply (f_equal (@rev BinNums.N)) in Q. rewrite !rev_involutive in Q. rewrite <- Q.
          destruct (beq s (b_ "..")) eqn:D; [apply beq_eq in D; rewrite D in T; apply (f_equal (@List.length BinNums.N)) in T; rewrite app_length in T; cbn in T; lia|].
          replace (len (b_ "txt") + 2 <=? len s) with true; [reflexivity|].
          symmetry. apply N.leb_le. rewrite T. unfold len. rewrite app_length. destruct st; [congruence|]. cbn [List.length]. cbn. lia.
        * intros I. vm_compute in I. repeat destruct I as [I|I]; try discriminate; try contradiction.
        * rewrite <- in_rev. exact Fx.
  Qed.

  (** directory entries are names *)
  Hypothesis Hnames : names_ok fs.

  Lemma filter_perm : forall A (p : A -> bool) l, Permutation l (filter p l ++ filter (fun x => negb (p x)) l).
  Proof.
    intros A p. induction l as [|x l IH]; cbn [filter]; [constructor|]. destruct (p x); cbn [negb].
    - cbn [app]. constructor. exact IH.
    - apply Permutation_cons_app. exact IH.
  Qed.
  Lemma valid_dir : forall p, (isDirectory fs p && isValidDataDir fs p = true) <-> data_dir fs p.
  Proof.
    intros p. rewrite andb_true_iff, directory. unfold isValidDataDir, data_dir. split.
    - intros ((es & A) & H). pose proof (Hnames _ _ A) as Hn. pose proof A as A'. apply look_at in A'. rewrite A' in H. apply N.eqb_eq in H.
      set (P := fun e : bytes * CountModel.node => beq (extension (fst e)) TextFileExtension) in *.
      exists es, (filter P es), (filter (fun x => negb (P x)) es).
      split; [exact A|]. split; [apply filter_perm|]. split; [unfold len, TextFilesInDataDir in H; lia|].
      rewrite Forall_forall in Hn. split; apply Forall_forall; intros e I; apply filter_In in I; destruct I as [I E].
      + apply (extension_txt (fst e) (Hn e I)). exact E.
      + intros T. apply (extension_txt (fst e) (Hn e I)) in T. unfold P in E. rewrite T in E. discriminate.
    - intros (es & txt & others & A & Pm & L & F1 & F2). split; [exists es; exact A|].
      pose proof (Hnames _ _ A) as Hn. apply look_at in A. rewrite A.
      assert (Fl : forall P : bytes * CountModel.node -> bool, Permutation (filter P es) (filter P (txt ++ others))).
      { intros P. clear -Pm. induction Pm; cbn [filter]; [constructor| | |].
        - destruct (P x); [constructor|]; assumption.
        - destruct (P x), (P y); try apply Permutation_refl. apply perm_swap.
        - eapply Permutation_trans; eassumption. }
      unfold len. rewrite (Permutation_length (Fl _)), filter_app, app_length.
      assert (Hn2 : Forall (fun e : bytes * CountModel.node => ~ In 47 (fst e)) (txt ++ others)).
      { apply Forall_forall. intros e I. rewrite Forall_forall in Hn. apply Hn. eapply Permutation_in; [apply Permutation_sym; exact Pm|exact I]. }
      apply Forall_app in Hn2. destruct Hn2 as [N1 N2].
      assert (E1 : filter (fun e : bytes * CountModel.node => beq (extension (fst e)) TextFileExtension) txt = txt).
      { clear -fs F1 N1. rename N1 into M1. induction txt as [|e l IH]; [reflexivity|]. inversion F1; subst. inversion M1; subst. cbn [filter].
        assert (Q : beq (extension (fst e)) TextFileExtension = true) by (apply extension_txt; assumption). rewrite Q, IH by assumption. reflexivity. }
      assert (E2 : filter (fun e : bytes * CountModel.node => beq (extension (fst e)) TextFileExtension) others = []).
      { clear -fs F2 N2. induction others as [|e l IH]; [reflexivity|]. inversion F2; subst. inversion N2; subst. cbn [filter].
        destruct (beq (extension (fst e)) TextFileExtension) eqn:Q; [apply extension_txt in Q; [contradiction|assumption]|]. auto. }
      rewrite E1, E2, L. reflexivity.
  Qed.

  (** ** Parents *)

  Lemma last_byte_join : forall names, plain names -> names <> [] -> last_byte (join 47 names) <> Some 47 /\ join 47 names <> [].
  Proof.
    intros names P N. destruct (exists_last N) as (init & n & ->). apply Forall_app in P. destruct P as [_ P]. inversion P as [|? ? [Hn Hs] _]; subst.
    assert (L : last_byte (join 47 (init ++ [n])) = last_byte n).
    { destruct init as [|i init]; [reflexivity|]. rewrite join_snoc by discriminate. rewrite last_byte_app2; [|discriminate].
      rewrite (last_byte_app2 [47]) by exact Hn. reflexivity. }
    rewrite L. split; [apply last_byte_free; exact Hs|].
    intros E. rewrite E in L. destruct n as [|a n]; [congruence|]. clear -L. cbn in L.
    assert (forall a n, last_byte (a :: n) <> None) by (clear; intros a n; revert a; induction n as [|b n IH]; intros a; [discriminate|apply IH]).
    symmetry in L. exact (H a n L).
  Qed.
  Lemma ends_path : forall root names, plain names -> names <> [] -> ends_with (path root names) 47 = false /\ path root names <> [].
  Proof.
    intros root names P N. destruct (last_byte_join names P N) as [L E]. unfold ends_with, path. destruct root.
    - change (b_ "/" ++ join 47 names) with ([47] ++ join 47 names). rewrite last_byte_app2 by exact E. split; [|discriminate].
      destruct (last_byte (join 47 names)) as [b|]; [|reflexivity]. apply N.eqb_neq. congruence.
    - cbn [app]. split; [|exact E]. destruct (last_byte (join 47 names)) as [b|]; [|reflexivity]. apply N.eqb_neq. congruence.
  Qed.
  Lemma path_snoc : forall root names n, names <> [] -> path root (names ++ [n]) = path root names ++ 47 :: n.
  Proof. intros root names n N. unfold path. rewrite join_snoc by exact N. rewrite <- app_assoc. reflexivity. Qed.
  Lemma join_path : forall root names n, plain names -> n <> [] -> ~ In 47 n -> joinPath (path root names) n = path root (names ++ [n]).
  Proof.
    intros root names n P N S. destruct n as [|c n]; [congruence|]. unfold joinPath. unfold isSlash.
    destruct (N.eqb_spec c 47) as [->|_]; [exfalso; apply S; left; reflexivity|].
    destruct names as [|x names].
    - destruct root; reflexivity.
    - destruct (ends_path root (x :: names) P ltac:(discriminate)) as [E Ne].
      rewrite path_snoc by discriminate. destruct (path root (x :: names)) as [|y l]; [congruence|]. rewrite E. reflexivity.
  Qed.
  Lemma dropWhile_all : forall p (s : bytes), Forall (fun b => p b = true) s -> dropWhile p s = [].
  Proof. intros p s H. induction H as [|b s E H IH]; cbn [dropWhile]; [reflexivity|]. rewrite E. exact IH. Qed.
  Lemma dropWhile_app : forall p (s : bytes) b t, Forall (fun b => p b = true) s -> p b = false -> dropWhile p (s ++ b :: t) = b :: t.
  Proof. intros p s b t H N. induction H as [|c s E H IH]; cbn [dropWhile app]; [rewrite N; reflexivity|]. rewrite E. exact IH. Qed.
  Lemma not_all_slashes : forall root names, plain names -> names <> [] -> forallb isSlash (path root names) = false.
  Proof.
    intros root names P N. destruct names as [|n names]; [congruence|]. inversion P as [|? ? [Hn Hs] _]; subst.
    destruct n as [|c n]; [congruence|]. assert (Hc : isSlash c = false).
    { unfold isSlash. destruct (N.eqb_spec c 47) as [->|]; [exfalso; apply Hs; left; reflexivity|reflexivity]. }
    unfold path. rewrite forallb_app. destruct names; cbn [join]; [|rewrite forallb_app]; cbn [forallb]; rewrite Hc; cbn [andb]; apply andb_false_r.
  Qed.
  Lemma parent_path : forall root names n, plain names -> n <> [] -> ~ In 47 n -> parentPath (path root (names ++ [n])) = path root names.
  Proof.
    intros root names n P N S. unfold parentPath.
    assert (P2 : plain (names ++ [n])) by (apply Forall_app; split; [exact P|constructor; [auto|constructor]]).
    assert (Ne : names ++ [n] <> []) by (destruct names; discriminate).
    rewrite not_all_slashes by assumption. destruct (ends_path root _ P2 Ne) as [E _]. rewrite E.
    assert (Fn : Forall (fun b => negb (isSlash b) = true) (rev n)).
    { apply Forall_forall. intros x I. rewrite <- in_rev in I. unfold isSlash. destruct (N.eqb_spec x 47); [subst; contradiction|reflexivity]. }
    destruct names as [|x names].
    - destruct root; unfold path; cbn [app join].
      + change (b_ "/" ++ n) with ([47] ++ n). rewrite rev_app_distr. cbn [rev app]. rewrite dropWhile_app by (auto; reflexivity). reflexivity.
      + rewrite dropWhile_all by exact Fn. reflexivity.
    - rewrite path_snoc by discriminate. rewrite rev_app_distr. cbn [rev]. rewrite <- app_assoc. cbn [app].
      rewrite dropWhile_app by (auto; reflexivity). cbn [rev]. rewrite rev_involutive.
      set (q := path root (x :: names)) in *.
      assert (Nq : q <> []) by (apply ends_path; [exact P|discriminate]).
      assert (Eq : ends_with q 47 = false) by (apply ends_path; [exact P|discriminate]).
      assert (Aq : forallb isSlash q = false) by (apply not_all_slashes; [exact P|discriminate]).
      destruct (q ++ [47]) as [|y l] eqn:Ey; [destruct q; discriminate|]. rewrite <- Ey. rewrite forallb_app, Aq. cbn [andb].
      unfold noSlashes. rewrite rev_app_distr. cbn [rev app dropWhile]. change (isSlash 47) with true. cbv iota.
      destruct (exists_last Nq) as (i & z & Ez). rewrite Ez in *. rewrite rev_app_distr. cbn [rev app dropWhile].
      unfold ends_with in Eq. rewrite last_byte_app in Eq. unfold isSlash. rewrite Eq. cbn [rev].
      rewrite rev_involutive. reflexivity.
  Qed.
  Lemma parent_top : forall root, parentPath (path root []) = path root [].
  Proof. intros []; reflexivity. Qed.

  (** ** Searching *)

  Lemma path_length : forall root names, plain names -> (List.length names <= List.length (path root names))%nat.
  Proof.
    intros root names P. unfold path. rewrite app_length. assert (List.length names <= List.length (join 47 names))%nat; [|lia].
    induction names as [|n names IH]; [cbn; lia|]. inversion P as [|? ? [Hn _] P']; subst. specialize (IH P'). destruct names as [|m names].
    - cbn [join List.length]. destruct n; [congruence|cbn; lia].
    - rewrite join_cons, !app_length. cbn [List.length] in *. lia.
  Qed.
  Lemma data_plain : b_ "data" <> [] /\ ~ In 47 (b_ "data").
  Proof. split; [discriminate|]. intros I. vm_compute in I. repeat destruct I as [I|I]; try discriminate; contradiction. Qed.
  Lemma plain_snoc : forall names n, plain (names ++ [n]) -> plain names /\ n <> [] /\ ~ In 47 n.
  Proof. intros names n H. apply Forall_app in H. destruct H as [H1 H2]. inversion H2; subst. tauto. Qed.

  Lemma search_up : forall names root n, plain names -> (List.length names <= n)%nat ->
    (exists p, searchUp fs n (path root names) = Val (Some p) /\ nearest fs root names p)
    \/ (searchUp fs n (path root names) = Val None /\ forall p, ~ nearest fs root names p).
  Proof.
    intros names root. induction names as [|c names IH] using rev_ind; intros n P Ln.
    - assert (J : joinPath (path root []) (b_ "data") = path root ([] ++ [b_ "data"])) by (apply join_path; [constructor|apply data_plain|apply data_plain]).
      destruct n as [|n]; cbn [searchUp]; rewrite J, parent_top, (proj2 (beq_eq _ _) eq_refl);
        (destruct (isDirectory fs (path root ([] ++ [b_ "data"])) && isValidDataDir fs (path root ([] ++ [b_ "data"]))) eqn:V;
         [left; eexists; split; [reflexivity|]; exists 0%nat; repeat split; auto; [apply valid_dir; exact V|intros j Hj; cbn in Hj; lia]
         |right; split; [reflexivity|]; intros p (k & Hk & -> & D & _); cbn in Hk; replace k with 0%nat in D by lia; apply valid_dir in D; cbn [firstn app] in *; congruence]).
    - destruct (plain_snoc _ _ P) as (P0 & Hc & Sc). rewrite app_length in Ln. cbn [List.length] in Ln.
      destruct n as [|n]; [lia|].
      assert (J : joinPath (path root (names ++ [c])) (b_ "data") = path root ((names ++ [c]) ++ [b_ "data"])) by (apply join_path; [exact P|apply data_plain|apply data_plain]).
      cbn [searchUp]. rewrite J, parent_path by assumption.
      assert (Full : firstn (List.length (names ++ [c])) (names ++ [c]) = names ++ [c]) by apply firstn_all.
      destruct (isDirectory fs (path root ((names ++ [c]) ++ [b_ "data"])) && isValidDataDir fs (path root ((names ++ [c]) ++ [b_ "data"]))) eqn:V.
      + left. eexists. split; [reflexivity|]. exists (List.length (names ++ [c])). rewrite Full.
        split; [lia|]. split; [reflexivity|]. split; [apply valid_dir; exact V|]. intros j Hj. lia.
      + assert (Nv : ~ data_dir fs (path root ((names ++ [c]) ++ [b_ "data"]))) by (intros D; apply valid_dir in D; congruence).
        assert (B : beq (path root names) (path root (names ++ [c])) = false).
        { destruct (beq (path root names) (path root (names ++ [c]))) eqn:B; [|reflexivity]. apply beq_eq in B. exfalso.
          destruct names as [|x names].
          - unfold path in B. cbn [app join] in B. apply (f_equal (@List.length BinNums.N)) in B. rewrite !app_length in B. destruct c; [congruence|]. cbn [List.length] in B. lia.
          - rewrite path_snoc in B by discriminate. apply (f_equal (@List.length BinNums.N)) in B. rewrite app_length in B. cbn [List.length] in B. lia. }
        rewrite B.
        assert (Eqv : forall p, nearest fs root (names ++ [c]) p <-> nearest fs root names p).
        { intros p. split; intros (k & Hk & Ep & D & M).
          - rewrite app_length in Hk. cbn [List.length] in Hk.
            destruct (Nat.eq_dec k (List.length names + 1)) as [->|Nk].
            + exfalso. apply Nv. rewrite Ep in D. replace (List.length names + 1)%nat with (List.length (names ++ [c])) in D by (rewrite app_length; reflexivity).
              rewrite Full in D. exact D.
            + exists k. split; [lia|]. rewrite firstn_app in Ep. replace (k - List.length names)%nat with 0%nat in Ep by lia. cbn [firstn] in Ep. rewrite app_nil_r in Ep.
              split; [exact Ep|]. split; [exact D|]. intros j Hj. specialize (M j). rewrite app_length in M. cbn [List.length] in M.
              rewrite firstn_app in M. replace (j - List.length names)%nat with 0%nat in M by lia. cbn [firstn] in M. rewrite app_nil_r in M. apply M. lia.
          - exists k. rewrite app_length. cbn [List.length]. split; [lia|]. rewrite firstn_app. replace (k - List.length names)%nat with 0%nat by lia.
            cbn [firstn]. rewrite app_nil_r. split; [exact Ep|]. split; [exact D|]. intros j Hj.
            destruct (Nat.eq_dec j (List.length names + 1)) as [->|Nj].
            + replace (List.length names + 1)%nat with (List.length (names ++ [c])) by (rewrite app_length; reflexivity). rewrite Full. exact Nv.
            + rewrite firstn_app. replace (j - List.length names)%nat with 0%nat by lia. cbn [firstn]. rewrite app_nil_r. apply M. lia. }
        destruct (IH n P0) as [(p & E & Ne)|(E & Ne)]; [lia| |].
        * left. exists p. rewrite E. split; [reflexivity|]. apply Eqv. exact Ne.
        * right. rewrite E. split; [reflexivity|]. intros p H. apply Eqv in H. exact (Ne p H).
  Qed.
  Lemma search_dir : forall names root, plain names ->
    (exists p, searchUpForDataDir fs (path root names) = Val (Some p) /\ nearest fs root names p)
    \/ (searchUpForDataDir fs (path root names) = Val None /\ forall p, ~ nearest fs root names p).
  Proof. intros names root P. unfold searchUpForDataDir. apply search_up; [exact P|]. apply path_length. exact P. Qed.
  Lemma nearest_fun : forall root names p q, nearest fs root names p -> nearest fs root names q -> p = q.
  Proof.
    intros root names p q (k & Hk & -> & D & M) (j & Hj & -> & E & L).
    destruct (Nat.lt_trichotomy k j) as [H|[->|H]]; [exfalso; apply (M j); [lia|exact E]|reflexivity|exfalso; apply (L k); [lia|exact D]].
  Qed.

  (** ** The arguments *)

  Definition args_of (l : list bytes) : Args := MkArgs (len l) (Some l).
  Lemma argAt_list : forall l i s, nth_error l (N.to_nat i) = Some s -> argAt (args_of l) i = Val s.
  Proof.
    intros l i s H. unfold argAt, args_of. cbn [argc argv].
    assert (N.to_nat i < List.length l)%nat by (apply nth_error_Some; congruence).
    unfold len. replace (N.of_nat (List.length l) <=? i) with false by lia. rewrite H. reflexivity.
  Qed.
  Lemma data_arg_none : forall l n pre, ~ In DataArg l -> n = List.length l ->
    dataArg fs n (args_of (pre ++ l)) (len pre) = Val None.
  Proof.
    intros l. induction l as [|x l IH]; intros n pre H ->; cbn [List.length dataArg]; [reflexivity|].
    rewrite (argAt_list _ _ x) by (unfold len; rewrite Nat2N.id, nth_error_app2, Nat.sub_diag by lia; reflexivity).
    cbn [obind]. destruct (beq x DataArg) eqn:E; [apply beq_eq in E; exfalso; apply H; left; exact E|].
    replace (pre ++ x :: l) with ((pre ++ [x]) ++ l) by (rewrite <- app_assoc; reflexivity).
    replace (len pre + 1) with (len (pre ++ [x])) by (unfold len; rewrite app_length; cbn [List.length]; lia).
    apply IH; [intros I; apply H; right; exact I|reflexivity].
  Qed.
  Lemma data_arg_some : forall before after n pre, ~ In DataArg before -> n = List.length (before ++ DataArg :: after) ->
    dataArg fs n (args_of (pre ++ before ++ DataArg :: after)) (len pre) =
    match after with
    | [] => Throw DomainError
    | d :: _ => if isDirectory fs d && isValidDataDir fs d then Val (Some d) else Throw DomainError
    end.
  Proof.
    induction before as [|x l IH]; intros after n pre H ->; cbn [List.length dataArg app].
    - rewrite (argAt_list _ _ DataArg) by (unfold len; rewrite Nat2N.id, nth_error_app2, Nat.sub_diag by lia; reflexivity).
      cbn [obind]. rewrite (proj2 (beq_eq DataArg DataArg) eq_refl). cbn [args_of argc].
      unfold len at 2. rewrite app_length. cbn [List.length]. unfold len. destruct after as [|d after].
      + cbn [List.length]. replace (N.of_nat (List.length pre) + 1 =? N.of_nat (List.length pre + 1)) with true by lia. reflexivity.
      + cbn [List.length]. replace (N.of_nat (List.length pre) + 1 =? N.of_nat (List.length pre + S (S (List.length after)))) with false by lia.
        rewrite (argAt_list _ _ d).
        * cbn [obind]. destruct (isDirectory fs d); cbn [negb andb]; [|reflexivity]. destruct (isValidDataDir fs d); reflexivity.
        * replace (N.to_nat (N.of_nat (List.length pre) + 1)) with (List.length pre + 1)%nat by lia.
          rewrite nth_error_app2 by lia. replace (List.length pre + 1 - List.length pre)%nat with 1%nat by lia. reflexivity.
    - rewrite (argAt_list _ _ x) by (unfold len; rewrite Nat2N.id, nth_error_app2, Nat.sub_diag by lia; reflexivity).
      cbn [obind]. destruct (beq x DataArg) eqn:E; [apply beq_eq in E; exfalso; apply H; left; exact E|].
      replace (pre ++ x :: l ++ DataArg :: after) with ((pre ++ [x]) ++ l ++ DataArg :: after) by (rewrite <- app_assoc; reflexivity).
      replace (len pre + 1) with (len (pre ++ [x])) by (unfold len; rewrite app_length; cbn [List.length]; lia).
      apply IH; [intros I; apply H; right; exact I|reflexivity].
  Qed.
  Lemma args_count : forall p l, (N.to_nat (argc (args_of (p :: l))) - 1)%nat = List.length l.
  Proof. intros p l. unfold args_of, len. cbn [argc List.length]. lia. Qed.

  Lemma data_option : forall cwd p before after, ~ In (b_ "-data") before ->
    (forall d rest, after = d :: rest -> data_dir fs d -> getDataDir fs cwd (args_of (p :: before ++ b_ "-data" :: after)) = Val d)
    /\ ((forall d rest, after = d :: rest -> ~ data_dir fs d) -> getDataDir fs cwd (args_of (p :: before ++ b_ "-data" :: after)) = Throw DomainError).
  Proof.
    intros cwd p before after H. unfold getDataDir. rewrite args_count.
    pose proof (data_arg_some before after _ [p] H eq_refl) as E. change (len [p]) with 1 in E. cbn [app] in E.
    unfold DataArg in E. rewrite E. clear E. split.
    - intros d rest -> D. apply valid_dir in D. rewrite D. reflexivity.
    - intros Nd. destruct after as [|d rest]; [reflexivity|].
      destruct (isDirectory fs d && isValidDataDir fs d) eqn:V; [|reflexivity]. apply valid_dir in V. exfalso. eapply Nd; [reflexivity|exact V].
  Qed.
  Lemma no_data_option : forall cwd p l, ~ In (b_ "-data") l ->
    getDataDir fs cwd (args_of (p :: l)) =
    (found <- searchUpForDataDir fs cwd ;;
     found <- match found with
              | Some _ => Val found
              | None => let p := parentPath p in if isDirectory fs p then searchUpForDataDir fs (parentPath p) else Val None
              end ;;
     match found with Some d => Val d | None => Throw DomainError end).
  Proof.
    intros cwd p l H. unfold getDataDir. rewrite args_count.
    pose proof (data_arg_none l _ [p] H eq_refl) as E. change (len [p]) with 1 in E. cbn [app] in E. rewrite E. clear E. cbn [obind].
    destruct (searchUpForDataDir fs cwd) as [[d|]| | |]; cbn [obind]; try reflexivity.
  Qed.
  Lemma search_current : forall cs p l, plain cs -> ~ In (b_ "-data") l ->
    forall d, nearest fs true cs d -> getDataDir fs (path true cs) (args_of (p :: l)) = Val d.
  Proof.
    intros cs p l P H d Nd. rewrite no_data_option by exact H. destruct (search_dir cs true P) as [(q & E & Nq)|(E & Nq)].
    - rewrite E. cbn [obind]. f_equal. eapply nearest_fun; eassumption.
    - exfalso. exact (Nq d Nd).
  Qed.
  Lemma plain_removelast : forall l, plain l -> plain (removelast l).
  Proof.
    intros l H. destruct l as [|x l]; [exact H|]. destruct (exists_last (l := x :: l)) as (i & y & E); [discriminate|].
    rewrite E in *. rewrite removelast_last. apply plain_snoc in H. apply H.
  Qed.
  Lemma parent_of : forall root ps, plain ps -> parentPath (path root ps) = path root (removelast ps).
  Proof.
    intros root ps P. destruct ps as [|x ps]; [apply parent_top|]. destruct (exists_last (l := x :: ps)) as (i & y & E); [discriminate|].
    rewrite E in *. rewrite removelast_last. destruct (plain_snoc _ _ P) as (A & B & C). apply parent_path; assumption.
  Qed.
  Lemma search_program : forall cs root ps prog l, plain cs -> plain (ps ++ [prog]) -> ~ In (b_ "-data") l ->
    (forall d, ~ nearest fs true cs d) ->
    (forall d, is_dir fs (path root ps) -> nearest fs root (removelast ps) d ->
       getDataDir fs (path true cs) (args_of (path root (ps ++ [prog]) :: l)) = Val d)
    /\ (~ is_dir fs (path root ps) \/ (forall d, ~ nearest fs root (removelast ps) d) ->
       getDataDir fs (path true cs) (args_of (path root (ps ++ [prog]) :: l)) = Throw DomainError).
  Proof.
    intros cs root ps prog l P Pp H Nc. rewrite no_data_option by exact H. destruct (plain_snoc _ _ Pp) as (Pps & Hp1 & Hp2).
    destruct (search_dir cs true P) as [(q & E & Nq)|(E & _)]; [exfalso; exact (Nc q Nq)|]. rewrite E. cbn [obind]. cbv zeta.
    rewrite parent_path, parent_of by assumption.
    destruct (search_dir (removelast ps) root (plain_removelast ps Pps)) as [(q & E2 & Nq)|(E2 & Nq)].
    - split.
      + intros d D Nd. apply directory in D. rewrite D, E2. cbn [obind]. f_equal. eapply nearest_fun; eassumption.
      + intros [D|D]; [|exfalso; exact (D q Nq)]. destruct (isDirectory fs (path root ps)) eqn:Ed; [apply directory in Ed; contradiction|]. reflexivity.
    - split.
      + intros d D Nd. exfalso. exact (Nq d Nd).
      + intros _. destruct (isDirectory fs (path root ps)); [rewrite E2|]; reflexivity.
  Qed.
  Lemma search_no_args : forall cs, plain cs ->
    (forall d, nearest fs true cs d -> getDataDir fs (path true cs) noArgs = Val d)
    /\ ((forall d, ~ nearest fs true cs d) -> getDataDir fs (path true cs) noArgs = Throw DomainError).
  Proof.
    intros cs P. unfold getDataDir. cbn [argc noArgs dataArg N.to_nat Nat.sub obind].
    destruct (search_dir cs true P) as [(q & E & Nq)|(E & Nq)]; rewrite E; cbn [obind]; split.
    - intros d Nd. f_equal. eapply nearest_fun; eassumption.
    - intros D. exfalso. exact (D q Nq).
    - intros d Nd. exfalso. exact (Nq d Nd).
    - reflexivity.
  Qed.
End Fs.
