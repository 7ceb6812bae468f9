(** Lemmas about radicals. *)
From Verif Require Import BaseFacts MapProofs ListProofs ColumnFileProofs ColumnFileLemmas RadicalModel RadicalSpec.
Arguments N.mul : simpl never. Arguments N.add : simpl never. Arguments N.sub : simpl never.

Lemma splitName_named : forall ts name alt, name <> [] -> splitName ts name alt = (name, alt ++ ts).
Proof.
  induction ts as [|t ts IH]; intros name alt H; cbn [splitName]; [rewrite app_nil_r; reflexivity|].
  destruct name as [|c name]; [congruence|]. rewrite IH by discriminate. rewrite <- app_assoc. reflexivity.
Qed.
Lemma splitName_spec : forall ts,
  (exists m name alt, ts = repeat [] m ++ name :: alt /\ name <> [] /\ splitName ts [] [] = (name, alt))
  \/ (exists m, ts = repeat [] m /\ splitName ts [] [] = ([], [])).
Proof.
  induction ts as [|t ts IH]; cbn [splitName]; [right; exists 0%nat; split; reflexivity|].
  destruct t as [|c t].
  - destruct IH as [[m [name [alt [E [Hn Q]]]]]|[m [E Q]]].
    + left. exists (S m), name, alt. subst ts. split; [reflexivity|]. split; assumption.
    + right. exists (S m). subst ts. split; [reflexivity|exact Q].
  - left. exists 0%nat, (c :: t), ts. rewrite splitName_named by discriminate. split; [reflexivity|]. split; [discriminate|reflexivity].
Qed.
Definition names_in (r : RadicalRow) : bytes * list bytes := splitName (getlines 32 (rrName r)) [] [].
Lemma prefix_unique : forall m m' (x y : bytes) a b, x <> [] -> y <> [] ->
  repeat [] m ++ x :: a = repeat [] m' ++ y :: b -> x = y /\ a = b.
Proof.
  induction m as [|m IH]; intros [|m'] x y a b Hx Hy E; cbn [repeat app] in E; inversion E; subst; try congruence; auto.
  eapply IH; eauto.
Qed.
Lemma prefix_all : forall m m' (x : bytes) a, x <> [] -> repeat [] m ++ x :: a = repeat [] m' -> False.
Proof.
  induction m as [|m IH]; intros [|m'] x a Hx E; cbn [repeat app] in E; inversion E; subst; try congruence. eapply IH; eauto.
Qed.
Lemma names_in_spec : forall r name alt, names_in r = (name, alt) <-> field_names (rrName r) name alt.
Proof.
  intros r name alt. unfold names_in, field_names. split.
  - intro H. destruct (splitName_spec (getlines 32 (rrName r))) as [[m [n [a [E [Hn S]]]]]|[m [E S]]]; rewrite S in H; inversion H; subst.
    + left. exists m. split; [apply cut_getlines; auto|exact Hn].
    + right. exists m. split; [apply cut_getlines; auto|split; reflexivity].
  - destruct (splitName_spec (getlines 32 (rrName r))) as [[m [n [a [E [Hn S]]]]]|[m [E S]]]; rewrite S;
      intros [[m' [C Hn']]|[m' [C [Ha Hb]]]]; apply cut_getlines in C; rewrite E in C; subst.
    + symmetry in C. destruct (prefix_unique _ _ _ _ _ _ Hn Hn' C) as [A B]. rewrite A, B; reflexivity.
    + exfalso. exact (prefix_all _ _ _ _ Hn (eq_sym C)).
    + exfalso. exact (prefix_all _ _ _ _ Hn' C).
    + reflexivity.
Qed.

Definition made (n : N) (r : RadicalRow) : Radical :=
  MkRadical n (fst (names_in r)) (snd (names_in r)) (rrLongName r) (rrReading r).
Lemma made_spec : forall n row r, row_radical n row r <-> r = made n row.
Proof.
  intros n row r. unfold row_radical, made. destruct (names_in row) as [name alt] eqn:E. cbn [fst snd].
  pose proof (names_in_spec row) as S. destruct r as [a b c d f]; cbn [radNumber radName radAltForms radLongName radReading].
  split.
  - intros [-> [H [-> ->]]]. apply S in H. rewrite E in H. inversion H. reflexivity.
  - intros [= -> -> -> -> ->]. repeat split. apply S. exact E.
Qed.
Lemma u8_id : forall n, n <= 255 -> u8 n = n.
Proof. intros n H. unfold u8. apply N.mod_small. lia. Qed.

Fixpoint mades (n : N) (rows : list RadicalRow) : list Radical :=
  match rows with [] => [] | r :: t => made n r :: mades (n + 1) t end.
Lemma mades_nth : forall rows n i, nth_error (mades n rows) i = option_map (made (n + N.of_nat i)) (nth_error rows i).
Proof.
  induction rows as [|r rows IH]; intros n [|i]; cbn [mades nth_error option_map]; try reflexivity.
  - replace (n + N.of_nat 0) with n by lia. reflexivity.
  - rewrite IH. replace (n + 1 + N.of_nat i) with (n + N.of_nat (S i)) by lia. reflexivity.
Qed.
(** the position of the last row with a name *)
Fixpoint last_of (n : N) (rows : list RadicalRow) (s : bytes) (acc : option N) : option N :=
  match rows with
  | [] => acc
  | r :: t => last_of (n + 1) t s (if beq (fst (names_in r)) s then Some (n - 1) else acc)
  end.
Lemma load_rows : forall rows n d, msorted (radMap d) -> 1 <= n ->
  (forall d', loadRadicalRows n rows d = Val d' <->
     (forall i r, nth_error rows i = Some r -> loose_number (rrNumber r) (n + N.of_nat i) /\ n + N.of_nat i <= 255)
     /\ radList d' = radList d ++ mades n rows
     /\ radMap d' = fold_left (fun m p => mupdate (fun _ => fst p - 1) (fst (names_in (snd p))) m)
                      (combine (map (fun i => n + N.of_nat i) (seq 0 (List.length rows))) rows) (radMap d))
  /\ ((forall d', loadRadicalRows n rows d <> Val d') -> loadRadicalRows n rows d = Throw DomainError).
Proof.
  induction rows as [|r rows IH]; intros n d Hs Hn; cbn [loadRadicalRows].
  - split; [|intro H; exfalso; apply (H d); reflexivity]. intro d'. cbn [mades combine map seq List.length fold_left]. rewrite app_nil_r. split.
    + intros [= <-]. split; [intros [|i] r H; discriminate|]. split; reflexivity.
    + intros [_ [H1 H2]]. destruct d as [a b], d' as [a' b']. cbn [radList radMap] in *. congruence.
  - destruct (processU64_iff (rrNumber r) 255) as [P1 P2].
    assert (Hc : forall m (k : nat), map (fun i => n + N.of_nat i) (seq (S m) k) = map (fun i => n + 1 + N.of_nat i) (seq m k)).
    { intros m k. rewrite <- seq_shift, map_map. apply map_ext. intro a. lia. }
    destruct (processU64 (rrNumber r) 255) as [v|x| |] eqn:E; cbn [obind].
    + destruct (proj1 (P1 v) eq_refl) as [L B]. rewrite u8_id by lia. destruct (N.eqb_spec v n) as [->|Hv]; cbn [negb].
      * fold (names_in r). destruct (names_in r) as [name alt] eqn:En.
        assert (Hs' : msorted (mupdate (fun _ : option N => n - 1) name (radMap d))) by (apply mupdate_sorted; exact Hs).
        destruct (IH (n + 1) (MkRadicals (radList d ++ [MkRadical n name alt (rrLongName r) (rrReading r)])
                      (mupdate (fun _ => n - 1) name (radMap d))) Hs' ltac:(lia)) as [I1 I2].
        cbn [radList radMap] in I1. split; [|exact I2]. intro d'. rewrite I1. cbn [mades List.length seq map combine fold_left fst snd].
        rewrite Hc. replace (n + N.of_nat 0) with n by lia. unfold made. rewrite En. cbn [fst snd]. rewrite <- app_assoc. cbn [app].
        split; intros [A C]; (split; [|exact C]).
        -- intros [|i] x Hx; cbn [nth_error] in Hx; [inversion Hx; subst; rewrite N.add_0_r; split; [exact L|lia]|].
           specialize (A i x Hx). replace (n + N.of_nat (S i)) with (n + 1 + N.of_nat i) by lia. exact A.
        -- intros i x Hx. specialize (A (S i) x Hx). replace (n + 1 + N.of_nat i) with (n + N.of_nat (S i)) by lia. exact A.
      * split; [|intros _; reflexivity]. intro d'. split; [discriminate|]. intros [A _]. exfalso.
        destruct (A 0%nat r eq_refl) as [A1 A2]. replace (n + N.of_nat 0) with n in * by lia.
        assert (Q : Val v = Val n :> out N) by (apply P1; split; [exact A1|lia]). congruence.
    + split; [|intros _; specialize (P2 ltac:(intros v0 K; discriminate)); congruence].
      intro d'. split; [discriminate|]. intros [A _]. exfalso. destruct (A 0%nat r eq_refl) as [A1 A2]. replace (n + N.of_nat 0) with n in * by lia.
      assert (Q : Throw x = Val n :> out N) by (apply P1; split; [exact A1|lia]). discriminate.
    + specialize (P2 ltac:(intros v0 K; discriminate)). discriminate.
    + specialize (P2 ltac:(intros v0 K; discriminate)). discriminate.
Qed.
Lemma fold_map : forall rows n m s, msorted m ->
  let m' := fold_left (fun m p => mupdate (fun _ => fst p - 1) (fst (names_in (snd p))) m)
              (combine (map (fun i => n + N.of_nat i) (seq 0 (List.length rows))) rows) m in
  mfind s m' = last_of n rows s (mfind s m).
Proof.
  induction rows as [|r rows IH]; intros n m s Hs; cbn [List.length seq map combine fold_left last_of fst snd]; [reflexivity|].
  assert (Hc : map (fun i => n + N.of_nat i) (seq 1 (List.length rows)) = map (fun i => n + 1 + N.of_nat i) (seq 0 (List.length rows))).
  { rewrite <- seq_shift, map_map. apply map_ext. intro a. lia. }
  cbv zeta in *. rewrite Hc, IH by (apply mupdate_sorted; exact Hs). f_equal. replace (n + N.of_nat 0) with n by lia.
  destruct (beq (fst (names_in r)) s) eqn:E.
  - apply beq_eq in E. rewrite E, mupdate_same by exact Hs. reflexivity.
  - apply beq_neq in E. rewrite mupdate_other by congruence. reflexivity.
Qed.
Lemma last_of_spec : forall rows n s acc i,
  last_of n rows s acc = Some i <->
  (exists j r, nth_error rows j = Some r /\ fst (names_in r) = s /\ i = n + N.of_nat j - 1
     /\ forall j' r', (j < j')%nat -> nth_error rows j' = Some r' -> fst (names_in r') <> s)
  \/ (acc = Some i /\ forall j r, nth_error rows j = Some r -> fst (names_in r) <> s).
Proof.
  induction rows as [|r rows IH]; intros n s acc i; cbn [last_of].
  - split.
    + intro H. right. split; [exact H|]. intros [|j] r H'; discriminate.
    + intros [[j [r [H _]]]|[H _]]; [destruct j; discriminate|exact H].
  - rewrite IH. split.
    + intros [[j [x [H1 [H2 [H3 H4]]]]]|[H1 H2]].
      * left. exists (S j), x. split; [exact H1|]. split; [exact H2|]. split; [lia|].
        intros [|j'] x' Hl Hx; [lia|]. eapply H4; [|exact Hx]. lia.
      * destruct (beq (fst (names_in r)) s) eqn:E.
        -- apply beq_eq in E. inversion H1; subst i. left. exists 0%nat, r. split; [reflexivity|]. split; [exact E|]. split; [lia|].
           intros [|j'] x' Hl Hx; [lia|]. eapply H2; exact Hx.
        -- apply beq_neq in E. right. split; [exact H1|]. intros [|j] x Hx; cbn [nth_error] in Hx; [congruence|eapply H2; exact Hx].
    + intros [[[|j] [x [H1 [H2 [H3 H4]]]]]|[H1 H2]].
      * right. cbn [nth_error] in H1. inversion H1; subst x. rewrite H2, beq_refl. split; [f_equal; lia|].
        intros j x Hx. apply (H4 (S j) x); [lia|exact Hx].
      * left. exists j, x. split; [exact H1|]. split; [exact H2|]. split; [lia|].
        intros j' x' Hl Hx. apply (H4 (S j') x'); [lia|exact Hx].
      * right. pose proof (H2 0%nat r eq_refl) as E. apply beq_neq in E. rewrite E. split; [exact H1|].
        intros j x Hx. apply (H2 (S j) x Hx).
Qed.

(** ** What loading does *)
Lemma load_radicals : forall rows,
  ((exists d, loadRadicals rows emptyRadicals = Val d) <->
   (forall n row, at_row rows n row -> loose_number (rrNumber row) n /\ n <= 255))
  /\ ((forall d, loadRadicals rows emptyRadicals <> Val d) -> loadRadicals rows emptyRadicals = Throw DomainError).
Proof.
  intro rows. unfold loadRadicals. destruct (load_rows rows 1 emptyRadicals (@msorted_nil N) ltac:(lia)) as [A B]. split; [|exact B].
  split.
  - intros [d H]. apply A in H. destruct H as [H _]. intros n row [Hn Hr]. specialize (H _ _ Hr).
    replace (1 + N.of_nat (N.to_nat (n - 1))) with n in H by lia. exact H.
  - intro H. eexists (MkRadicals _ _). apply A. split; [|split; reflexivity].
    intros i r Hr. apply H. split; [lia|]. replace (N.to_nat (1 + N.of_nat i - 1)) with i by lia. exact Hr.
Qed.
Lemma loaded : forall rows d, loadRadicals rows emptyRadicals = Val d ->
  radList d = mades 1 rows /\ forall s, mfind s (radMap d) = last_of 1 rows s None.
Proof.
  intros rows d H. unfold loadRadicals in H. apply load_rows in H; [|apply (@msorted_nil N)|lia]. destruct H as [_ [H1 H2]].
  split; [exact H1|]. intro s. rewrite H2. exact (fold_map rows 1 [] s (@msorted_nil N)).
Qed.
Lemma mades_length : forall rows n, List.length (mades n rows) = List.length rows.
Proof. induction rows as [|r rows IH]; intro n; [reflexivity|]. cbn [mades List.length]. rewrite IH. reflexivity. Qed.
Lemma by_number : forall rows d n, loadRadicals rows emptyRadicals = Val d ->
  (forall r, radicalByNumber d n = Val r <-> exists row, at_row rows n row /\ row_radical n row r)
  /\ ((forall r, radicalByNumber d n <> Val r) -> radicalByNumber d n = Throw DomainError).
Proof.
  intros rows d n H. destruct (loaded rows d H) as [L _]. unfold radicalByNumber. rewrite L.
  destruct rows as [|r0 rows0] eqn:Er; [cbn [mades]; split; [|reflexivity]; intro r; split; [discriminate|]; intros [row [[_ K] _]]; destruct (N.to_nat (n - 1)); discriminate|].
  rewrite <- Er in *. assert (Hne : mades 1 rows <> []) by (rewrite Er; discriminate).
  destruct (mades 1 rows) as [|m0 ms] eqn:Em; [congruence|]. rewrite <- Em in *. clear Em Er.
  assert (Hl : len (mades 1 rows) = len rows) by (unfold len; rewrite mades_length; reflexivity).
  rewrite Hl. destruct (N.eqb_spec n 0) as [->|Hn0]; cbn [orb].
  - split; [|reflexivity]. intro r; split; [discriminate|]. intros [row [[K _] _]]. lia.
  - destruct (N.ltb_spec (len rows) n) as [Hlt|Hle]; cbn [orb].
    + split; [|reflexivity]. intro r; split; [discriminate|]. intros [row [[_ K] _]].
      assert (nth_error rows (N.to_nat (n - 1)) = None) by (apply nth_error_None; unfold len in *; lia). congruence.
    + rewrite mades_nth. destruct (nth_error rows (N.to_nat (n - 1))) as [row|] eqn:En.
      * cbn [option_map]. replace (1 + N.of_nat (N.to_nat (n - 1))) with n by lia.
        split; [|intro K; exfalso; eapply K; reflexivity]. intro r. split.
        -- intros [= <-]. exists row. split; [split; [lia|exact En]|apply made_spec; reflexivity].
        -- intros [row' [[_ K] R]]. apply made_spec in R. congruence.
      * apply nth_error_None in En. unfold len in *. lia.
Qed.
Lemma by_name : forall rows d s, loadRadicals rows emptyRadicals = Val d ->
  (forall r, radicalByName d s = Val r <->
     exists n row, at_row rows n row /\ row_radical n row r /\ radName r = s
       /\ forall n' row' r', n < n' -> at_row rows n' row' -> row_radical n' row' r' -> radName r' <> s)
  /\ ((forall r, radicalByName d s <> Val r) -> radicalByName d s = Throw DomainError).
Proof.
  intros rows d s H. destruct (loaded rows d H) as [L M]. unfold radicalByName. rewrite L, M.
  assert (Key : forall r,
     (exists n row, at_row rows n row /\ row_radical n row r /\ radName r = s
       /\ forall n' row' r', n < n' -> at_row rows n' row' -> row_radical n' row' r' -> radName r' <> s)
     <-> exists i, last_of 1 rows s None = Some i /\ nth_error (mades 1 rows) (N.to_nat i) = Some r).
  { intro r. split.
    - intros [n [row [[Hn Hr] [R [Hs Hl]]]]]. exists (n - 1). apply made_spec in R. split.
      + apply last_of_spec. left. exists (N.to_nat (n - 1)), row. split; [exact Hr|]. split; [rewrite R in Hs; exact Hs|]. split; [lia|].
        intros j' r' Hj Hr'. apply (Hl (N.of_nat j' + 1) r' (made (N.of_nat j' + 1) r')); [lia| |apply made_spec; reflexivity].
        split; [lia|]. replace (N.to_nat (N.of_nat j' + 1 - 1)) with j' by lia. exact Hr'.
      + rewrite mades_nth, Hr. cbn [option_map]. replace (1 + N.of_nat (N.to_nat (n - 1))) with n by lia. congruence.
    - intros [i [Hi Hr]]. apply last_of_spec in Hi. destruct Hi as [[j [row [H1 [H2 [H3 H4]]]]]|[K _]]; [|discriminate].
      assert (N.to_nat i = j) by lia. rewrite H0 in Hr. rewrite mades_nth, H1 in Hr. cbn [option_map] in Hr. inversion Hr as [Hr']. clear Hr.
      exists (1 + N.of_nat j), row. split; [split; [lia|]; replace (N.to_nat (1 + N.of_nat j - 1)) with j by lia; exact H1|].
      split; [apply made_spec; reflexivity|]. split; [exact H2|].
      intros n' row' r' Hn [_ K] R. apply made_spec in R. subst r'. apply (H4 (N.to_nat (n' - 1)) row'); [lia|exact K]. }
  assert (In_range : forall i, last_of 1 rows s None = Some i -> exists r, nth_error (mades 1 rows) (N.to_nat i) = Some r).
  { intros i Hi. apply last_of_spec in Hi. destruct Hi as [[j [row [H1 [_ [H3 _]]]]]|[K _]]; [|discriminate].
    replace (N.to_nat i) with j by lia. rewrite mades_nth, H1. eexists. reflexivity. }
  destruct (last_of 1 rows s None) as [i|] eqn:E.
  - destruct (In_range i eq_refl) as [r0 Hr0].
    destruct (mades 1 rows) as [|m0 ms] eqn:Em; [destruct (N.to_nat i); discriminate|]. rewrite Hr0.
    split; [|intro K; exfalso; eapply K; reflexivity]. intro r. rewrite Key. split.
    + intros [= <-]. exists i. split; [reflexivity|exact Hr0].
    + intros [i' [[= <-] K]]. congruence.
  - assert (Hno : forall r, ~ exists n row, at_row rows n row /\ row_radical n row r /\ radName r = s
       /\ forall n' row' r', n < n' -> at_row rows n' row' -> row_radical n' row' r' -> radName r' <> s)
      by (intros r K; apply Key in K; destruct K as [i [K _]]; discriminate).
    destruct (mades 1 rows) as [|m0 ms]; (split; [intro r; split; [discriminate|intro K; exfalso; exact (Hno r K)]|reflexivity]).
Qed.
