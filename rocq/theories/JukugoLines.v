(** Lemmas about the lines of Jukugo files. *)
From Verif Require Import BaseFacts MapProofs ColumnFileProofs ListProofs JukugoModel JukugoSpec JukugoProofs LoadAttr.
Open Scope N_scope.
Arguments N.add : simpl never.
Arguments N.sub : simpl never.
Arguments N.mul : simpl never.

Lemma findByte_app : forall c a r, ~ In c a -> findByte c (a ++ c :: r) = Some (len a).
Proof.
  intros c a r H. induction a as [|b a IH]; cbn [app findByte].
  - rewrite N.eqb_refl. reflexivity.
  - destruct (b =? c) eqn:E; [exfalso; apply H; left; lia|]. rewrite IH by (intro X; apply H; right; exact X).
    cbn [option_map]. f_equal. rewrite len_cons. lia.
Qed.
Lemma findByte_cases : forall c s, (findByte c s = None /\ ~ In c s) \/ (exists a r, s = a ++ c :: r /\ ~ In c a).
Proof.
  intros c s. induction s as [|b s IH]; [left; split; [reflexivity|intros []]|]. destruct (N.eq_dec b c) as [E|E].
  - subst b. right. exists [], s. split; [reflexivity|intros []].
  - destruct IH as [[H1 H2]|[a [r [H1 H2]]]].
    + left. cbn [findByte]. replace (b =? c) with false by lia. rewrite H1. split; [reflexivity|]. intros [X|X]; [exact (E X)|exact (H2 X)].
    + right. exists (b :: a), r. split; [rewrite H1; reflexivity|]. intros [X|X]; [exact (E X)|exact (H2 X)].
Qed.
Lemma in_split_first : forall (c : N) s, In c s -> exists a r, s = a ++ c :: r /\ ~ In c a.
Proof. intros c s H. destruct (findByte_cases c s) as [[_ X]|X]; [contradiction|exact X]. Qed.
Lemma split_first_unique : forall (c : N) a r a' r', a ++ c :: r = a' ++ c :: r' -> ~ In c a -> ~ In c a' -> a = a' /\ r = r'.
Proof.
  intros c a. induction a as [|x a IH]; intros r a' r' E H1 H2.
  - destruct a' as [|y a']; [inversion E; auto|]. inversion E; subst. exfalso. apply H2. left. reflexivity.
  - destruct a' as [|y a']; [inversion E; subst; exfalso; apply H1; left; reflexivity|]. inversion E; subst.
    destruct (IH r a' r' H3) as [-> ->]; auto; intro X; [apply H1|apply H2]; right; exact X.
Qed.

Lemma nat_len : forall (A : Type) (l : list A), N.to_nat (len l) = length l.
Proof. intros A l. unfold len. lia. Qed.
Lemma substr_prefix : forall a r, substr (a ++ r) 0 (len a) = Val a.
Proof.
  intros a r. unfold substr. replace (len (a ++ r) <? 0) with false by lia. cbn [N.to_nat skipn]. f_equal.
  rewrite len_app. destruct (len a <? len a + len r) eqn:E.
  - rewrite nat_len. rewrite firstn_app, firstn_all, Nat.sub_diag, firstn_O. apply app_nil_r.
  - assert (Hr : len r = 0) by lia. destruct r; [apply app_nil_r|rewrite len_cons in Hr; lia].
Qed.
Lemma substr_mid : forall a b r, substr (a ++ b ++ r) (len a) (len b) = Val b.
Proof.
  intros a b r. unfold substr. rewrite !len_app. replace (len a + (len b + len r) <? len a) with false by lia. f_equal.
  rewrite nat_len, skipn_app, skipn_all, Nat.sub_diag. cbn [app skipn]. rewrite len_app. destruct (len b <? len b + len r) eqn:E.
  - rewrite nat_len, firstn_app, firstn_all, Nat.sub_diag, firstn_O. apply app_nil_r.
  - assert (Hr : len r = 0) by lia. destruct r; [apply app_nil_r|rewrite len_cons in Hr; lia].
Qed.
Lemma substr_end : forall a r n, len r <= n -> substr (a ++ r) (len a) n = Val r.
Proof.
  intros a r n H. unfold substr. rewrite len_app. replace (len a + len r <? len a) with false by lia. f_equal.
  rewrite nat_len, skipn_app, skipn_all, Nat.sub_diag. cbn [app skipn]. replace (n <? len r) with false by lia. reflexivity.
Qed.

(** strings are shorter than the address space *)
Definition fits (s : bytes) : Prop := len s < 2 ^ 63.

Lemma grade_create : forall line name reading g d, fits line -> grade_line line name reading ->
  createJukugo line g true d = addJukugo name reading g d.
Proof.
  intros line name reading g d Hf (El & Hn & N1 & N2 & N3). unfold createJukugo.
  assert (E1 : line = (name ++ [32]) ++ 40 :: (reading ++ [41])). { rewrite El, <- app_assoc. reflexivity. }
  assert (E2 : line = (name ++ [32; 40] ++ reading) ++ 41 :: []). { rewrite El, <- !app_assoc. reflexivity. }
  assert (L : len line = len name + 2 + len reading + 1). { rewrite El, !len_app. unfold len. cbn [b_ length]. lia. }
  assert (P : 0 < len name). { destruct name; [congruence|rewrite len_cons; lia]. }
  assert (F1 : findByte 40 line = Some (len name + 1)).
  { rewrite E1, findByte_app; [rewrite len_app; reflexivity|]. intro X. apply in_app_or in X. destruct X as [X|[X|[]]]; [exact (N1 X)|lia]. }
  assert (F2 : findByte 41 line = Some (len name + 2 + len reading)).
  { rewrite E2, findByte_app; [rewrite !len_app; f_equal; unfold len; cbn [length]; lia|].
    intro X. apply in_app_or in X. destruct X as [X|X]; [exact (N2 X)|]. apply in_app_or in X. destruct X as [[X|[X|[]]]|X]; [lia|lia|exact (N3 X)]. }
  unfold findOpenBracket, findCloseBracket. rewrite F1, F2.
  replace (len name + 1 - 1) with (len name) by lia.
  assert (Hnth : nth (N.to_nat (len name)) line 0 = 32). { rewrite El, nat_len. rewrite app_nth2 by lia. rewrite Nat.sub_diag. reflexivity. }
  rewrite Hnth. replace (len name + 1 <? 2) with false by lia. cbn [andb orb negb N.eqb obind].
  replace (32 =? 32) with true by reflexivity. cbn [negb andb obind].
  replace (len name + 2 + len reading =? len line - 1) with true by lia. cbn [negb andb obind].
  replace (len name + 1 - 1) with (len name) by lia.
  rewrite El at 1. rewrite substr_prefix. cbn [obind].
  unfold fits in Hf.
  replace (u64 (len name + 2 + len reading + (2 ^ 64 - (len name + 1)) + (2 ^ 64 - 1))) with (len reading).
  2:{ unfold u64. symmetry.
      replace (len name + 2 + len reading + (2 ^ 64 - (len name + 1)) + (2 ^ 64 - 1)) with (len reading + 2 * 2 ^ 64) by lia.
      rewrite N.mod_add by lia. apply N.mod_small. lia. }
  replace (len name + 1 + 1) with (len (name ++ [32; 40])) by (rewrite len_app; unfold len; cbn [length]; lia).
  replace line with ((name ++ [32; 40]) ++ reading ++ [41]) by (rewrite El, <- app_assoc; reflexivity).
  rewrite substr_mid. reflexivity.
Qed.
Lemma grade_unique : forall line n r n' r', grade_line line n r -> grade_line line n' r' -> n = n' /\ r = r'.
Proof.
  intros line n r n' r' (E & _ & A & B & C) (E' & _ & A' & B' & C').
  rewrite E in E'. change (b_ " (" ++ ?x) with ([32] ++ 40 :: x) in E'. 
  rewrite !(app_assoc n), !(app_assoc n') in E'. apply split_first_unique in E'.
  - destruct E' as [E1 E2]. apply app_inj_tail in E1. apply app_inj_tail in E2. tauto.
  - intro X. apply in_app_or in X. destruct X as [X|[X|[]]]; [exact (A X)|lia].
  - intro X. apply in_app_or in X. destruct X as [X|[X|[]]]; [exact (A' X)|lia].
Qed.
Lemma grade_refused : forall line g d, (forall n r, ~ grade_line line n r) -> createJukugo line g true d = Throw DomainError.
Proof.
  intros line g d H. unfold createJukugo, findOpenBracket, findCloseBracket.
  destruct (findByte_cases 40 line) as [[E _]|[a [r [E Ha]]]]; [rewrite E; reflexivity|].
  assert (F1 : findByte 40 line = Some (len a)) by (rewrite E; apply findByte_app; exact Ha). rewrite F1. cbn [andb].
  destruct (len a <? 2) eqn:E2; [reflexivity|]. cbn [orb].
  destruct (negb (nth (N.to_nat (len a - 1)) line 0 =? 32)) eqn:E3; [reflexivity|]. cbn [obind].
  destruct (findByte_cases 41 line) as [[E4 _]|[c [q [E4 Hc]]]]; [rewrite E4; reflexivity|].
  assert (F2 : findByte 41 line = Some (len c)) by (rewrite E4; apply findByte_app; exact Hc). rewrite F2.
  destruct (negb (len c =? len line - 1)) eqn:E5; [reflexivity|]. exfalso.
  assert (q = []). { destruct q; [reflexivity|]. exfalso. rewrite E4 in E5. rewrite len_app, !len_cons in E5. lia. } subst q.
  destruct (exists_last (l := a)) as [n [x Ex]]; [intro X; subst a; cbn in E2; discriminate|]. subst a.
  assert (x = 32).
  { rewrite E in E3. rewrite len_app in E3. change (len [x]) with 1 in E3. replace (len n + 1 - 1) with (len n) in E3 by lia.
    rewrite nat_len, <- app_assoc in E3. rewrite app_nth2 in E3 by lia. rewrite Nat.sub_diag in E3. cbn in E3.
    apply negb_false_iff in E3. lia. } subst x.
  assert (Hr : exists rd, r = rd ++ [41]).
  { destruct r as [|y r].
    - exfalso. rewrite E in E4. apply app_inj_tail in E4. destruct E4 as [_ X]. lia.
    - destruct (exists_last (l := y :: r)) as [rd [z Ez]]; [discriminate|]. exists rd. rewrite Ez. f_equal. f_equal.
      rewrite E in E4. rewrite Ez in E4. rewrite app_comm_cons, app_assoc in E4. apply app_inj_tail in E4. tauto. }
  destruct Hr as [rd ->].
  apply (H n rd).
  assert (Ec : c = n ++ [32] ++ 40 :: rd).
  { rewrite E in E4. rewrite app_comm_cons, app_assoc in E4. apply app_inj_tail in E4. destruct E4 as [X _]. rewrite <- X, <- app_assoc. reflexivity. }
  split; [rewrite E, <- app_assoc; reflexivity|]. split.
  { intro X. subst n. cbn in E2. discriminate. }
  split; [intro X; apply Ha; apply in_or_app; left; exact X|].
  split; intro X; apply Hc; rewrite Ec; apply in_or_app; [left; exact X|right; right; right; exact X].
Qed.

Lemma other_create : forall e name reading g d, fits e -> other_entry e name reading ->
  createJukugo e g false d = addJukugo name reading g d.
Proof.
  intros e name reading g d Hf (N1 & C). unfold createJukugo, fits in *.
  assert (E0 : exists q, e = name ++ 40 :: q). { destruct C as [(rest & -> & _)|[-> _]]; eexists; reflexivity. }
  destruct E0 as [q E0].
  assert (F1 : findByte 40 e = Some (len name)) by (rewrite E0; apply findByte_app; exact N1).
  unfold findOpenBracket, findCloseBracket. rewrite F1. cbn [andb obind].
  assert (Ln : len e = len name + 1 + len q) by (rewrite E0, len_app, len_cons; lia).
  destruct C as [(rest & E & N2 & N3)|[E N2]].
  - assert (E2 : e = (name ++ [40] ++ reading) ++ 41 :: rest). { rewrite E, <- !app_assoc. reflexivity. }
    assert (F2 : findByte 41 e = Some (len name + 1 + len reading)).
    { rewrite E2, findByte_app; [rewrite !len_app; f_equal; unfold len; cbn [length]; lia|].
      intro X. apply in_app_or in X. destruct X as [X|X]; [exact (N2 X)|]. apply in_app_or in X. destruct X as [[X|[]]|X]; [lia|exact (N3 X)]. }
    rewrite F2. cbn [andb obind]. rewrite E at 1. rewrite substr_prefix. cbn [obind].
    assert (Lr : len e = len name + 1 + len reading + 1 + len rest). { rewrite E, !len_app. unfold len. cbn [length]. lia. }
    replace (u64 (len name + 1 + len reading + (2 ^ 64 - len name) + (2 ^ 64 - 1))) with (len reading).
    2:{ unfold u64. symmetry.
        replace (len name + 1 + len reading + (2 ^ 64 - len name) + (2 ^ 64 - 1)) with (len reading + 2 * 2 ^ 64) by lia.
        rewrite N.mod_add by lia. apply N.mod_small. lia. }
    replace (len name + 1) with (len (name ++ [40])) by (rewrite len_app; reflexivity).
    replace e with ((name ++ [40]) ++ reading ++ [41] ++ rest) by (rewrite E, <- app_assoc; reflexivity).
    rewrite substr_mid. reflexivity.
  - destruct (in_split_first 41 name N2) as (a & r & Ea & Ha).
    assert (F2 : findByte 41 e = Some (len a)). { rewrite E, Ea, <- app_assoc. apply (findByte_app 41 a (r ++ [40] ++ reading)). exact Ha. }
    rewrite F2. cbn [andb obind]. rewrite E at 1. rewrite substr_prefix. cbn [obind].
    assert (Eq : q = reading). { rewrite E in E0. apply app_inv_head in E0. inversion E0. reflexivity. } subst q.
    assert (La : len a + 1 <= len name). { rewrite Ea, len_app, len_cons. lia. }
    replace (len name + 1) with (len (name ++ [40])) by (rewrite len_app; reflexivity).
    replace e with ((name ++ [40]) ++ reading) at 1 by (rewrite E, <- app_assoc; reflexivity).
    rewrite substr_end; [reflexivity|].
    unfold u64. replace (len a + (2 ^ 64 - len name) + (2 ^ 64 - 1)) with ((2 ^ 64 - (len name - len a) - 1) + 1 * 2 ^ 64) by lia.
    rewrite N.mod_add by lia. rewrite N.mod_small by lia. lia.
Qed.
Lemma other_unique : forall e n r n' r', other_entry e n r -> other_entry e n' r' -> n = n' /\ r = r'.
Proof.
  intros e n r n' r' [A C] [A' C'].
  assert (X : forall n r, other_entry e n r -> exists q, e = n ++ 40 :: q /\ (In 41 n -> q = r) /\ (~ In 41 n -> exists t, q = r ++ 41 :: t /\ ~ In 41 r)).
  { intros m s [_ [(t & E & N2 & N3)|[E N2]]].
    - exists (s ++ [41] ++ t). split; [exact E|]. split; [contradiction|]. intros _. exists t. split; [reflexivity|exact N3].
    - exists s. split; [exact E|]. split; [reflexivity|contradiction]. }
  destruct (X n r (conj A C)) as (q & E & Q1 & Q2). destruct (X n' r' (conj A' C')) as (q' & E' & Q1' & Q2').
  rewrite E in E'. apply split_first_unique in E'; [|exact A|exact A']. destruct E' as [-> ->]. split; [reflexivity|].
  destruct (in_dec N.eq_dec 41 n') as [I|I].
  - rewrite <- (Q1 I), <- (Q1' I). reflexivity.
  - destruct (Q2 I) as (t & T1 & T2). destruct (Q2' I) as (t' & T1' & T2'). rewrite T1 in T1'. apply split_first_unique in T1'; tauto.
Qed.
Lemma other_refused : forall e g d, (forall n r, ~ other_entry e n r) -> createJukugo e g false d = Throw DomainError.
Proof.
  intros e g d H. unfold createJukugo, findOpenBracket, findCloseBracket.
  destruct (findByte_cases 40 e) as [[E _]|[a [r [E Ha]]]]; [rewrite E; reflexivity|].
  assert (F1 : findByte 40 e = Some (len a)) by (rewrite E; apply findByte_app; exact Ha). rewrite F1. cbn [andb obind].
  destruct (findByte_cases 41 e) as [[E4 _]|[c [q [E4 Hc]]]]; [rewrite E4; reflexivity|]. exfalso.
  destruct (in_dec N.eq_dec 41 a) as [I|I].
  - apply (H a r). split; [exact Ha|]. right. split; [exact E|exact I].
  - assert (Hr : In 41 r).
    { assert (X : In 41 e) by (rewrite E4; apply in_or_app; right; left; reflexivity). rewrite E in X. apply in_app_or in X.
      destruct X as [X|[X|X]]; [contradiction|lia|exact X]. }
    destruct (in_split_first 41 r Hr) as (b & t & Er & Hb). apply (H a b). split; [exact Ha|]. left. exists t.
    split; [rewrite E, Er; reflexivity|]. auto.
Qed.

(** ** "..." *)
Lemma startsWith_iff : forall t s, startsWith t s = true <-> exists r, s = t ++ r.
Proof.
  induction t as [|x t IH]; intros s; cbn [startsWith app].
  - split; [intros _; exists s; reflexivity|reflexivity].
  - destruct s as [|y s]; [split; [discriminate|intros [r X]; discriminate]|]. rewrite andb_true_iff, N.eqb_eq, IH. split.
    + intros [-> [r ->]]. exists r. reflexivity.
    + intros [r X]. inversion X; subst. split; [reflexivity|exists r; reflexivity].
Qed.
Lemma findText_cases : forall t s, (findText t s = None /\ forall a r, s <> a ++ t ++ r)
  \/ (exists a r, s = a ++ t ++ r /\ findText t s = Some (len a) /\ forall a' r', s = a' ++ t ++ r' -> len a <= len a').
Proof.
  intros t s. induction s as [|x s IH].
  - cbn [findText]. destruct (startsWith t []) eqn:E.
    + right. apply startsWith_iff in E. destruct E as [r E]. exists [], r. split; [exact E|]. split; [reflexivity|]. intros. unfold len at 1. cbn. lia.
    + left. split; [reflexivity|]. intros a r X. destruct a; [|discriminate].
      assert (startsWith t [] = true) by (apply startsWith_iff; exists r; exact X). congruence.
  - cbn [findText]. destruct (startsWith t (x :: s)) eqn:E.
    + right. apply startsWith_iff in E. destruct E as [r E]. exists [], r. split; [exact E|]. split; [reflexivity|]. intros. unfold len at 1. cbn. lia.
    + destruct IH as [[H1 H2]|(a & r & H1 & H2 & H3)].
      * left. rewrite H1. split; [reflexivity|]. intros a r X. destruct a as [|y a].
        -- assert (startsWith t (x :: s) = true) by (apply startsWith_iff; exists r; exact X). congruence.
        -- inversion X. apply (H2 a r). assumption.
      * right. exists (x :: a), r. split; [rewrite H1 at 1; reflexivity|]. rewrite H2. split; [cbn [option_map]; f_equal; rewrite len_cons; lia|].
        intros a' r' X. destruct a' as [|y a'].
        -- assert (startsWith t (x :: s) = true) by (apply startsWith_iff; exists r'; exact X). congruence.
        -- inversion X. rewrite !len_cons. specialize (H3 a' r' H4). lia.
Qed.
Lemma first_unique : forall (t s : bytes) a r a' r', s = a ++ t ++ r -> s = a' ++ t ++ r' ->
  (forall x y, s = x ++ t ++ y -> len a <= len x) -> (forall x y, s = x ++ t ++ y -> len a' <= len x) -> a = a' /\ r = r'.
Proof.
  intros t s a r a' r' E E' M M'. assert (L : length a = length a') by (specialize (M _ _ E'); specialize (M' _ _ E); unfold len in *; lia).
  rewrite E in E'. assert (a = a'). { apply (f_equal (firstn (length a))) in E'. rewrite firstn_app, firstn_all, Nat.sub_diag, firstn_O, app_nil_r in E'.
    rewrite L, firstn_app, firstn_all, Nat.sub_diag, firstn_O, app_nil_r in E'. exact E'. } subst a'.
  apply app_inv_head in E'. apply app_inv_head in E'. auto.
Qed.
