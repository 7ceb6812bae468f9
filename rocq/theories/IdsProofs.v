(** Lemmas about Morohashi ids and stroke counts. *)
From Verif Require Import BaseFacts StringModel StringSpec StringProofs ColumnFileSpec IdsModel IdsSpec.

Arguments N.mul : simpl never.
Arguments N.add : simpl never.
Arguments N.sub : simpl never.
Arguments N.div : simpl never.
Arguments N.modulo : simpl never.
Arguments N.pow : simpl never.
Arguments N.ltb : simpl never.
Arguments N.leb : simpl never.
Arguments N.eqb : simpl never.

Lemma starts_with_iff : forall p s, starts_with s p = true <-> exists r, s = p ++ r.
Proof.
  induction p as [|a p IH]; intros s; cbn [starts_with].
  - split; [intros _; exists s; reflexivity|intros _; destruct s; reflexivity].
  - destruct s as [|b s].
    + split; [discriminate|]. intros [r H]. discriminate.
    + cbn [starts_with]. rewrite andb_true_iff, N.eqb_eq, IH. split.
      * intros [<- [r ->]]. exists r. reflexivity.
      * intros [r H]. cbn [app] in H. inversion H; subst. split; [reflexivity|]. exists r. reflexivity.
Qed.
Lemma ends_with_iff : forall p s, ends_with_str s p = true <-> exists r, s = r ++ p.
Proof.
  intros p s. unfold ends_with_str. rewrite starts_with_iff. split; intros [r H].
  - exists (rev r). apply (f_equal (@rev N)) in H. rewrite rev_involutive, rev_app_distr, rev_involutive in H.
    exact H.
  - exists (rev r). rewrite H, rev_app_distr. reflexivity.
Qed.

Definition dfold (cs : bytes) (a : N) : N := fold_left (fun a c => a * 10 + (c - 48)) cs a.
Lemma dfold_ge : forall cs a, a <= dfold cs a.
Proof.
  unfold dfold. induction cs as [|c cs IH]; intro a; cbn [fold_left]; [lia|].
  eapply N.le_trans; [|apply IH]. lia.
Qed.

Lemma validateLoop_spec : forall cs leading result,
  (leading = true -> result = 0) -> result <= 65535 ->
  validateLoop cs leading result =
    if digitsb cs && (dfold cs result <=? 65535) then Val (dfold cs result) else Throw DomainError.
Proof.
  induction cs as [|c cs IH]; intros leading result Hl Hr; cbn [validateLoop digitsb forallb].
  - unfold dfold. cbn [fold_left andb]. replace (result <=? 65535) with true by lia. reflexivity.
  - fold (digitsb cs). change (dfold (c :: cs) result) with (dfold cs (result * 10 + (c - 48))).
    destruct (leading && (c =? 48)) eqn:E1.
    + apply andb_true_iff in E1. destruct E1 as [E1 E2]. apply N.eqb_eq in E2. subst c.
      rewrite (Hl E1). rewrite IH by lia. reflexivity.
    + destruct ((c <? 48) || (57 <? c)) eqn:E2.
      * replace ((48 <=? c) && (c <=? 57)) with false by lia. reflexivity.
      * replace ((48 <=? c) && (c <=? 57)) with true by lia. cbn [andb].
        cbv zeta. unfold MaxId. change (65535 / 10) with 6553.
        pose proof (dfold_ge cs (result * 10 + (c - 48))) as Hge.
        destruct (6553 <? result) eqn:E3.
        { replace (dfold cs (result * 10 + (c - 48)) <=? 65535) with false by lia.
          rewrite andb_false_r. reflexivity. }
        replace (u16 (result * 10)) with (result * 10).
        2:{ unfold u16. change (2^16) with 65536. rewrite N.mod_small by lia. reflexivity. }
        destruct (65535 - (c - 48) <? result * 10) eqn:E4.
        { replace (dfold cs (result * 10 + (c - 48)) <=? 65535) with false by lia.
          rewrite andb_false_r. reflexivity. }
        replace (u16 (result * 10 + (c - 48))) with (result * 10 + (c - 48)).
        2:{ unfold u16. change (2^16) with 65536. rewrite N.mod_small by lia. reflexivity. }
        apply IH; [discriminate|lia].
Qed.

Lemma loop_decimal : forall cs, validateLoop cs true 0 =
  if digitsb cs && (decimal cs <=? 65535) then Val (decimal cs) else Throw DomainError.
Proof. intro cs. rewrite validateLoop_spec by lia. reflexivity. Qed.

Lemma firstn_len : forall (a b : bytes), firstn (N.to_nat (len a)) (a ++ b) = a.
Proof.
  intros a b. unfold len. rewrite Nat2N.id. rewrite firstn_app, Nat.sub_diag. cbn [firstn].
  rewrite app_nil_r. apply firstn_all.
Qed.

(** suffix of one or two characters *)
Lemma validate_suffix : forall ds suf, suf <> [] ->
  validate (ds ++ suf) 0 (len suf) =
    if match ds with [] => false | _ => true end && digitsb ds
       && (1 <=? decimal ds) && (decimal ds <=? 65535)
    then Val (decimal ds) else Throw DomainError.
Proof.
  intros ds suf Hs. unfold validate. rewrite len_app.
  assert (Hl : 1 <= len suf) by (destruct suf; [congruence|rewrite len_cons; lia]).
  replace (len suf =? 0) with false by lia. rewrite andb_false_r.
  replace (len ds + len suf <? 0 + len suf) with false by lia.
  destruct ds as [|d ds].
  - rewrite len_nil. replace (0 + len suf - 0 - len suf =? 0) with true by lia. reflexivity.
  - rewrite len_cons. replace (1 + len ds + len suf - 0 - len suf =? 0) with false by lia.
    change (N.to_nat 0) with 0%nat. cbn [skipn].
    replace (1 + len ds + len suf - len suf - 0) with (len (d :: ds)) by (rewrite len_cons; lia).
    rewrite firstn_len, loop_decimal. cbn [andb].
    destruct (digitsb (d :: ds)); [|reflexivity]. cbn [andb].
    destruct (decimal (d :: ds) <=? 65535) eqn:E; [|rewrite andb_false_r; reflexivity].
    cbn [obind]. change (0 =? 0) with true. cbn [negb orb andb].
    destruct (decimal (d :: ds) =? 0) eqn:E2.
    + replace (1 <=? decimal (d :: ds)) with false by lia. reflexivity.
    + replace (1 <=? decimal (d :: ds)) with true by lia. reflexivity.
Qed.
Lemma validate_prefix : forall ds,
  validate (72 :: ds) 1 0 =
    if match ds with [] => false | _ => true end && digitsb ds
       && (1 <=? decimal ds) && (decimal ds <=? 65535)
    then Val (decimal ds) else Throw DomainError.
Proof.
  intro ds. unfold validate. rewrite len_cons.
  replace (1 + len ds =? 0) with false by lia. cbn [andb].
  replace (1 + len ds <? 1 + 0) with false by lia.
  destruct ds as [|d ds].
  - reflexivity.
  - rewrite len_cons. replace (1 + (1 + len ds) - 1 - 0 =? 0) with false by lia.
    change (N.to_nat 1) with 1%nat. cbn [skipn].
    replace (1 + (1 + len ds) - 0 - 1) with (len (d :: ds)) by (rewrite len_cons; lia).
    rewrite <- (app_nil_r (d :: ds)) at 2.
    rewrite firstn_len, loop_decimal. cbn [andb].
    destruct (digitsb (d :: ds)); [|reflexivity]. cbn [andb].
    destruct (decimal (d :: ds) <=? 65535) eqn:E; [|rewrite andb_false_r; reflexivity].
    cbn [obind]. change (1 =? 0) with false. cbn [negb orb andb].
    destruct (decimal (d :: ds) =? 0) eqn:E2.
    + replace (1 <=? decimal (d :: ds)) with false by lia. reflexivity.
    + replace (1 <=? decimal (d :: ds)) with true by lia. reflexivity.
Qed.
Lemma validate_plain : forall ds,
  validate ds 0 0 =
    if digitsb ds && (decimal ds <=? 65535) then Val (decimal ds) else Throw DomainError.
Proof.
  intro ds. unfold validate. change (0 =? 0) with true. rewrite !andb_true_r.
  destruct ds as [|d ds]; [reflexivity|].
  rewrite len_cons. replace (1 + len ds =? 0) with false by lia.
  replace (1 + len ds <? 0 + 0) with false by lia.
  replace (1 + len ds - 0 - 0 =? 0) with false by lia.
  change (N.to_nat 0) with 0%nat. cbn [skipn].
  replace (1 + len ds - 0 - 0) with (len (d :: ds)) by (rewrite len_cons; lia).
  rewrite <- (app_nil_r (d :: ds)) at 2.
  rewrite firstn_len, loop_decimal. cbn [negb orb andb].
  destruct (digitsb (d :: ds) && (decimal (d :: ds) <=? 65535)); reflexivity.
Qed.

Lemma digits_no_suffix : forall ds x, Forall is_digit ds -> ~ is_digit x -> forall r, ds <> r ++ [x].
Proof.
  intros ds x H Hx r ->. apply Forall_app in H. destruct H as [_ H].
  apply Forall_cons_iff in H. tauto.
Qed.

Lemma digits_classes : forall ds, Forall is_digit ds ->
  isDoublePrime ds = false /\ isPrime ds = false /\ isSupplemental ds = false.
Proof.
  intros ds H. unfold isDoublePrime, isPrime, isSupplemental.
  assert (HP : forall x, ~ is_digit x -> ends_with_str ds [x] = false).
  { intros x Hx. destruct (ends_with_str ds [x]) eqn:E; [|reflexivity].
    apply ends_with_iff in E. destruct E as [r E]. exfalso. exact (digits_no_suffix ds x H Hx r E). }
  assert (HPP : forall x, ~ is_digit x -> ends_with_str ds [x; x] = false).
  { intros x Hx. destruct (ends_with_str ds [x; x]) eqn:E; [|reflexivity].
    apply ends_with_iff in E. destruct E as [r E]. exfalso.
    apply (digits_no_suffix ds x H Hx (r ++ [x])). rewrite <- app_assoc. exact E. }
  rewrite !HP, !HPP by (unfold is_digit; lia). repeat split.
  destruct (starts_with ds [72]) eqn:E; [|reflexivity]. apply starts_with_iff in E.
  destruct E as [r ->]. cbn [app] in H. apply Forall_cons_iff in H. unfold is_digit in H. lia.
Qed.

Lemma ends_snoc : forall s x y, ends_with_str (s ++ [x]) [y] = (y =? x).
Proof.
  intros s x y. unfold ends_with_str. rewrite rev_app_distr. cbn.
  replace (starts_with (rev s) []) with true by (destruct (rev s); reflexivity). apply andb_true_r.
Qed.
Lemma ends_snoc2 : forall s x y z, ends_with_str (s ++ [x]) [z; y] = (y =? x) && ends_with_str s [z].
Proof.
  intros s x y z. unfold ends_with_str. rewrite rev_app_distr. reflexivity.
Qed.
Lemma ends_digits : forall ds z, Forall is_digit ds -> ~ is_digit z -> ends_with_str ds [z] = false.
Proof.
  intros ds z H Hz. destruct (ends_with_str ds [z]) eqn:E; [|reflexivity].
  apply ends_with_iff in E. destruct E as [r E]. exfalso. exact (digits_no_suffix ds z H Hz r E).
Qed.

Lemma app_cases : forall (A : Type) (s : list A), s = [] \/ exists r x, s = r ++ [x].
Proof.
  intros A s. destruct s as [|a s]; [left; reflexivity|right].
  destruct (exists_last (l := a :: s)) as [r [x E]]; [discriminate|]. exists r, x. exact E.
Qed.

Lemma numeral_test : forall ds,
  match ds with [] => false | _ => true end && digitsb ds && (1 <=? decimal ds) && (decimal ds <=? 65535) = true
  <-> numeral ds /\ 1 <= decimal ds <= 65535.
Proof.
  intro ds. rewrite !andb_true_iff, digitsb_spec. unfold numeral.
  split; [intros [[[H1 H2] H3] H4]|intros [[H1 H2] [H3 H4]]].
  - repeat split; [destruct ds; [discriminate H1|discriminate]|exact H2|lia|lia].
  - repeat split; [destruct ds; [congruence|reflexivity]|exact H2|lia|lia].
Qed.

Lemma morohashi_iff : forall s i t, newMorohashi s = Val (i, t) <-> morohashi s i t.
Proof.
  intros s i t. split.
  - unfold newMorohashi, getId, getIdType. intro H.
    destruct (isDoublePrime s) eqn:Ed.
    { apply orb_true_iff in Ed.
      assert (Hs : exists ds suf, (suf = [80;80] \/ suf = [39;39]) /\ s = ds ++ suf).
      { destruct Ed as [E|E]; apply ends_with_iff in E; destruct E as [r E]; subst s; eauto. }
      destruct Hs as [ds [suf [Hsuf ->]]].
      assert (Hne : suf <> []) by (destruct Hsuf; subst; discriminate).
      assert (Hl : len suf = 2) by (destruct Hsuf; subst; reflexivity).
      pose proof (validate_suffix ds suf Hne) as Hv. rewrite Hl in Hv. rewrite Hv in H.
      destruct (_ && digitsb ds && _ && _) eqn:En; [|discriminate].
      cbn [obind] in H. inversion H; subst. apply numeral_test in En. destruct En as [N1 N2].
      apply m_double; auto. }
    destruct (isPrime s) eqn:Ep.
    { apply orb_true_iff in Ep.
      assert (Hs : exists ds suf, (suf = [80] \/ suf = [39]) /\ s = ds ++ suf).
      { destruct Ep as [E|E]; apply ends_with_iff in E; destruct E as [r E]; subst s; eauto. }
      destruct Hs as [ds [suf [Hsuf ->]]].
      assert (Hne : suf <> []) by (destruct Hsuf; subst; discriminate).
      assert (Hl : len suf = 1) by (destruct Hsuf; subst; reflexivity).
      pose proof (validate_suffix ds suf Hne) as Hv. rewrite Hl in Hv. rewrite Hv in H.
      destruct (_ && digitsb ds && _ && _) eqn:En; [|discriminate].
      cbn [obind] in H. inversion H; subst. apply numeral_test in En. destruct En as [N1 N2].
      apply m_prime; auto. }
    destruct (isSupplemental s) eqn:Es.
    { apply starts_with_iff in Es. destruct Es as [ds ->]. cbn [app] in H.
      rewrite validate_prefix in H.
      destruct (_ && digitsb ds && _ && _) eqn:En; [|discriminate].
      cbn [obind] in H. inversion H; subst. apply numeral_test in En. destruct En as [N1 N2].
      apply (m_supplemental ds); auto. }
    rewrite validate_plain in H.
    destruct (digitsb s && (decimal s <=? 65535)) eqn:En; [|discriminate].
    cbn [obind] in H. inversion H; subst.
    apply andb_true_iff in En. destruct En as [En1 En2]. apply digitsb_spec in En1.
    destruct s as [|c s]; [apply m_empty|]. apply m_plain; [split; [discriminate|exact En1]|lia].
  - intro H. unfold newMorohashi, getId, getIdType.
    inversion H as [|ds Hn Hd|ds suf Hn Hd Hs|ds suf Hn Hd Hs|ds Hn Hd]; subst.
    + reflexivity.
    + destruct Hn as [Hn1 Hn2]. destruct (digits_classes s Hn2) as [-> [-> ->]].
      rewrite validate_plain. replace (digitsb s) with true by (symmetry; apply digitsb_spec; exact Hn2).
      replace (decimal s <=? 65535) with true by lia. reflexivity.
    + assert (Hne : suf <> []) by (destruct Hs; subst; discriminate).
      assert (Hl : len suf = 1) by (destruct Hs; subst; reflexivity).
      pose proof (validate_suffix ds suf Hne) as Hv. rewrite Hl in Hv.
      rewrite (proj2 (numeral_test ds) (conj Hn Hd)) in Hv.
      destruct Hn as [Hn1 Hn2].
      assert (E1 : isDoublePrime (ds ++ suf) = false).
      { unfold isDoublePrime. destruct Hs as [-> | ->]; cbn [b_].
        - change (b_ "P") with [80]. rewrite !ends_snoc2.
          rewrite (ends_digits ds 80), (ends_digits ds 39) by (auto; unfold is_digit; lia).
          rewrite !andb_false_r. reflexivity.
        - change (b_ "'") with [39]. rewrite !ends_snoc2.
          rewrite (ends_digits ds 80), (ends_digits ds 39) by (auto; unfold is_digit; lia).
          rewrite !andb_false_r. reflexivity. }
      assert (E2 : isPrime (ds ++ suf) = true).
      { unfold isPrime. destruct Hs as [-> | ->].
        - change (b_ "P") with [80]. rewrite !ends_snoc. reflexivity.
        - change (b_ "'") with [39]. rewrite !ends_snoc. reflexivity. }
      rewrite E1, E2, Hv. reflexivity.
    + assert (Hne : suf <> []) by (destruct Hs; subst; discriminate).
      assert (Hl : len suf = 2) by (destruct Hs; subst; reflexivity).
      pose proof (validate_suffix ds suf Hne) as Hv. rewrite Hl in Hv.
      rewrite (proj2 (numeral_test ds) (conj Hn Hd)) in Hv.
      assert (E1 : isDoublePrime (ds ++ suf) = true).
      { unfold isDoublePrime. apply orb_true_iff. destruct Hs as [-> | ->]; [left|right];
          apply ends_with_iff; exists ds; reflexivity. }
      rewrite E1, Hv. reflexivity.
    + change (b_ "H" ++ ds) with (72 :: ds).
      assert (Hcons : forall p, ends_with_str (72 :: ds) p = true -> Forall (fun c => c <> 72 /\ ~ is_digit c) p -> p <> [] -> False).
      { intros p Hp Hf Hpe. apply ends_with_iff in Hp. destruct Hp as [r Hp].
        destruct (app_cases _ p) as [->|[p' [x ->]]]; [congruence|].
        apply Forall_app in Hf. destruct Hf as [_ Hf]. apply Forall_cons_iff in Hf. destruct Hf as [[Hx1 Hx2] _].
        destruct Hn as [Hn1 Hn2]. destruct (app_cases _ ds) as [->|[d' [y ->]]]; [congruence|].
        rewrite app_assoc in Hp. change (72 :: d' ++ [y]) with ((72 :: d') ++ [y]) in Hp.
        apply app_inj_tail in Hp. destruct Hp as [_ ->].
        apply Forall_app in Hn2. destruct Hn2 as [_ Hn2]. apply Forall_cons_iff in Hn2. tauto. }
      assert (E1 : isDoublePrime (72 :: ds) = false).
      { unfold isDoublePrime. destruct (ends_with_str (72 :: ds) [80;80]) eqn:Ea.
        - exfalso. eapply Hcons; [exact Ea| |discriminate]. repeat constructor; unfold is_digit; lia.
        - destruct (ends_with_str (72 :: ds) [39;39]) eqn:Eb; [|reflexivity].
          exfalso. eapply Hcons; [exact Eb| |discriminate]. repeat constructor; unfold is_digit; lia. }
      assert (E2 : isPrime (72 :: ds) = false).
      { unfold isPrime. destruct (ends_with_str (72 :: ds) [80]) eqn:Ea.
        - exfalso. eapply Hcons; [exact Ea| |discriminate]. repeat constructor; unfold is_digit; lia.
        - destruct (ends_with_str (72 :: ds) [39]) eqn:Eb; [|reflexivity].
          exfalso. eapply Hcons; [exact Eb| |discriminate]. repeat constructor; unfold is_digit; lia. }
      rewrite E1, E2. replace (isSupplemental (72 :: ds)) with true by (destruct ds; reflexivity).
      rewrite validate_prefix, (proj2 (numeral_test ds) (conj Hn Hd)). reflexivity.
Qed.

Lemma if_cases : forall (b : bool) (x : N), (exists v, (if b then Val x else Throw DomainError) = Val v)
  \/ (if b then Val x else Throw DomainError) = @Throw N DomainError.
Proof. intros [|] x; [left; eauto|right; reflexivity]. Qed.

Lemma morohashi_total : forall s, (exists i t, newMorohashi s = Val (i, t)) \/ newMorohashi s = Throw DomainError.
Proof.
  intro s. unfold newMorohashi.
  assert (H : (exists v, getId s = Val v) \/ getId s = Throw DomainError).
  { unfold getId. destruct (isDoublePrime s) eqn:Ed.
    { apply orb_true_iff in Ed.
      destruct Ed as [E|E]; apply ends_with_iff in E; destruct E as [r ->].
      - pose proof (validate_suffix r [80;80] ltac:(discriminate)) as Hv. change (len [80;80]) with 2 in Hv.
        rewrite Hv. apply if_cases.
      - pose proof (validate_suffix r [39;39] ltac:(discriminate)) as Hv. change (len [39;39]) with 2 in Hv.
        rewrite Hv. apply if_cases. }
    destruct (isPrime s) eqn:Ep.
    { apply orb_true_iff in Ep.
      destruct Ep as [E|E]; apply ends_with_iff in E; destruct E as [r ->].
      - pose proof (validate_suffix r [80] ltac:(discriminate)) as Hv. change (len [80]) with 1 in Hv.
        rewrite Hv. apply if_cases.
      - pose proof (validate_suffix r [39] ltac:(discriminate)) as Hv. change (len [39]) with 1 in Hv.
        rewrite Hv. apply if_cases. }
    destruct (isSupplemental s) eqn:Es.
    { apply starts_with_iff in Es. destruct Es as [ds ->]. cbn [app].
      rewrite validate_prefix. apply if_cases. }
    rewrite validate_plain. apply if_cases. }
  destruct H as [[v ->]| ->]; [left; cbn [obind]; eauto|right; reflexivity].
Qed.

Lemma to_string_numeral : forall x, numeral (to_string x).
Proof. intro x. split; [apply to_string_nonempty|apply to_string_digits]. Qed.

Lemma morohashi_values : forall s i t, morohashi s i t -> i <= 65535 /\ (i = 0 -> t = Plain).
Proof. intros s i t H. destruct H; split; intros; try lia; reflexivity. Qed.

Lemma morohashi_roundtrip : forall i t, i <= 65535 -> (i = 0 -> t = Plain) ->
  newMorohashi (morohashiToString (i, t)) = Val (i, t).
Proof.
  intros i t Hi H0. apply morohashi_iff. unfold morohashiToString.
  destruct (i =? 0) eqn:E.
  - apply N.eqb_eq in E. rewrite (H0 E), E. apply m_empty.
  - apply N.eqb_neq in E. pose proof (to_string_decimal i) as Hd. pose proof (to_string_numeral i) as Hn.
    destruct t.
    + rewrite <- Hd at 2. apply m_plain; [exact Hn|lia].
    + rewrite <- Hd at 2. apply m_prime; [exact Hn|lia|left; reflexivity].
    + rewrite <- Hd at 2. apply m_double; [exact Hn|lia|left; reflexivity].
    + rewrite <- Hd at 2. apply (m_supplemental (to_string i)); [exact Hn|lia].
Qed.

Lemma morohashi_text_roundtrip : forall s i t, newMorohashi s = Val (i, t) ->
  newMorohashi (morohashiToString (i, t)) = Val (i, t).
Proof.
  intros s i t H. apply morohashi_iff in H. apply morohashi_values in H. destruct H.
  apply morohashi_roundtrip; assumption.
Qed.

Lemma typeNumber_inj : forall a b, typeNumber a = typeNumber b -> a = b.
Proof. intros [] [] H; try reflexivity; discriminate. Qed.

(** lexicographic *)
Lemma morohashi_order : forall a b,
  (morohashiCompare a b = Lt <-> fst a < fst b \/ (fst a = fst b /\ typeNumber (snd a) < typeNumber (snd b)))
  /\ (morohashiCompare a b = Eq <-> a = b)
  /\ morohashiCompare b a = CompOpp (morohashiCompare a b).
Proof.
  intros [i t] [j u]. unfold morohashiCompare. cbn [fst snd].
  rewrite (N.compare_antisym i j), (N.compare_antisym (typeNumber t) (typeNumber u)).
  destruct (i ?= j) eqn:E; cbn [CompOpp].
  - apply N.compare_eq_iff in E. subst j. split; [|split].
    + rewrite N.compare_lt_iff. lia.
    + rewrite N.compare_eq_iff. split; [intro H; apply typeNumber_inj in H; congruence|intro H; congruence].
    + reflexivity.
  - rewrite N.compare_lt_iff in E. split; [|split].
    + split; [left; exact E|reflexivity].
    + split; [discriminate|]. intro H. inversion H. lia.
    + reflexivity.
  - rewrite N.compare_gt_iff in E. split; [|split].
    + split; [discriminate|]. lia.
    + split; [discriminate|]. intro H. inversion H. lia.
    + reflexivity.
Qed.

(** ** Strokes *)

Lemma strokes_iff : forall v,
  newStrokes v = if (1 <=? v) && (v <=? 64) then Val (v, 0) else Throw RangeError.
Proof.
  intro v. unfold newStrokes, MaxStrokes. destruct ((v =? 0) || (64 <? v)) eqn:E.
  - replace ((1 <=? v) && (v <=? 64)) with false by lia. reflexivity.
  - replace ((1 <=? v) && (v <=? 64)) with true by lia. reflexivity.
Qed.
Lemma strokes2_iff : forall v w s, newStrokes2 v w = Val s <->
  (2 <= v <= 64 /\ 3 <= w <= 33 /\ v <> w /\ s = (v, w)).
Proof.
  intros v w s. unfold newStrokes2, MaxStrokes, MaxVariant.
  destruct ((v <? 2) || (64 <? v)) eqn:E1; [split; [discriminate|lia]|].
  destruct ((w <? 3) || (33 <? w)) eqn:E2; [split; [discriminate|lia]|].
  destruct (v =? w) eqn:E3; [split; [discriminate|lia]|].
  split.
  - intro H. inversion H. repeat split; lia.
  - intros [_ [_ [_ ->]]]. reflexivity.
Qed.
Lemma strokes2_errors : forall v w,
  (~ (2 <= v <= 64) \/ ~ (3 <= w <= 33) -> newStrokes2 v w = Throw RangeError)
  /\ (2 <= v <= 64 -> 3 <= w <= 33 -> v = w -> newStrokes2 v w = Throw DomainError).
Proof.
  intros v w. unfold newStrokes2, MaxStrokes, MaxVariant. split.
  - intro H. destruct ((v <? 2) || (64 <? v)) eqn:E1; [reflexivity|].
    replace ((w <? 3) || (33 <? w)) with true by lia. reflexivity.
  - intros H1 H2 H3. replace ((v <? 2) || (64 <? v)) with false by lia.
    replace ((w <? 3) || (33 <? w)) with false by lia.
    replace (v =? w) with true by lia. reflexivity.
Qed.

Lemma digits_slash_inj : forall a b x y, Forall is_digit a -> Forall is_digit b ->
  a ++ 47 :: x = b ++ 47 :: y -> a = b /\ x = y.
Proof.
  induction a as [|c a IH]; intros b x y Ha Hb H.
  - destruct b as [|d b]; cbn [app] in H; [inversion H; auto|].
    inversion H; subst. apply Forall_cons_iff in Hb. unfold is_digit in Hb. lia.
  - destruct b as [|d b]; cbn [app] in H.
    + inversion H; subst. apply Forall_cons_iff in Ha. unfold is_digit in Ha. lia.
    + inversion H; subst. apply Forall_cons_iff in Ha. apply Forall_cons_iff in Hb.
      destruct (IH b x y) as [-> ->]; tauto.
Qed.

Lemma strokes_to_string_inj : forall a b, strokesToString a true = strokesToString b true -> a = b.
Proof.
  intros [v w] [v' w'] H. unfold strokesToString in H. cbn [fst snd andb] in H.
  destruct (w =? 0) eqn:E1, (w' =? 0) eqn:E2; cbn [negb] in H.
  - rewrite !app_nil_r in H. apply to_string_inj in H. apply N.eqb_eq in E1, E2. congruence.
  - exfalso. rewrite app_nil_r in H. pose proof (to_string_digits v) as Hd. rewrite H in Hd.
    apply Forall_app in Hd. destruct Hd as [_ Hd]. cbn [app] in Hd. apply Forall_cons_iff in Hd.
    unfold is_digit in Hd. lia.
  - exfalso. rewrite app_nil_r in H. pose proof (to_string_digits v') as Hd. rewrite <- H in Hd.
    apply Forall_app in Hd. destruct Hd as [_ Hd]. cbn [app] in Hd. apply Forall_cons_iff in Hd.
    unfold is_digit in Hd. lia.
  - cbn [app] in H. apply digits_slash_inj in H; [|apply to_string_digits|apply to_string_digits].
    destruct H as [H1 H2]. apply to_string_inj in H1, H2. congruence.
Qed.
