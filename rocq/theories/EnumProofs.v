(** Lemmas about enum lists, iterators and maps. *)
From Verif Require Import BaseFacts EnumModel EnumSpec.
From Coq Require ListDec.

Arguments N.add : simpl never.
Arguments N.sub : simpl never.
Arguments N.ltb : simpl never.
Arguments N.leb : simpl never.
Arguments N.eqb : simpl never.
Arguments Z.modulo : simpl never.

Lemma toSize_small : forall x, x < 256 -> toSize (Z.of_N x) = x.
Proof. intros x H. unfold toSize. rewrite Z.mod_small by lia. lia. Qed.
Lemma toSize_lt : forall i, toSize i < 256.
Proof. intro i. unfold toSize. pose proof (Z.mod_pos_bound i 256). lia. Qed.

Lemma setAt_repeat : forall A (d x : A) k r, setAt (repeat d (S k) ++ r) k x = repeat d k ++ x :: r.
Proof.
  intros A d x k r. induction k as [|k IH]; [reflexivity|].
  change (repeat d (S (S k))) with (d :: repeat d (S k)). cbn [app setAt].
  rewrite IH. reflexivity.
Qed.

Lemma none_dec : forall names, {In (b_ "None") names} + {~ In (b_ "None") names}.
Proof. intro names. apply in_dec. exact bytes_eq_dec. Qed.

Lemma findName_cons : forall s k v m, findName s ((k, v) :: m) = if beq k s then Some v else findName s m.
Proof. reflexivity. Qed.

Lemma setNames_ok : forall wn n names, len names <= n -> good_names wn names ->
  exists m, setNames wn n names = Val (m, repeat [] (N.to_nat (n - len names)) ++ names)
    /\ forall s x, findName s m = Some x <->
         exists k, nth_error names k = Some s /\ x = n - len names + N.of_nat k.
Proof.
  intros wn n names. induction names as [|name args IH]; intros Hl [Hnd Hnone]; cbn [setNames].
  - exists []. rewrite len_nil, N.sub_0_r, app_nil_r. split; [reflexivity|].
    intros s x. cbn [findName]. split; [discriminate|]. intros [k [Hk _]].
    rewrite nth_error_nil_none in Hk. discriminate.
  - rewrite len_cons in *. apply NoDup_cons_iff in Hnd. destruct Hnd as [N1 N2].
    destruct IH as [m [E Hm]]; [lia|split; [exact N2|intros Hw Hc; apply (Hnone Hw); right; exact Hc]|].
    rewrite E. cbn [obind].
    replace (wn && beq name (b_ "None")) with false.
    2:{ symmetry. destruct wn; [|reflexivity]. cbn [andb]. apply beq_neq. intros ->.
        apply (Hnone eq_refl). left. reflexivity. }
    unfold insertName.
    assert (Hf : findName name m = None).
    { destruct (findName name m) as [x|] eqn:Ef; [|reflexivity]. apply Hm in Ef.
      destruct Ef as [k [Hk _]]. exfalso. apply N1. eapply nth_error_In. exact Hk. }
    rewrite Hf. cbn [obind]. eexists. split.
    + f_equal. f_equal.
      replace (N.to_nat (n - len args)) with (S (N.to_nat (n - 1 - len args))) by lia.
      rewrite setAt_repeat. replace (n - (1 + len args)) with (n - 1 - len args) by lia. reflexivity.
    + intros s x. rewrite findName_cons. destruct (beq name s) eqn:Eb.
      * apply beq_eq in Eb. subst s. split.
        -- intro H. inversion H; subst x. exists 0%nat. split; [reflexivity|lia].
        -- intros [k [Hk ->]]. destruct k as [|k]; [f_equal; lia|].
           cbn [nth_error] in Hk. exfalso. apply N1. eapply nth_error_In. exact Hk.
      * apply beq_neq in Eb. rewrite Hm. split.
        -- intros [k [Hk ->]]. exists (S k). split; [exact Hk|lia].
        -- intros [k [Hk ->]]. destruct k as [|k]; [cbn in Hk; congruence|].
           exists k. split; [exact Hk|lia].
Qed.

Lemma setNames_bad : forall wn n names, len names <= n -> ~ good_names wn names ->
  setNames wn n names = Throw DomainError.
Proof.
  intros wn n names. induction names as [|name args IH]; intros Hl Hbad; cbn [setNames].
  - exfalso. apply Hbad. split; [constructor|auto].
  - rewrite len_cons in Hl.
    assert (Hdec : good_names wn args \/ ~ good_names wn args).
    { assert (Hd : {NoDup args} + {~ NoDup args}).
      { clear. induction args as [|x l [IH|IH]].
        - left. constructor.
        - destruct (in_dec bytes_eq_dec x l) as [H|H].
          + right. intro Hn. apply NoDup_cons_iff in Hn. tauto.
          + left. constructor; assumption.
        - right. intro Hn. apply NoDup_cons_iff in Hn. tauto. }
      unfold good_names. destruct Hd as [Hd|Hd]; [|tauto].
      destruct wn; [|left; split; [exact Hd|discriminate]].
      destruct (none_dec args) as [H|H]; [right; intros [_ Hc]; exact (Hc eq_refl H)|left; auto]. }
    destruct Hdec as [Hg|Hb].
    + destruct (setNames_ok wn n args ltac:(lia) Hg) as [m [E Hm]]. rewrite E. cbn [obind].
      destruct (wn && beq name (b_ "None")) eqn:En; [reflexivity|].
      unfold insertName. destruct (findName name m) as [x|] eqn:Ef; [reflexivity|].
      exfalso. apply Hbad. destruct Hg as [Hg1 Hg2]. split.
      * constructor; [|exact Hg1]. intro Hin. apply In_nth_error in Hin. destruct Hin as [k Hk].
        assert (findName name m = Some (n - len args + N.of_nat k)); [|congruence].
        apply Hm. exists k. auto.
      * intros -> [Hc|Hc]; [|exact (Hg2 eq_refl Hc)]. cbn [andb] in En. apply beq_neq in En. congruence.
    + rewrite IH by (auto; lia). reflexivity.
Qed.

Lemma create_spec : forall created wn names,
  (created = false -> good_names wn names ->
     exists e, createEnum created wn names = Val e /\ enumNames e = names
       /\ forall s x, enumFromString e s = Val x <-> nth_error names (N.to_nat x) = Some s)
  /\ (created = true \/ ~ good_names wn names -> createEnum created wn names = Throw DomainError).
Proof.
  intros created wn names. unfold createEnum. split.
  - intros -> Hg. destruct (setNames_ok wn (len names) names ltac:(lia) Hg) as [m [E Hm]].
    rewrite E. cbn [obind]. rewrite N.sub_diag. cbn [N.to_nat repeat app].
    eexists. split; [reflexivity|]. split; [reflexivity|].
    intros s x. unfold enumFromString. cbn [nameMap]. rewrite N.sub_diag in Hm. split.
    + intro H. destruct (findName s m) as [y|] eqn:Ef; [|discriminate]. inversion H; subst y.
      apply Hm in Ef. destruct Ef as [k [Hk ->]]. replace (N.to_nat (0 + N.of_nat k)) with k by lia. exact Hk.
    + intro H. assert (Ef : findName s m = Some x).
      { apply Hm. exists (N.to_nat x). split; [exact H|lia]. }
      rewrite Ef. reflexivity.
  - intros [->|Hb]; [reflexivity|]. destruct created; [reflexivity|].
    rewrite setNames_bad by (auto; lia). reflexivity.
Qed.

Lemma fromString_throw : forall e s, (forall x, enumFromString e s <> Val x) -> enumFromString e s = Throw DomainError.
Proof.
  intros e s H. unfold enumFromString in *. destruct (findName s (nameMap e)) as [x|]; [|reflexivity].
  exfalso. exact (H x eq_refl).
Qed.

Lemma toString_ok : forall (wn : bool) e x s, len (enumNames e) + (if wn then 1 else 0) < 256 ->
  nth_error (enumNames e) (N.to_nat x) = Some s -> enumToString wn e x = Val s.
Proof.
  intros wn e x s Hl Hn. assert (Hx : x < len (enumNames e)).
  { assert (H : (N.to_nat x < List.length (enumNames e))%nat) by (apply nth_error_Some; congruence).
    unfold len. lia. }
  unfold enumToString. replace (x =? len (enumNames e)) with false by lia. rewrite andb_false_r.
  unfold baseToString, checkIndex. rewrite toSize_small by (destruct wn; lia). cbv zeta.
  replace (enumSize wn e <=? x) with false by (unfold enumSize; destruct wn; lia).
  cbn [obind]. rewrite Hn. reflexivity.
Qed.

Lemma enum_roundtrip : forall (wn : bool) names e, len names < 255 -> createEnum false wn names = Val e ->
  (forall x, x < len names ->
     exists s, nth_error names (N.to_nat x) = Some s /\ enumToString wn e x = Val s
               /\ enumFromString e s = Val x
               /\ (wn = true -> fromStringAllowNone e s = Val x))
  /\ (forall s, In s names \/ enumFromString e s = Throw DomainError)
  /\ (wn = true -> enumToString wn e (len names) = Val (b_ "None")
        /\ fromStringAllowNone e (b_ "None") = Val (len names)
        /\ fromStringAllowEmpty e [] = Val (len names)
        /\ enumFromString e (b_ "None") = Throw DomainError)
  /\ (forall x, len names + (if wn then 1 else 0) <= x -> x < 256 -> enumToString wn e x = Throw RangeError).
Proof.
  intros wn names e Hl H.
  destruct (create_spec false wn names) as [Hok Hbad].
  assert (Hg : good_names wn names).
  { destruct (setNames wn (len names) names) as [[m arr]|ex| |] eqn:E;
      unfold createEnum in H; rewrite E in H; cbn [obind] in H; try discriminate.
    assert (Hd : good_names wn names \/ ~ good_names wn names).
    { unfold good_names. destruct (ListDec.NoDup_dec bytes_eq_dec names); [|tauto].
      destruct wn; [|left; split; [assumption|discriminate]].
      destruct (none_dec names) as [Hi|Hi]; [right; intros [_ Hc]; exact (Hc eq_refl Hi)|left; auto]. }
    destruct Hd as [Hd|Hd]; [exact Hd|]. rewrite setNames_bad in E by (auto; lia). discriminate. }
  destruct (Hok eq_refl Hg) as [e' [E [En Hf]]]. rewrite H in E. inversion E; subst e'. clear E.
  assert (Hlen : len (enumNames e) + (if wn then 1 else 0) < 256) by (rewrite En; destruct wn; lia).
  assert (Hnone : wn = true -> enumFromString e (b_ "None") = Throw DomainError).
  { intro Hw. apply fromString_throw. intros x Hx. apply Hf in Hx. apply nth_error_In in Hx.
    destruct Hg as [_ Hg]. exact (Hg Hw Hx). }
  split; [|split; [|split]].
  - intros x Hx. assert (Hs : exists s, nth_error names (N.to_nat x) = Some s).
    { destruct (nth_error names (N.to_nat x)) eqn:Es; [eauto|]. apply nth_error_None in Es. unfold len in Hx. lia. }
    destruct Hs as [s Hs]. exists s. split; [exact Hs|]. split.
    + apply toString_ok; [exact Hlen|]. rewrite En. exact Hs.
    + split; [apply Hf; exact Hs|]. intro Hw. unfold fromStringAllowNone.
      replace (beq s (b_ "None")) with false; [apply Hf; exact Hs|].
      symmetry. apply beq_neq. intros ->. destruct Hg as [_ Hg]. apply (Hg Hw). eapply nth_error_In. exact Hs.
  - intro s. destruct (in_dec bytes_eq_dec s names) as [Hi|Hi]; [left; exact Hi|right].
    apply fromString_throw. intros x Hx. apply Hf in Hx. apply Hi. eapply nth_error_In. exact Hx.
  - intros Hw. subst wn. split; [|split; [|split]].
    + unfold enumToString. rewrite En, N.eqb_refl. reflexivity.
    + unfold fromStringAllowNone. rewrite En, beq_refl. reflexivity.
    + unfold fromStringAllowEmpty. rewrite En. reflexivity.
    + apply Hnone. reflexivity.
  - intros x Hx1 Hx2. unfold enumToString. rewrite En.
    replace (wn && (x =? len names)) with false by (destruct wn; cbn [andb]; lia).
    unfold baseToString, checkIndex. rewrite toSize_small by exact Hx2. cbv zeta.
    unfold enumSize. rewrite En.
    replace (len names + (if wn then 1 else 0) <=? x) with true by lia. reflexivity.
Qed.

(** ** Indexing *)

Lemma index_exact : forall n i,
  checkIndex n i = if (i mod 256 <? Z.of_N n)%Z then Val (Z.to_N (i mod 256)) else Throw RangeError.
Proof.
  intros n i. unfold checkIndex, toSize. cbv zeta.
  pose proof (Z.mod_pos_bound i 256 ltac:(lia)).
  destruct (i mod 256 <? Z.of_N n)%Z eqn:E.
  - replace (n <=? Z.to_N (i mod 256)) with false by lia. reflexivity.
  - replace (n <=? Z.to_N (i mod 256)) with true by lia. reflexivity.
Qed.
Lemma index_in_range : forall n i, n <= 256 ->
  ((0 <= i < Z.of_N n)%Z -> checkIndex n i = Val (Z.to_N i))
  /\ ((Z.of_N n <= i < 256)%Z -> checkIndex n i = Throw RangeError)
  /\ ((Z.of_N n - 256 <= i < 0)%Z -> checkIndex n i = Throw RangeError).
Proof.
  intros n i Hn. rewrite index_exact. split; [|split]; intro H.
  - rewrite Z.mod_small by lia. replace (i <? Z.of_N n)%Z with true by lia. reflexivity.
  - rewrite Z.mod_small by lia. replace (i <? Z.of_N n)%Z with false by lia. reflexivity.
  - replace (i mod 256)%Z with (i + 256)%Z.
    + replace (i + 256 <? Z.of_N n)%Z with false by lia. reflexivity.
    + rewrite <- (Z_mod_plus_full i 1 256), Z.mul_1_l. rewrite Z.mod_small by lia. reflexivity.
Qed.

(** ** Iterators *)

Lemma iter_inv : forall n i op j, n < 256 -> i <= n -> iterStep n i op = Val j -> j <= n.
Proof.
  intros n i op j Hn Hi H. destruct op as [| |d|d]; cbn [iterStep] in H.
  - destruct (n <=? i) eqn:E; [discriminate|]. inversion H; subst j.
    unfold u8. rewrite N.mod_small by (change (2^8) with 256; lia). lia.
  - destruct (i =? 0) eqn:E; [discriminate|]. inversion H. lia.
  - unfold iterPlus in H. destruct (negb _); [discriminate|]. destruct (_ <? 0)%Z; [discriminate|]. cbv zeta in H.
    destruct (n <? toSize (Z.of_N i + d)) eqn:E; [discriminate|]. inversion H. lia.
  - destruct (int64_ok (- d)); [|discriminate].
    unfold iterPlus in H. destruct (negb _); [discriminate|]. destruct (_ <? 0)%Z; [discriminate|]. cbv zeta in H.
    destruct (n <? toSize (Z.of_N i + - d)) eqn:E; [discriminate|]. inversion H. lia.
Qed.

Lemma iter_run_inv : forall ops n i j, n < 256 -> i <= n -> iterRun n i ops = Some j ->
  j <= n /\ (iterDeref n j = Throw RangeError <-> j = n)
  /\ (forall v, iterDeref n j = Val v -> v < n /\ v = j).
Proof.
  assert (Hd : forall n j, j <= n -> (iterDeref n j = Throw RangeError <-> j = n)
    /\ (forall v, iterDeref n j = Val v -> v < n /\ v = j)).
  { intros n j Hj. unfold iterDeref. destruct (n <=? j) eqn:E.
    - split; [split; [lia|reflexivity]|discriminate].
    - split; [split; [discriminate|lia]|]. intros v H. inversion H. lia. }
  induction ops as [|op ops IH]; intros n i j Hn Hi H; cbn [iterRun] in H.
  - inversion H; subst. split; [exact Hi|]. apply Hd. exact Hi.
  - destruct (iterStep n i op) as [k|e| |] eqn:E; try discriminate.
    + apply (IH n k j Hn); [|exact H]. eapply iter_inv; eassumption.
    + apply (IH n i j Hn Hi H).
Qed.

(** moving by [d] when the target is below 256: exact *)
Lemma iter_plus_exact : forall n i d, n < 256 -> i <= n -> (Z.of_N i + d < 256)%Z -> (-2^63 <= Z.of_N i + d)%Z ->
  iterPlus n i d = if ((0 <=? Z.of_N i + d) && (Z.of_N i + d <=? Z.of_N n))%Z
                   then Val (Z.to_N (Z.of_N i + d)) else Throw RangeError.
Proof.
  intros n i d Hn Hi Ht Ht2. unfold iterPlus, int64_ok.
  replace ((- 2 ^ 63 <=? Z.of_N i + d) && (Z.of_N i + d <? 2 ^ 63))%Z with true by lia. cbn [negb].
  destruct (Z.of_N i + d <? 0)%Z eqn:E1.
  - replace (0 <=? Z.of_N i + d)%Z with false by lia. reflexivity.
  - replace (0 <=? Z.of_N i + d)%Z with true by lia. cbn [andb]. cbv zeta.
    unfold toSize. rewrite Z.mod_small by lia.
    destruct (Z.of_N i + d <=? Z.of_N n)%Z eqn:E2.
    + replace (n <? Z.to_N (Z.of_N i + d)) with false by lia. reflexivity.
    + replace (n <? Z.to_N (Z.of_N i + d)) with true by lia. reflexivity.
Qed.

(** walking from begin with ++ visits every value once, in order, then stops *)
Lemma iter_walk : forall n k, n < 256 -> N.of_nat k <= n ->
  iterRun n 0 (repeat Incr k) = Some (N.of_nat k).
Proof.
  intros n k Hn Hk.
  assert (H : forall k i, i + N.of_nat k <= n -> iterRun n i (repeat Incr k) = Some (i + N.of_nat k)).
  { clear k Hk. induction k as [|k IH]; intros i Hi; cbn [repeat iterRun].
    - rewrite N.add_0_r. reflexivity.
    - cbn [iterStep]. replace (n <=? i) with false by lia.
      unfold u8. rewrite N.mod_small by (change (2^8) with 256; lia).
      rewrite IH by lia. f_equal. lia. }
  rewrite H by lia. reflexivity.
Qed.

(** ** Maps *)

Lemma setAt_length : forall A (l : list A) i x, List.length (setAt l i x) = List.length l.
Proof. induction l as [|y l IH]; intros [|i] x; cbn [setAt List.length]; auto. Qed.
Lemma setAt_same : forall A (l : list A) i x, (i < List.length l)%nat -> nth_error (setAt l i x) i = Some x.
Proof.
  induction l as [|y l IH]; intros [|i] x H; cbn in *; try lia; [reflexivity|]. apply IH. lia.
Qed.
Lemma setAt_other : forall A (l : list A) i j x, i <> j -> nth_error (setAt l i x) j = nth_error l j.
Proof.
  induction l as [|y l IH]; intros [|i] [|j] x H; cbn; try reflexivity; try lia. apply IH. lia.
Qed.

Lemma mapGet_in : forall V (d : V) vals x v, len vals < 256 -> nth_error vals (N.to_nat x) = Some v ->
  mapGet d vals x = Val v.
Proof.
  intros V d vals x v Hn H.
  assert (Hx : (N.to_nat x < List.length vals)%nat) by (apply nth_error_Some; congruence).
  unfold mapGet. replace (x =? len vals) with false by (unfold len; lia).
  unfold checkIndex. rewrite toSize_small by (unfold len in *; lia). cbv zeta.
  replace (len vals <=? x) with false by (unfold len; lia). cbn [obind]. rewrite H. reflexivity.
Qed.
Lemma mapSet_spec : forall V (vals : list V) x v, x < 256 ->
  mapSet vals x v = if x <? len vals then Val (setAt vals (N.to_nat x) v) else Throw RangeError.
Proof.
  intros V vals x v Hx. unfold mapSet, checkIndex. rewrite toSize_small by exact Hx. cbv zeta.
  destruct (x <? len vals) eqn:E.
  - replace (len vals <=? x) with false by lia. reflexivity.
  - replace (len vals <=? x) with true by lia. reflexivity.
Qed.

Lemma mapRun_spec : forall V (d : V) (ops : list (N * V)) (vals : list V), len vals < 256 ->
  Forall (fun o => fst o < 256) ops ->
  len (mapRun vals ops) = len vals
  /\ (forall x v, nth_error vals (N.to_nat x) = Some v ->
        nth_error (mapRun vals ops) (N.to_nat x) = Some (last_assigned x ops v)).
Proof.
  intros V d. induction ops as [|[y w] ops IH]; intros vals Hn Hops; cbn [mapRun last_assigned].
  - split; [reflexivity|]. auto.
  - apply Forall_cons_iff in Hops. destruct Hops as [Hy Hops]. cbn [fst] in Hy.
    rewrite mapSet_spec by exact Hy. destruct (y <? len vals) eqn:E.
    + assert (Hlen : len (setAt vals (N.to_nat y) w) = len vals) by (unfold len; rewrite setAt_length; reflexivity).
      destruct (IH (setAt vals (N.to_nat y) w)) as [I1 I2]; [rewrite Hlen; exact Hn|exact Hops|].
      split; [rewrite I1; exact Hlen|]. intros x v Hv.
      apply I2. destruct (y =? x) eqn:Ex.
      * apply N.eqb_eq in Ex. subst y. apply setAt_same. unfold len in E. lia.
      * rewrite setAt_other by lia. exact Hv.
    + destruct (IH vals Hn Hops) as [I1 I2]. split; [exact I1|]. intros x v Hv.
      assert (Hx : (N.to_nat x < List.length vals)%nat) by (apply nth_error_Some; congruence).
      replace (y =? x) with false by (unfold len in E; lia). apply I2. exact Hv.
Qed.

Lemma nth_error_repeat' : forall A (d : A) n k, (k < n)%nat -> nth_error (repeat d n) k = Some d.
Proof.
  intros A d n. induction n as [|n IH]; intros [|k] H; cbn [repeat nth_error]; try lia; [reflexivity|].
  apply IH. lia.
Qed.

Lemma enum_map_spec : forall V (d : V) n (ops : list (N * V)) x, n < 256 -> x < 256 ->
  Forall (fun o => fst o < 256) ops ->
  let m := mapRun (repeat d (N.to_nat n)) ops in
  (x < n -> mapGet d m x = Val (last_assigned x ops d))
  /\ (x = n -> mapGet d m x = Val d)
  /\ (n < x -> mapGet d m x = Throw RangeError)
  /\ (forall v, n <= x -> mapSet m x v = Throw RangeError).
Proof.
  intros V d n ops x Hn Hx Hops m.
  assert (Hl : len (repeat d (N.to_nat n)) = n) by (unfold len; rewrite repeat_length; lia).
  destruct (mapRun_spec V d ops (repeat d (N.to_nat n))) as [I1 I2]; [rewrite Hl; exact Hn|exact Hops|].
  fold m in I1, I2. rewrite Hl in I1. split; [|split; [|split]].
  - intro H. apply mapGet_in; [rewrite I1; exact Hn|]. apply I2. apply nth_error_repeat'. lia.
  - intros ->. unfold mapGet. rewrite I1, N.eqb_refl. reflexivity.
  - intro H. unfold mapGet. rewrite I1. replace (x =? n) with false by lia.
    unfold checkIndex. rewrite toSize_small by exact Hx. cbv zeta.
    replace (n <=? x) with true by lia. reflexivity.
  - intros v H. rewrite mapSet_spec by exact Hx. rewrite I1. replace (x <? n) with false by lia. reflexivity.
Qed.
