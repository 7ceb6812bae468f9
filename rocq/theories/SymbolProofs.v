(** Lemmas about symbols. *)
From Verif Require Import BaseFacts SymbolModel StringModel StringProofs.

From Coq Require FinFun.
Arguments N.add : simpl never.
Arguments N.sub : simpl never.
Arguments N.ltb : simpl never.
Arguments N.eqb : simpl never.

(** the map is the inverse of the list *)
Definition inv (st : Symbols) : Prop :=
  NoDup (symList st) /\ ~ In [] (symList st) /\ symSize st <= SymbolMax
  /\ (forall name i, lookup name (symMap st) = Some i <->
        (i <> 0 /\ nth_error (symList st) (N.to_nat (i - 1)) = Some name)).

Lemma inv_empty : inv noSymbols.
Proof.
  repeat split; cbn; try discriminate; auto; try (constructor; fail).
  intros [_ H]. rewrite nth_error_nil_none in H. discriminate.
Qed.

Lemma lookup_none : forall st name, inv st -> (lookup name (symMap st) = None <-> ~ In name (symList st)).
Proof.
  intros st name [_ [_ [_ H]]]. split.
  - intros E Hin. apply In_nth_error in Hin. destruct Hin as [n Hn].
    assert (lookup name (symMap st) = Some (N.of_nat n + 1)); [|congruence].
    apply H. split; [lia|]. replace (N.to_nat (N.of_nat n + 1 - 1)) with n by lia. exact Hn.
  - intro Hn. destruct (lookup name (symMap st)) as [i|] eqn:E; [|reflexivity].
    apply H in E. destruct E as [_ E]. apply nth_error_In in E. contradiction.
Qed.

Lemma newSymbol_inv : forall st name, inv st ->
  let '(o, st') := newSymbol st name in
  inv st'
  /\ (exists ext, symList st' = symList st ++ ext)
  /\ match o with
     | Val i => (name = [] /\ i = 0 /\ st' = st)
                \/ (name <> [] /\ i <> 0 /\ nth_error (symList st') (N.to_nat (i - 1)) = Some name
                    /\ (In name (symList st) -> st' = st)
                    /\ (~ In name (symList st) -> symList st' = symList st ++ [name]))
     | Throw e => e = DomainError /\ st' = st /\ symSize st = SymbolMax
                  /\ name <> [] /\ ~ In name (symList st)
     | _ => False
     end.
Proof.
  intros st name Hinv. unfold newSymbol. destruct name as [|b name0] eqn:En.
  { split; [exact Hinv|]. split; [exists []; rewrite app_nil_r; reflexivity|]. left. auto. }
  rewrite <- En in *. assert (Hne : name <> []) by (rewrite En; discriminate).
  unfold symGetId. destruct (len (symList st) <? SymbolMax) eqn:El.
  - destruct (lookup name (symMap st)) as [i|] eqn:E.
    + split; [exact Hinv|]. split; [exists []; rewrite app_nil_r; reflexivity|]. right.
      pose proof E as E'. apply Hinv in E. destruct E as [E1 E2].
      repeat split; auto. intro Hc. exfalso. apply Hc. eapply nth_error_In. exact E2.
    + pose proof (proj1 (lookup_none st name Hinv) E) as Hni.
      destruct Hinv as [I1 [I2 [I3 I4]]]. unfold symSize in *.
      assert (Hu : u16 (len (symList st) + 1) = len (symList st) + 1).
      { unfold u16, SymbolMax in *. apply N.mod_small. change (2^16) with 65536. lia. }
      rewrite Hu. split; [|split].
      * split; [|split; [|split]].
        -- cbn [symList]. apply NoDup_Add with (a := name) (l := symList st).
           ++ rewrite <- (app_nil_r (symList st)) at 1. apply Add_app.
           ++ split; assumption.
        -- cbn [symList]. intro Hi. apply in_app_or in Hi. destruct Hi as [Hi|[Hi|[]]]; [contradiction|congruence].
        -- unfold symSize. cbn [symList]. rewrite len_app. change (len [name]) with 1. lia.
        -- intros n j. cbn [symMap symList lookup]. destruct (beq name n) eqn:Eb.
           ++ apply beq_eq in Eb. subst n. split.
              ** intro H. inversion H; subst j. split; [lia|].
                 replace (N.to_nat (len (symList st) + 1 - 1)) with (List.length (symList st)) by (unfold len; lia).
                 rewrite nth_error_app2, Nat.sub_diag by lia. reflexivity.
              ** intros [Hj Hn]. f_equal.
                 destruct (Nat.lt_ge_cases (N.to_nat (j - 1)) (List.length (symList st))) as [Hlt|Hge].
                 --- rewrite nth_error_app1 in Hn by exact Hlt. exfalso. apply Hni. eapply nth_error_In. exact Hn.
                 --- rewrite nth_error_app2 in Hn by exact Hge.
                     destruct (N.to_nat (j - 1) - List.length (symList st))%nat as [|k] eqn:Ek;
                       [unfold len; lia|]. cbn [nth_error] in Hn. rewrite nth_error_nil_none in Hn. discriminate.
           ++ apply beq_neq in Eb. rewrite I4. split.
              ** intros [Hj Hn]. split; [exact Hj|]. rewrite nth_error_app1; [exact Hn|].
                 apply nth_error_Some. congruence.
              ** intros [Hj Hn]. split; [exact Hj|].
                 destruct (Nat.lt_ge_cases (N.to_nat (j - 1)) (List.length (symList st))) as [Hlt|Hge].
                 --- rewrite nth_error_app1 in Hn by exact Hlt. exact Hn.
                 --- rewrite nth_error_app2 in Hn by exact Hge.
                     destruct (N.to_nat (j - 1) - List.length (symList st))%nat as [|k] eqn:Ek.
                     +++ cbn in Hn. congruence.
                     +++ cbn [nth_error] in Hn. rewrite nth_error_nil_none in Hn. discriminate.
      * exists [name]. reflexivity.
      * right. cbn [symList]. repeat split; auto; [lia| |contradiction].
        replace (N.to_nat (len (symList st) + 1 - 1)) with (List.length (symList st)) by (unfold len; lia).
        rewrite nth_error_app2, Nat.sub_diag by lia. reflexivity.
  - destruct (lookup name (symMap st)) as [i|] eqn:E.
    + split; [exact Hinv|]. split; [exists []; rewrite app_nil_r; reflexivity|]. right.
      pose proof E as E'. apply Hinv in E. destruct E as [E1 E2].
      repeat split; auto. intro Hc. exfalso. apply Hc. eapply nth_error_In. exact E2.
    + split; [exact Hinv|]. split; [exists []; rewrite app_nil_r; reflexivity|].
      pose proof (proj1 (lookup_none st name Hinv) E) as Hni.
      destruct Hinv as [_ [_ [I3 _]]]. unfold symSize in *. repeat split; auto. lia.
Qed.

Lemma newSymbols_spec : forall names st, inv st ->
  let '(os, st') := newSymbols st names in
  inv st'
  /\ (exists ext, symList st' = symList st ++ ext)
  /\ List.length os = List.length names
  /\ (forall k name, nth_error names k = Some name ->
        (exists i, nth_error os k = Some (Val i)
           /\ ((name = [] /\ i = 0) \/ (name <> [] /\ i <> 0 /\ nth_error (symList st') (N.to_nat (i - 1)) = Some name)))
        \/ (nth_error os k = Some (Throw DomainError) /\ name <> [] /\ symSize st' = SymbolMax
            /\ ~ In name (symList st')))
  /\ (forall name, In name (symList st') -> In name (symList st) \/ In name names).
Proof.
  induction names as [|n names IH]; intros st Hinv; cbn [newSymbols].
  - split; [exact Hinv|]. split; [exists []; rewrite app_nil_r; reflexivity|]. split; [reflexivity|].
    split; [|auto]. intros k name H. rewrite nth_error_nil_none in H. discriminate.
  - pose proof (newSymbol_inv st n Hinv) as H1. destruct (newSymbol st n) as [o st1].
    destruct H1 as [Hinv1 [[ext1 Hext1] Ho]].
    pose proof (IH st1 Hinv1) as H2. destruct (newSymbols st1 names) as [os st2].
    destruct H2 as [Hinv2 [[ext2 Hext2] [Hlen [Hk Hin]]]].
    split; [exact Hinv2|]. split; [exists (ext1 ++ ext2); rewrite Hext2, Hext1, app_assoc; reflexivity|].
    split; [cbn [List.length]; congruence|]. split.
    + intros k name Hname. destruct k as [|k]; [|cbn [nth_error] in *; apply Hk; exact Hname].
      cbn [nth_error] in Hname. inversion Hname; subst name. cbn [nth_error].
      destruct o as [i|e| |]; try contradiction.
      * left. exists i. split; [reflexivity|]. destruct Ho as [[H1 [H2 _]]|[H1 [H2 [H3 _]]]]; [left; auto|right].
        split; [exact H1|]. split; [exact H2|]. rewrite Hext2. rewrite nth_error_app1; [exact H3|].
        apply nth_error_Some. congruence.
      * right. destruct Ho as [-> [E1 [E2 [E3 E4]]]]. split; [reflexivity|]. split; [exact E3|].
        assert (Hsame : ext2 = []).
        { destruct Hinv2 as [_ [_ [I3 _]]]. unfold symSize in *. rewrite Hext2, E1, len_app in I3.
          destruct ext2; [reflexivity|]. rewrite len_cons in I3. lia. }
        subst ext2. rewrite app_nil_r in Hext2. unfold symSize in *. rewrite Hext2, E1. split; assumption.
    + intros name Hn. apply Hin in Hn. destruct Hn as [Hn|Hn]; [|right; right; exact Hn].
      destruct o as [i|e| |]; try contradiction.
      * destruct Ho as [[_ [_ E]]|[_ [_ [_ [Ha Hb]]]]]; [left; congruence|].
        destruct (in_dec bytes_eq_dec n (symList st)) as [Hd|Hd].
        -- left. rewrite (Ha Hd) in Hn. exact Hn.
        -- rewrite (Hb Hd) in Hn. apply in_app_or in Hn. destruct Hn as [Hn|[Hn|[]]]; [left; exact Hn|].
           right. left. exact Hn.
      * destruct Ho as [_ [E _]]. left. congruence.
Qed.

(** ** The property *)

Lemma symbols_bijection : forall names os st,
  newSymbols noSymbols names = (os, st) ->
  List.length os = List.length names
  /\ (forall k name, nth_error names k = Some name ->
        match nth_error os k with
        | Some (Val i) => symName st i = Val name /\ (name = [] <-> i = 0)
                          /\ symExists st name = match name with [] => false | _ => true end
        | Some (Throw DomainError) => name <> [] /\ symSize st = 65534 /\ symExists st name = false
        | _ => False
        end)
  /\ (forall j k i1 i2 a b, nth_error names j = Some a -> nth_error names k = Some b ->
        nth_error os j = Some (Val i1) -> nth_error os k = Some (Val i2) -> (i1 = i2 <-> a = b))
  /\ symSize st <= 65534
  /\ (forall name, symExists st name = true -> In name names).
Proof.
  intros names os st H. pose proof (newSymbols_spec names noSymbols inv_empty) as S. rewrite H in S.
  destruct S as [Hinv [_ [Hlen [Hk Hin]]]].
  assert (Hex : forall name, symExists st name = true <-> name <> [] /\ In name (symList st)).
  { intro name. unfold symExists. destruct name as [|b r] eqn:E.
    - split; [discriminate|]. intros [Hc _]. congruence.
    - rewrite <- E in *. destruct (lookup name (symMap st)) as [i|] eqn:El.
      + split; [|reflexivity]. intros _. split; [rewrite E; discriminate|].
        apply Hinv in El. eapply nth_error_In. apply El.
      + split; [discriminate|]. intros [_ Hc]. exfalso. exact (proj1 (lookup_none st name Hinv) El Hc). }
  split; [exact Hlen|]. split; [|split; [|split]].
  - intros k name Hn. destruct (Hk k name Hn) as [[i [E [[-> ->]|[H1 [H2 H3]]]]]|[E [H1 [H2 H3]]]]; rewrite E.
    + repeat split; reflexivity.
    + split; [|split].
      * unfold symName. replace (i =? 0) with false by lia. rewrite H3. reflexivity.
      * split; [contradiction|lia].
      * destruct name; [congruence|]. apply Hex. split; [exact H1|]. eapply nth_error_In. exact H3.
    + split; [exact H1|]. split; [exact H2|].
      destruct (symExists st name) eqn:Ee; [|reflexivity]. apply Hex in Ee. tauto.
  - intros j k i1 i2 a b Ha Hb E1 E2.
    destruct (Hk j a Ha) as [[i [F [[-> ->]|[H1 [H2 H3]]]]]|[F _]]; rewrite F in E1; inversion E1; subst i1; clear E1;
    destruct (Hk k b Hb) as [[i' [F' [[-> ->]|[H1' [H2' H3']]]]]|[F' _]]; rewrite F' in E2; inversion E2; subst i2; clear E2.
    + tauto.
    + split; intro; [congruence|]. exfalso. apply H1'. congruence.
    + split; intro; [contradiction|]. contradiction.
    + destruct Hinv as [I1 _]. split; intro E.
      * subst i'. congruence.
      * subst b. rewrite NoDup_nth_error in I1.
        assert (N.to_nat (i - 1) = N.to_nat (i' - 1)); [|lia].
        apply I1; [|congruence]. apply nth_error_Some. congruence.
  - apply Hinv.
  - intros name He. apply Hex in He. destruct He as [_ He]. apply Hin in He. destruct He as [[]|He]. exact He.
Qed.

(** ids are stable: a later history changes neither the id nor the name *)
Lemma newSymbols_app : forall a b st, newSymbols st (a ++ b) =
  let '(os1, st1) := newSymbols st a in let '(os2, st2) := newSymbols st1 b in (os1 ++ os2, st2).
Proof.
  induction a as [|n a IH]; intros b st; cbn [newSymbols app].
  - destruct (newSymbols st b). reflexivity.
  - destruct (newSymbol st n) as [o st1]. rewrite IH.
    destruct (newSymbols st1 a) as [os1 st2]. destruct (newSymbols st2 b) as [os2 st3]. reflexivity.
Qed.

(** throwing leaves everything as it was *)
Lemma throw_no_effect : forall names os st name e st',
  newSymbols noSymbols names = (os, st) -> newSymbol st name = (Throw e, st') -> st' = st /\ e = DomainError.
Proof.
  intros names os st name e st' H E. pose proof (newSymbols_spec names noSymbols inv_empty) as S. rewrite H in S.
  destruct S as [Hinv _]. pose proof (newSymbol_inv st name Hinv) as S. rewrite E in S. tauto.
Qed.

(** the capacity is exactly 65534: that many distinct names always fit, one more never *)
Lemma fill : forall names st, inv st -> NoDup names -> ~ In [] names ->
  (forall n, In n names -> ~ In n (symList st)) ->
  symSize st + len names <= SymbolMax ->
  let '(os, st') := newSymbols st names in
  Forall (fun o => exists i, o = Val i) os /\ symList st' = symList st ++ names.
Proof.
  induction names as [|n names IH]; intros st Hinv Hnd Hne Hfresh Hsz; cbn [newSymbols].
  - split; [constructor|]. rewrite app_nil_r. reflexivity.
  - pose proof (newSymbol_inv st n Hinv) as H1. destruct (newSymbol st n) as [o st1].
    destruct H1 as [Hinv1 [_ Ho]]. apply NoDup_cons_iff in Hnd. destruct Hnd as [N1 N2].
    rewrite len_cons in Hsz.
    assert (Hl : (exists i, o = Val i) /\ symList st1 = symList st ++ [n]).
    { destruct o as [i|e| |]; try contradiction.
      - split; [eauto|]. destruct Ho as [[E _]|[_ [_ [_ [_ Hb]]]]].
        + exfalso. apply Hne. left. exact E.
        + apply Hb. apply Hfresh. left. reflexivity.
      - exfalso. destruct Ho as [_ [_ [E _]]]. rewrite E in Hsz. lia. }
    destruct Hl as [Hl1 Hl2].
    specialize (IH st1 Hinv1 N2).
    assert (A1 : ~ In [] names) by (intro Hc; apply Hne; right; exact Hc).
    assert (A2 : forall m, In m names -> ~ In m (symList st1)).
    { intros m Hm Hc. rewrite Hl2 in Hc. apply in_app_or in Hc. destruct Hc as [Hc|[Hc|[]]].
      - exact (Hfresh m (or_intror Hm) Hc).
      - subst m. contradiction. }
    assert (A3 : symSize st1 + len names <= SymbolMax).
    { unfold symSize in *. rewrite Hl2, len_app. change (len [n]) with 1. lia. }
    specialize (IH A1 A2 A3). destruct (newSymbols st1 names) as [os st2]. destruct IH as [I1 I2].
    split; [constructor; assumption|]. rewrite I2, Hl2, <- app_assoc. reflexivity.
Qed.

Lemma capacity : forall names, NoDup names -> ~ In [] names ->
  (len names <= 65534 ->
     Forall (fun o => exists i, o = Val i) (fst (newSymbols noSymbols names))
     /\ symSize (snd (newSymbols noSymbols names)) = len names)
  /\ (len names = 65534 -> forall name, name <> [] -> ~ In name names ->
        newSymbol (snd (newSymbols noSymbols names)) name
        = (Throw DomainError, snd (newSymbols noSymbols names))).
Proof.
  intros names Hnd Hne.
  assert (H : len names <= 65534 -> let '(os, st') := newSymbols noSymbols names in
    Forall (fun o => exists i, o = Val i) os /\ symList st' = symList noSymbols ++ names).
  { intro Hl. apply fill; [apply inv_empty|exact Hnd|exact Hne|intros ? ? []|].
    unfold symSize, SymbolMax. cbn [noSymbols symList]. rewrite len_nil. lia. }
  split.
  - intro Hl. specialize (H Hl). destruct (newSymbols noSymbols names) as [os st]. cbn [fst snd].
    destruct H as [H1 H2]. split; [exact H1|]. unfold symSize. rewrite H2. reflexivity.
  - intros Hl name Hn1 Hn2. assert (Hl' : len names <= 65534) by lia. specialize (H Hl').
    pose proof (newSymbols_spec names noSymbols inv_empty) as S.
    destruct (newSymbols noSymbols names) as [os st]. cbn [fst snd]. destruct H as [_ H2].
    destruct S as [Hinv _]. unfold newSymbol. destruct name as [|b r] eqn:E; [congruence|]. rewrite <- E in *.
    unfold symGetId.
    replace (len (symList st) <? SymbolMax) with false.
    2:{ symmetry. apply N.ltb_ge. apply N.eq_le_incl. symmetry. rewrite H2. exact Hl. }
    replace (lookup name (symMap st)) with (@None N); [reflexivity|].
    symmetry. apply lookup_none; [exact Hinv|]. rewrite H2. exact Hn2.
Qed.

Lemma upto_aux_length : forall n s, List.length (upto_aux n s) = n.
Proof. induction n as [|n IH]; intro s; cbn [upto_aux List.length]; [reflexivity|]. rewrite IH. reflexivity. Qed.
Lemma upto_aux_nodup : forall n s, NoDup (upto_aux n s).
Proof.
  induction n as [|n IH]; intro s; cbn [upto_aux]; constructor; [|apply IH].
  intro H. apply in_upto_aux in H. lia.
Qed.
Lemma enough_names : exists names : list bytes, NoDup names /\ ~ In [] names /\ len names = 65534.
Proof.
  exists (map to_string (upto 65534)). split; [|split].
  - apply FinFun.Injective_map_NoDup; [intros x y; apply to_string_inj|apply upto_aux_nodup].
  - intro H. apply in_map_iff in H. destruct H as [x [H _]]. exact (to_string_nonempty x H).
  - unfold len. rewrite map_length. unfold upto. rewrite upto_aux_length. apply N2Nat.id.
Qed.
