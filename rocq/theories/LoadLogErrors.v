(** Lemmas about the errors of loading. *)
From Verif Require Import BaseFacts MapProofs ListProofs Utf8CharLemmas DataModel DataSpec DataProofs LoadModel LoadSpec LoadProofs LoadAttr LoadPhases LoadLists LoadEnv LoadWhole LoadFacts.
From Verif Require Import ReportUcd LoadLogModel LoadLogSpec LoadLogTrace LoadLogLists LoadLogWhole.
Import DataProofs.
Arguments N.mul : simpl never. Arguments N.add : simpl never. Arguments N.sub : simpl never.
Arguments N.div : simpl never.

(** ** A code is shown in one way *)
Lemma digits_unique : forall ds es, Forall (fun d => d < 16) ds -> Forall (fun d => d < 16) es -> List.length ds = List.length es ->
  positional 16 ds = positional 16 es -> ds = es.
Proof.
  induction ds as [|d ds IH] using rev_ind; intros es Hd He L P.
  - destruct es; [reflexivity|discriminate].
  - destruct es as [|x es _] using rev_ind; [rewrite app_length in L; cbn in L; lia|].
    apply Forall_app in Hd. destruct Hd as [D1 D2]. apply Forall_app in He. destruct He as [E1 E2].
    apply Forall_cons_iff in D2. destruct D2 as [D2 _]. apply Forall_cons_iff in E2. destruct E2 as [E2 _].
    rewrite !StringProofs.positional_app in P. rewrite !app_length in L. cbn [List.length] in L.
    assert (positional 16 ds = positional 16 es /\ d = x) as [P1 ->] by lia.
    rewrite (IH es D1 E1) by (auto; lia). reflexivity.
Qed.
Lemma digit_inj : forall a b v, is_upper_hex a -> is_upper_hex b -> digit_value a = Some v -> digit_value b = Some v -> a = b.
Proof.
  intros a b v Ha Hb Va Vb. unfold digit_value, is_upper_hex, is_digit in *.
  repeat match goal with H : context [if ?x then _ else _] |- _ => destruct x eqn:?; try discriminate end;
    injection Va as <-; injection Vb as Vb; lia.
Qed.
Lemma digits_inj : forall u v ds, Forall is_upper_hex u -> Forall is_upper_hex v -> map digit_value u = map Some ds -> map digit_value v = map Some ds -> u = v.
Proof.
  induction u as [|a u IH]; intros v ds Hu Hv Mu Mv; destruct ds as [|d ds]; try discriminate.
  - destruct v; [reflexivity|discriminate].
  - destruct v as [|b v]; [discriminate|]. cbn [map] in Mu, Mv. injection Mu as M1 M2. injection Mv as M3 M4.
    apply Forall_cons_iff in Hu. destruct Hu as [H1 H2]. apply Forall_cons_iff in Hv. destruct Hv as [H3 H4].
    f_equal; [eapply digit_inj; eauto|eapply IH; eauto].
Qed.
Lemma numeral_size : forall u v c, denotes 16 u c -> denotes 16 v c -> min_size u 4 -> min_size v 4 -> ~ len u < len v.
Proof.
  intros u v c [ds [D1 [D2 [_ D4]]]] [es [E1 [E2 [_ E4]]]] [M1 _] [_ M2] K.
  destruct v as [|x v]; [rewrite len_nil in K; lia|]. destruct M2 as [M2|M2]; [lia|].
  destruct es as [|y es]; [discriminate|]. cbn [map] in E1. injection E1 as V E1.
  assert (Hy : y <> 0).
  { intros ->. unfold digit_value in V.
    repeat match type of V with context [if ?b then _ else _] => destruct b eqn:?; try discriminate end; injection V as V; lia. }
  pose proof (ColumnFileLemmas.positional_lower 16 y es Hy) as Lo. pose proof (KanjiProofs.positional_bound ds D2) as Hi.
  assert (Ld : len ds = len u) by (unfold len; rewrite <- (map_length (@Some N) ds), <- D1, map_length; reflexivity).
  assert (Le : len es = len v) by (unfold len; rewrite <- (map_length (@Some N) es), <- E1, map_length; reflexivity).
  rewrite Ld, D4 in Hi. rewrite Le, E4 in Lo.
  assert (16 ^ len u <= 16 ^ len v) by (apply N.pow_le_mono_r; [lia|]; unfold len in *; cbn [List.length] in K; lia). lia.
Qed.
Lemma shown_unique : forall u v c, shown_code u c -> shown_code v c -> u = v.
Proof.
  intros u v c [D1 [D2 D3]] [E1 [E2 E3]]. pose proof (numeral_size u v c D1 E1 D3 E3). pose proof (numeral_size v u c E1 D1 E3 D3).
  assert (L : len u = len v) by lia. destruct D1 as [ds [M1 [M2 [_ M4]]]]. destruct E1 as [es [N1 [N2 [_ N4]]]].
  assert (ds = es) as ->.
  { apply digits_unique; auto; [|congruence]. rewrite <- (map_length (@Some N) ds), <- (map_length (@Some N) es), <- M1, <- N1, !map_length. unfold len in L. lia. }
  eapply digits_inj; eauto.
Qed.
Lemma shown_all_unique : forall us vs cs, Forall2 shown_code us cs -> Forall2 shown_code vs cs -> us = vs.
Proof.
  intros us vs cs H. revert vs. induction H as [|u c us cs Hu _ IH]; intros vs Hv; inversion Hv as [|v ? vs' ? Hv1 Hv2]; subst; [reflexivity|].
  rewrite (shown_unique u v c Hu Hv1), (IH vs' Hv2). reflexivity.
Qed.

Lemma repeated_count : forall n l, repeated n l <-> (2 <= count_occ name_dec l n)%nat.
Proof.
  intros n l. split.
  - intros [a [b [c ->]]]. rewrite count_occ_app. cbn [count_occ]. destruct (name_dec n n) as [_|K]; [|congruence].
    rewrite count_occ_app. cbn [count_occ]. destruct (name_dec n n) as [_|K]; [|congruence]. lia.
  - intro H. assert (I1 : In n l) by (apply (count_occ_In name_dec); lia). apply in_split in I1. destruct I1 as [a [r ->]].
    rewrite count_occ_app in H. cbn [count_occ] in H. destruct (name_dec n n) as [_|K]; [|congruence].
    destruct (in_dec name_dec n r) as [I2|I2].
    + apply in_split in I2. destruct I2 as [b [c ->]]. exists a, b, c. reflexivity.
    + pose proof (proj1 (count_occ_not_In name_dec r n) I2) as Z. assert (I3 : In n a) by (apply (count_occ_In name_dec); lia).
      apply in_split in I3. destruct I3 as [b [c ->]]. exists b, c, r. rewrite <- app_assoc. reflexivity.
Qed.
Lemma nodup_count : forall n a b, NoDup a -> NoDup b -> (In n a <-> In n b) -> count_occ name_dec a n = count_occ name_dec b n.
Proof.
  intros n a b Ha Hb H. pose proof (proj1 (NoDup_count_occ name_dec a) Ha n). pose proof (proj1 (NoDup_count_occ name_dec b) Hb n).
  destruct (in_dec name_dec n a) as [I|I].
  - pose proof (proj1 (count_occ_In name_dec a n) I). pose proof (proj1 (count_occ_In name_dec b n) (proj1 H I)). lia.
  - rewrite (proj1 (count_occ_not_In name_dec a n) I). rewrite (proj1 (count_occ_not_In name_dec b n)); [reflexivity|]. intro K. apply I, H, K.
Qed.

Lemma in_errors : forall s ms, In s (errors ms) <-> In (ToErr s) ms.
Proof.
  intros s. induction ms as [|[t|t] ms IH]; cbn [errors In]; [reflexivity| |]; rewrite IH; split; intros [H|H] || intro H; auto; try discriminate.
  - left. congruence.
  - left. congruence.
Qed.
Lemma in_said : forall e m ks before, In m (saidAll e before ks) <-> exists a k c, ks = a ++ k :: c /\ In m (said k e (before ++ a)).
Proof.
  intros e m. induction ks as [|x ks IH]; intros before; cbn [saidAll].
  - split; [intros []|]. intros [a [k [c [K _]]]]. destruct a; discriminate.
  - rewrite in_app_iff, IH. split.
    + intros [H|[a [k [c [-> H]]]]].
      * exists [], x, ks. rewrite app_nil_r. auto.
      * exists (x :: a), k, c. split; [reflexivity|]. rewrite <- app_assoc in H. exact H.
    + intros [[|y a] [k [c [K H]]]]; injection K as -> ->.
      * left. rewrite app_nil_r in H. exact H.
      * right. exists a, k, c. split; [reflexivity|]. rewrite <- app_assoc. exact H.
Qed.
Lemma fresh_split : forall ws before a k c, fresh before ws -> ws = a ++ k :: c -> ~ In (kName k) (names_of (before ++ a)).
Proof.
  induction ws as [|x ws IH]; intros before a k c F E; [destruct a; discriminate|]. destruct F as [F1 F2]. destruct a as [|y a]; injection E as -> E.
  - rewrite app_nil_r. exact F1.
  - specialize (IH _ _ _ _ F2 E). rewrite <- app_assoc in IH. exact IH.
Qed.
Lemma fresh_nodup : forall ws before, fresh before ws -> NoDup (map kName ws) /\ forall n, In n (map kName ws) -> ~ In n (names_of before).
Proof.
  induction ws as [|x ws IH]; intros before F; cbn [map]; [split; [constructor|intros n []]|]. destruct F as [F1 F2].
  destruct (IH _ F2) as [H1 H2]. unfold names_of in *. split.
  - constructor; [|exact H1]. intro K. apply (H2 _ K). rewrite map_app, in_app_iff. right. left. reflexivity.
  - intros n [<-|Hn]; [exact F1|]. intro K. apply (H2 n Hn). rewrite map_app, in_app_iff. left. exact K.
Qed.
(** two ways to split a list *)
Lemma split_app : forall A (p q a c : list A) k, p ++ q = a ++ k :: c ->
  (exists c', p = a ++ k :: c') \/ (exists a', a = p ++ a' /\ q = a' ++ k :: c).
Proof.
  intros A. induction p as [|x p IH]; intros q a c k H; cbn [app] in H.
  - right. exists a. auto.
  - destruct a as [|y a]; cbn [app] in H; injection H as -> H; [left; exists p; reflexivity|].
    destruct (IH _ _ _ _ H) as [[c' ->]|[a' [-> ->]]]; [left; exists c'; reflexivity|right; exists a'; auto].
Qed.
Lemma find_first : forall A (p : A -> bool) l x, find p l = Some x -> exists a c, l = a ++ x :: c /\ forall y, In y a -> p y = false.
Proof.
  intros A p. induction l as [|y l IH]; intros x H; cbn [find] in H; [discriminate|]. destruct (p y) eqn:E.
  - injection H as ->. exists [], l. split; [reflexivity|intros z []].
  - destruct (IH x H) as [a [c [-> Ha]]]. exists (y :: a), c. split; [reflexivity|]. intros z [<-|Hz]; auto.
Qed.
Lemma find_split : forall A (p : A -> bool) a x c, p x = true -> (forall y, In y a -> p y = false) -> find p (a ++ x :: c) = Some x.
Proof.
  intros A p. induction a as [|y a IH]; intros x c Hx Ha; cbn [app find]; [rewrite Hx; reflexivity|].
  rewrite (Ha y) by (left; reflexivity). apply IH; [exact Hx|]. intros z Hz. apply Ha. right. exact Hz.
Qed.
Lemma loaded_split : forall ks d k, Rep ks d -> loaded_kanji d k <-> exists a c, ks = a ++ k :: c /\ ~ In (kName k) (names_of a).
Proof.
  intros ks d k R. unfold loaded_kanji. split.
  - intro H. apply mfind_In in H; [|exact (rep_sorted _ _ R)]. rewrite (rep_names _ _ R) in H. apply find_first in H.
    destruct H as [a [c [-> Ha]]]. exists a, c. split; [reflexivity|]. intro K. unfold names_of in K. apply in_map_iff in K.
    destruct K as [y [K1 K2]]. specialize (Ha y K2). rewrite K1, beq_refl in Ha. discriminate.
  - intros [a [c [-> Ha]]]. apply In_mfind. rewrite (rep_names _ _ R). apply find_split; [apply beq_refl|].
    intros y Hy. apply beq_neq. intro K. apply Ha. rewrite <- K. apply in_map. exact Hy.
Qed.
Lemma accepted_prefix : forall l seen c, exists x, accepted_from seen (l ++ c) = accepted_from seen l ++ x.
Proof.
  induction l as [|k l IH]; intros seen c; cbn [app accepted_from]; [eexists; reflexivity|].
  destruct (existsb (beq (kName k)) seen); [apply IH|]. destruct (IH (kName k :: seen) c) as [x ->]. exists x. reflexivity.
Qed.
Lemma accepted_split : forall a k c, ~ In (kName k) (names_of a) -> exists x, accepted (a ++ k :: c) = accepted a ++ k :: x.
Proof.
  intros a k c H. unfold accepted. replace (a ++ k :: c) with ((a ++ [k]) ++ c) by (rewrite <- app_assoc; reflexivity).
  destruct (accepted_prefix (a ++ [k]) [] c) as [x ->]. exists x. rewrite accepted_snoc. cbn [app].
  replace (existsb (beq (kName k)) (names_of a)) with false; [rewrite <- app_assoc; reflexivity|].
  symmetry. destruct (existsb (beq (kName k)) (names_of a)) eqn:E; [|reflexivity]. apply existsb_In in E. contradiction.
Qed.
Lemma find_app : forall A (p : A -> bool) a b, find p (a ++ b) = match find p a with Some x => Some x | None => find p b end.
Proof. intros A p. induction a as [|y a IH]; intro b; cbn [app find]; [reflexivity|]. destruct (p y); [reflexivity|apply IH]. Qed.
(** the message about a variant *)
Lemma variant_said : forall a k c d, Rep (a ++ k :: c) d -> ~ In (kName k) (names_of a) ->
  (selected_name k && existsb (variant_of (compatibilityName k)) (accepted a) = true <-> hidden_variant d k).
Proof.
  intros a k c d R Hk. unfold hidden_variant, findByName. rewrite (rep_compat _ _ R).
  destruct (accepted_split a k c Hk) as [x E]. rewrite E, find_app, find_existsb.
  destruct (selected_name k) eqn:Sk; cbn [andb]; [|split; [discriminate|intros [K _]; discriminate]].
  destruct (find (variant_of (compatibilityName k)) (accepted a)) as [k'|] eqn:F; cbn [option_map].
  - split; [|reflexivity]. intros _. split; [reflexivity|]. exists k'. apply find_some in F. destruct F as [F1 F2].
    destruct (accepted_first a [] k' F1) as [F3 _]. split.
    + rewrite (rep_names _ _ R), find_app, F3. reflexivity.
    + intro K. apply Hk. rewrite <- K. apply in_map. eapply accepted_In. exact F1.
  - split; [discriminate|]. intros [_ [k' [F2 F3]]]. exfalso. apply F3. cbn [find] in F2.
    replace (variant_of (compatibilityName k) k) with true in F2 by (unfold variant_of; rewrite Sk, beq_refl; reflexivity). cbn [option_map] in F2.
    rewrite (rep_names _ _ R) in F2. rewrite find_split in F2; [congruence|apply beq_refl|].
    intros y Hy. apply beq_neq. intro K. apply Hk. rewrite <- K. apply in_map. exact Hy.
Qed.

(** ** The checks *)
Lemma sanity_about : forall k what, bytes_ok (kName k) -> forall s, In (ToErr s) (sanityError k what) <-> about k what s.
Proof.
  intros k what B s. unfold sanityError, about. destruct (unicode_any (kName k) B) as [cs [us [E1 [E2 E3]]]].
  rewrite E3. cbn [shownOr]. rewrite variant_total. cbn [In].
  assert (V : (if selected_name k then b_ " (non-variant: " ++ shownOr (nonVariantName k) ++ b_ ")" else [])
              = (if selected_name k then b_ " (non-variant: " ++ firstn (List.length (kName k) - 3) (kName k) ++ b_ ")" else [])).
  { destruct (selected_name k) eqn:Sk; [|reflexivity]. unfold nonVariantName, noVariationSelector.
    pose proof (variant_total k) as Vt. unfold variant in Vt. rewrite Vt, Sk. reflexivity. }
  split.
  - intros [H|[]]. injection H as <-. exists cs, us. split; [exact E1|]. split; [exact E2|]. rewrite <- V.
    destruct (selected_name k); repeat (progress (rewrite <- ?app_assoc; cbn [app b_])); reflexivity.
  - intros [cs' [us' [F1 [F2 ->]]]]. left. rewrite E1 in F1. injection F1 as <-.
    rewrite (shown_all_unique us' us cs F2 E2).
    rewrite <- V. destruct (selected_name k); repeat (progress (rewrite <- ?app_assoc; cbn [app b_])); reflexivity.
Qed.
Lemma sanity_spec : forall e k s, bytes_ok (kName k) -> entries (envUcd e) ->
  (In (ToErr s) (sanityChecks e k) <-> wrong_entry (envUcd e) k s).
Proof.
  intros e k s B He. unfold sanityChecks. destruct (ucdFind (envUcd e) (kName k)) as [[u|]|x| |] eqn:E.
  - pose proof (find_entry _ _ _ He E) as Hr. destruct (entry_texts u Hr) as [[a [Ea _]] _].
    destruct (kType k) eqn:T.
    + destruct (joyo u) eqn:J; [|rewrite sanity_about by exact B]; (split; [|intro H; inversion H; congruence]); [intros []|].
      intro H. eapply NotJoyo; eauto.
    + destruct (jinmei u) eqn:J; [|rewrite sanity_about by exact B]; (split; [|intro H; inversion H; congruence]); [intros []|].
      intro H. eapply NotJinmei; eauto.
    + destruct (jinmei u) eqn:J; cbn [negb].
      * unfold hasLinks. destruct (ucdLinks u) eqn:Lk.
        -- rewrite Ea. cbn [shownOr]. rewrite sanity_about by exact B. split; [intro H; eapply NoLink; eauto|].
           intro H. inversion H; congruence.
        -- split; [intros []|]. intro H. inversion H; congruence.
      * rewrite sanity_about by exact B. split; [intro H; eapply LinkNotJinmei; eauto|]. intro H. inversion H; congruence.
    + split; [intros []|]. intro H. inversion H; congruence.
    + split; [intros []|]. intro H. inversion H; congruence.
    + split; [intros []|]. intro H. inversion H; congruence.
    + split; [intros []|]. intro H. inversion H; congruence.
    + split; [intros []|]. intro H. inversion H; congruence.
    + split; [intros []|]. intro H. inversion H; congruence.
  - rewrite sanity_about by exact B. split; [intro H; apply NoEntry; assumption|]. intro H. inversion H; congruence.
  - split; [intros []|]. intro H. inversion H; congruence.
  - split; [intros []|]. intro H. inversion H; congruence.
  - split; [intros []|]. intro H. inversion H; congruence.
Qed.

(** ** All errors *)
Lemma rows_fun : forall R (make : R -> out Kanji) rows a b, Forall2 (fun r k => make r = Val k) rows a -> Forall2 (fun r k => make r = @Val Kanji k) rows b -> a = b.
Proof.
  intros R make rows a b H. revert b. induction H as [|r x rows a Hx _ IH]; intros b Hb; inversion Hb as [|? y ? b' Hy Hb']; subst; [reflexivity|].
  rewrite (IH b' Hb'). congruence.
Qed.
Lemma second_fun : forall ls a b, Forall2 second_field ls a -> Forall2 second_field ls b -> a = b.
Proof.
  intros ls a b H. revert b. induction H as [|l x ls a [j [r Hx]] _ IH]; intros b Hb; inversion Hb as [|? y ? b' [j' [r' Hy]] Hb']; subst; [reflexivity|].
  rewrite (IH b' Hb'). congruence.
Qed.
Lemma F2_impl : forall A B (P Q : A -> B -> Prop) a b, (forall x y, P x y -> Q x y) -> Forall2 P a b -> Forall2 Q a b.
Proof. intros A B P Q a b H H2. induction H2; constructor; auto. Qed.
Lemma line_names_second : forall c ns, line_names c ns <-> Forall2 second_field (getlines 10 c) ns.
Proof.
  intros c ns. unfold line_names, second_field. split.
  - intros [ls [C H]]. apply cut_getlines in C. subst ls. eapply F2_impl; [|exact H]. intros l n [j [r K]]. apply cut_getlines in K. eauto.
  - intro H. exists (getlines 10 c). split; [apply cut_getlines; reflexivity|]. eapply F2_impl; [|exact H]. intros l n [j [r K]]. exists j, r.
    apply cut_getlines. auto.
Qed.
Section All.
  Variables (ltr : bool) (f : Files) (st : list_static) (m : N) (e : Env) (d : Data) (full : bool) (ms : list Msg).
  Variables (js ls os jm all xs : list Kanji) (pss : list places) (fps : places) (ws : list Kanji).
  Hypothesis Hf : files_ok f.
  Hypothesis Hu : Forall row_bytes (ucdRows f).
  Hypothesis Hl : loadData ltr f st m = Val (e, d).
  Hypothesis Hb : forall k, loaded_kanji d k -> bytes_ok (kName k).
  Hypothesis T : LoadTrace full f e d ms js ls os jm all xs pss fps ws.

  Let official := js ++ ls ++ os ++ all ++ xs.
  Lemma trace_rep : Rep (official ++ ws) d.
  Proof. unfold official. pose proof (lt_rep _ _ _ _ _ _ _ _ _ _ _ _ _ _ T) as R. repeat rewrite <- app_assoc. exact R. Qed.
  Lemma trace_types : type_list d Jouyou = js /\ type_list d Jinmei = jm /\ type_list d Extra = xs
    /\ Forall (fun k => kType k = Jouyou) js /\ Forall (fun k => kType k = Extra) xs.
  Proof.
    destruct (loadData_loaded _ _ _ _ _ _ Hf Hl) as [O [M [js' [ms' [xs' [lss [kss Lo]]]]]]].
    pose proof (rows_fun _ _ _ _ _ (fromRows_spec _ _ _ (lt_js _ _ _ _ _ _ _ _ _ _ _ _ _ _ T)) (lo_js _ _ _ _ _ _ _ _ Lo)) as E1.
    pose proof (rows_fun _ _ _ _ _ (fromRows_spec _ _ _ (lt_jm _ _ _ _ _ _ _ _ _ _ _ _ _ _ T)) (lo_ms _ _ _ _ _ _ _ _ Lo)) as E2.
    pose proof (rows_fun _ _ _ _ _ (fromRows_spec _ _ _ (lt_xs _ _ _ _ _ _ _ _ _ _ _ _ _ _ T)) (lo_xs _ _ _ _ _ _ _ _ Lo)) as E3.
    subst js' ms' xs'. split; [exact (lo_js_list _ _ _ _ _ _ _ _ Lo)|]. split; [exact (lo_ms_list _ _ _ _ _ _ _ _ Lo)|]. split; [exact (lo_xs_list _ _ _ _ _ _ _ _ Lo)|]. split.
    - eapply Forall_impl; [|exact (jouyou_from_rows e _ _ (lo_js _ _ _ _ _ _ _ _ Lo))]. intros k [K _]. exact K.
    - eapply Forall_impl; [|exact (extra_from_rows e _ _ (lo_xs _ _ _ _ _ _ _ _ Lo))]. intros k [K _]. exact K.
  Qed.
  Lemma old_count : forall n, count_occ name_dec (map kName os) n = count_occ name_dec (map kName (type_list d LinkedOld)) n.
  Proof.
    intro n. destruct (type_singly ltr f st m e d Hf Hl LinkedOld ltac:(right; left; reflexivity)) as [S1 S2].
    destruct (fresh_nodup os _ (lt_os _ _ _ _ _ _ _ _ _ _ _ _ _ _ T)) as [N1 N2]. apply nodup_count; [exact N1|exact S2|].
    destruct trace_types as [_ [_ [_ [Tj Tx]]]]. rewrite Forall_forall in Tj, Tx.
    rewrite !in_map_iff. split; intros [k [<- Hk]]; exists k; (split; [reflexivity|]).
    - apply S1. pose proof (lt_os_type _ _ _ _ _ _ _ _ _ _ _ _ _ _ T) as Ot. rewrite Forall_forall in Ot. split; [|apply Ot; exact Hk].
      apply (loaded_split _ d k trace_rep). apply in_split in Hk. destruct Hk as [a [c E]].
      exists (js ++ ls ++ a), (c ++ all ++ xs ++ ws). split; [unfold official; rewrite E; repeat (rewrite <- app_assoc; cbn [app]); reflexivity|].
      pose proof (fresh_split _ _ _ _ _ (lt_os _ _ _ _ _ _ _ _ _ _ _ _ _ _ T) E) as F. rewrite <- app_assoc in F. exact F.
    - apply S1 in Hk. destruct Hk as [K1 K2]. apply (loaded_split _ d k trace_rep) in K1. destruct K1 as [a [c [E _]]].
      assert (I : In k (official ++ ws)) by (rewrite E; apply in_app_iff; right; left; reflexivity). unfold official in I. rewrite !in_app_iff in I.
      destruct I as [[I|[I|[I|[I|I]]]]|I]; [specialize (Tj k I); congruence| |exact I| |specialize (Tx k I); congruence|]; exfalso.
      + pose proof (lt_ls_type _ _ _ _ _ _ _ _ _ _ _ _ _ _ T) as Q. rewrite Forall_forall in Q. specialize (Q k I). congruence.
      + pose proof (lt_all_type _ _ _ _ _ _ _ _ _ _ _ _ _ _ T) as Q. rewrite Forall_forall in Q. destruct (Q k I); congruence.
      + destruct (lt_ws _ _ _ _ _ _ _ _ _ _ _ _ _ _ T) as [r [-> Q1]]. pose proof (lt_freq_type _ _ _ _ _ _ _ _ _ _ _ _ _ _ T) as Q2.
        rewrite Forall_forall in Q1, Q2. apply in_app_iff in I. destruct I as [I|I]; [specialize (Q2 k I); congruence|destruct (Q1 k I); congruence].
  Qed.
  Lemma official_count : forall ns n, line_names (linkedFile f) ns ->
    count_occ name_dec (names_of official) n = count_occ name_dec (official_names d ns) n.
  Proof.
    intros ns n Hn. apply line_names_second in Hn. rewrite (second_fun _ _ _ Hn (lt_ls _ _ _ _ _ _ _ _ _ _ _ _ _ _ T)).
    destruct trace_types as [E1 [E2 [E3 _]]]. unfold official_names, names_of, official. rewrite E1, E2, E3, !map_app, !count_occ_app, old_count.
    rewrite <- (lt_all _ _ _ _ _ _ _ _ _ _ _ _ _ _ T). reflexivity.
  Qed.
  Lemma errors_spec : forall ns s, line_names (linkedFile f) ns -> In s (errors ms) <-> complaint (envUcd e) d ns s.
  Proof.
    intros ns s Hn. assert (He : entries (envUcd e)) by (eapply loaded_entries; eauto).
    rewrite (lt_errors _ _ _ _ _ _ _ _ _ _ _ _ _ _ T), in_errors.
    replace (js ++ ls ++ os ++ all ++ xs ++ ws) with (official ++ ws) by (unfold official; repeat rewrite <- app_assoc; reflexivity).
    rewrite in_said. pose proof trace_rep as R. split.
    - intros [a [k [c [E H]]]]. cbn [app] in H. unfold said in H. destruct (existsb (beq (kName k)) (names_of a)) eqn:X.
      + destruct H as [H|[]]. injection H as <-. apply NameTwice with (kName k); [|reflexivity].
        apply existsb_In in X. apply repeated_count. rewrite <- official_count by exact Hn. apply repeated_count.
        destruct (split_app _ _ _ _ _ _ E) as [[c' E']|[a' [-> E']]].
        * rewrite E'. apply in_split in X. destruct X as [x [y X]]. exists x, y, (names_of c'). unfold names_of in *. rewrite map_app, X. cbn [map].
          rewrite <- app_assoc. reflexivity.
        * exfalso. revert X. eapply fresh_split; [exact (lt_ws_fresh _ _ _ _ _ _ _ _ _ _ _ _ _ _ T)|exact E'].
      + assert (Hk : ~ In (kName k) (names_of a)) by (intro K; apply existsb_In in K; congruence).
        assert (Lk : loaded_kanji d k) by (apply (loaded_split _ d k R); exists a, c; auto).
        apply in_app_iff in H. destruct H as [H|H].
        * apply WrongEntry with k; [exact Lk|]. apply sanity_spec; auto.
        * rewrite E in R. destruct (selected_name k && existsb (variant_of (compatibilityName k)) (accepted a)) eqn:V; [|destruct H].
          destruct H as [H|[]]. injection H as <-. apply HiddenVariant with k; [exact Lk|apply (variant_said a k c d R Hk); exact V|reflexivity].
    - intros [n Hr ->|k Lk W|k Lk V ->].
      + apply repeated_count in Hr. rewrite <- official_count in Hr by exact Hn. apply repeated_count in Hr. destruct Hr as [x [y [z Hr]]].
        assert (Sp : exists a k c, official = a ++ k :: c /\ kName k = n /\ In n (names_of a)).
        { clear -Hr. unfold names_of in Hr. revert x Hr. induction official as [|k l IH]; intros x Hr; [destruct x; discriminate|].
          cbn [map] in Hr. destruct x as [|x0 x]; cbn [app] in Hr; injection Hr as H1 H2.
          - assert (In n (map kName l)) by (rewrite H2; apply in_app_iff; right; left; reflexivity). apply in_map_iff in H. destruct H as [k' [K1 K2]].
            apply in_split in K2. destruct K2 as [a [c ->]]. exists (k :: a), k', c. split; [reflexivity|]. split; [exact K1|]. left. exact H1.
          - destruct (IH x H2) as [a [k' [c [-> [K1 K2]]]]]. exists (k :: a), k', c. split; [reflexivity|]. split; [exact K1|]. right. exact K2. }
        destruct Sp as [a [k [c [E [<- I]]]]]. exists a, k, (c ++ ws). split; [rewrite E, <- app_assoc; reflexivity|]. cbn [app]. unfold said.
        replace (existsb (beq (kName k)) (names_of a)) with true by (symmetry; apply existsb_In; exact I). left. reflexivity.
      + pose proof (proj1 (loaded_split _ d k R) Lk) as [a [c [E Hk]]]. exists a, k, c. split; [exact E|]. cbn [app]. unfold said.
        replace (existsb (beq (kName k)) (names_of a)) with false
          by (symmetry; destruct (existsb (beq (kName k)) (names_of a)) eqn:X; [apply existsb_In in X; contradiction|reflexivity]).
        apply in_app_iff. left. apply sanity_spec; auto.
      + pose proof (proj1 (loaded_split _ d k R) Lk) as [a [c [E Hk]]]. exists a, k, c. split; [exact E|]. cbn [app]. unfold said.
        replace (existsb (beq (kName k)) (names_of a)) with false
          by (symmetry; destruct (existsb (beq (kName k)) (names_of a)) eqn:X; [apply existsb_In in X; contradiction|reflexivity]).
        apply in_app_iff. right. rewrite E in R. rewrite (proj2 (variant_said a k c d R Hk) V). left. reflexivity.
  Qed.
End All.
