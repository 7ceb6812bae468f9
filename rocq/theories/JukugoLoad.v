(** Lemmas about loading all Jukugo files. *)
From Verif Require Import BaseFacts MapProofs ColumnFileProofs ListProofs JukugoModel JukugoSpec JukugoProofs JukugoLines LoadAttr.
Open Scope N_scope.
Arguments N.add : simpl never.
Arguments N.sub : simpl never.
Arguments N.mul : simpl never.

Definition word_ok (j : Jukugo) : Prop := bytes_ok (jName j) /\ bytes_ok (jReading j).

Lemma same_word_iff : forall j k, same_word j k = true <-> jName j = jName k /\ jReading j = jReading k.
Proof. intros j k. unfold same_word. rewrite andb_true_iff, !beq_eq. tauto. Qed.

Lemma filter_filter' : forall (A : Type) (f g : A -> bool) l, filter f (filter g l) = filter (fun x => g x && f x) l.
Proof.
  intros A f g l. induction l as [|x l IH]; [reflexivity|]. cbn [filter]. destruct (g x); cbn [filter andb].
  - destruct (f x); rewrite IH; reflexivity.
  - exact IH.
Qed.
Lemma distinct_in : forall js j, In j (distinct js) -> In j js.
Proof.
  induction js as [|x js IH]; intros j H; [destruct H|]. cbn [distinct] in H. destruct H as [H|H]; [left; exact H|].
  right. apply filter_In in H. apply IH. tauto.
Qed.
Lemma distinct_covers : forall js j, In j js -> exists k, In k (distinct js) /\ same_word k j = true.
Proof.
  induction js as [|x js IH]; intros j H; [destruct H|]. cbn [distinct]. destruct H as [H|H].
  - subst x. exists j. split; [left; reflexivity|]. apply same_word_iff. auto.
  - destruct (IH j H) as [k [K1 K2]]. destruct (same_word x k) eqn:E.
    + exists x. split; [left; reflexivity|]. rewrite same_word_iff in *. intuition congruence.
    + exists k. split; [right; apply filter_In; rewrite E; auto|exact K2].
Qed.
Lemma distinct_snoc : forall js x, distinct (js ++ [x]) = distinct js ++ (if existsb (fun k => same_word k x) js then [] else [x]).
Proof.
  induction js as [|j js IH]; intros x; [reflexivity|]. cbn [app distinct existsb]. rewrite IH, filter_app. f_equal. f_equal.
  destruct (existsb (fun k => same_word k x) js) eqn:E1; [rewrite orb_true_r; reflexivity|]. rewrite orb_false_r. cbn [filter].
  destruct (same_word j x); reflexivity.
Qed.

(** the map *)
Lemma add_to_map : forall ks j m, msorted m -> msorted (addToMap j ks m)
  /\ forall k, match mfind k (addToMap j ks m) with Some l => l | None => [] end
       = match mfind k m with Some l => l | None => [] end ++ repeat j (occurs k ks).
Proof.
  induction ks as [|c ks IH]; intros j m Hs; cbn [addToMap fold_left].
  - split; [exact Hs|]. intro k. cbn [occurs filter length repeat]. rewrite app_nil_r. reflexivity.
  - set (m1 := mupdate _ c m). assert (H1 : msorted m1) by (apply mupdate_sorted; exact Hs).
    destruct (IH j m1 H1) as [A B]. split; [exact A|]. intro k. unfold addToMap in B. rewrite B. unfold occurs. cbn [filter].
    destruct (beq k c) eqn:E.
    + apply beq_eq in E. subst c. unfold m1. rewrite mupdate_same by exact Hs. cbn [length repeat].
      destruct (mfind k m) as [l|]; [rewrite <- app_assoc|]; reflexivity.
    + apply beq_neq in E. unfold m1. rewrite mupdate_other by exact E. reflexivity.
Qed.

(** what the state holds after the words [js] *)
Record Holds (js : list Jukugo) (d : JukugoData) : Prop := {
  h_ok : Forall word_ok js;
  h_loadable : loadable js;
  h_unique : jUnique d = distinct js;
  h_sorted : msorted (jMap d);
  h_find : forall kf, (forall j, In j js -> word_kanji (jName j) (kf j)) ->
    forall k, jFind d k = flat_map (fun j => repeat j (occurs k (kf j))) (distinct js) }.

Lemma holds_start : Holds [] emptyJukugo.
Proof.
  constructor; try reflexivity; try constructor.
  - constructor.
  - intros j k [].
Qed.

Lemma flat_map_ext_in : forall (A B : Type) (f g : A -> list B) l, (forall x, In x l -> f x = g x) -> flat_map f l = flat_map g l.
Proof.
  intros A B f g l H. induction l as [|x l IH]; [reflexivity|]. cbn [flat_map]. rewrite (H x) by (left; reflexivity). rewrite IH; [reflexivity|].
  intros y Hy. apply H. right. exact Hy.
Qed.

Lemma add_step : forall js d j, Holds js d -> word_ok j ->
  (loadable (js ++ [j]) /\ exists d', addJukugo (jName j) (jReading j) (jGrade j) d = Val d' /\ Holds (js ++ [j]) d')
  \/ (~ loadable (js ++ [j]) /\ addJukugo (jName j) (jReading j) (jGrade j) d = Throw DomainError).
Proof.
  intros js d j H [W1 W2]. destruct H as [Hok [Hg Hc] Hu Hs Hf]. unfold addJukugo, findUnique. rewrite Hu.
  destruct (find (fun k => beq (jName k) (jName j) && beq (jReading k) (jReading j)) (distinct js)) as [k|] eqn:E.
  - apply find_some in E. destruct E as [Ek Es]. change (same_word k j = true) in Es. pose proof (distinct_in _ _ Ek) as Ik.
    assert (Ex : existsb (fun k => same_word k j) js = true). { apply existsb_exists. exists k. auto. }
    apply same_word_iff in Es. destruct Es as [En Er]. destruct (jGrade k =? jGrade j) eqn:Eg; cbn [negb].
    + left. assert (k = j). { apply N.eqb_eq in Eg. destruct k, j. cbn in *. congruence. } subst k.
      assert (L : loadable (js ++ [j])).
      { split.
        - apply Forall_app. split; [exact Hg|]. constructor; [|constructor]. rewrite Forall_forall in Hg. exact (Hg j Ik).
        - assert (X : forall a, In a (js ++ [j]) -> In a js). { intros a Ha. apply in_app_or in Ha. destruct Ha as [Ha|[<-|[]]]; assumption. }
          intros a b Ha Hb. apply Hc; auto. }
      split; [exact L|]. exists d. split; [reflexivity|]. constructor; auto.
      * apply Forall_app. split; [exact Hok|]. constructor; [split; assumption|constructor].
      * rewrite distinct_snoc, Ex, app_nil_r. exact Hu.
      * intros kf Hkf k. rewrite distinct_snoc, Ex, app_nil_r. apply Hf. intros a Ha. apply Hkf. apply in_or_app. left. exact Ha.
    + right. split; [|reflexivity]. intros [_ X]. rewrite (X k j) in Eg; [rewrite N.eqb_refl in Eg; discriminate| | |exact En|exact Er].
      * apply in_or_app. left. exact Ik.
      * apply in_or_app. right. left. reflexivity.
  - assert (Nx : forall k, In k js -> same_word k j = false).
    { intros k Hk. destruct (same_word k j) eqn:Es; [|reflexivity]. destruct (distinct_covers _ _ Hk) as [k' [K1 K2]].
      assert (Es' : same_word k' j = true) by (rewrite same_word_iff in *; intuition congruence).
      pose proof (find_none _ _ E k' K1) as X. cbn in X. unfold same_word in Es'. congruence. }
    assert (Ex : existsb (fun k => same_word k j) js = false).
    { apply not_true_iff_false. rewrite existsb_exists. intros [k [K1 K2]]. rewrite (Nx k K1) in K2. discriminate. }
    destruct (new_jukugo (jName j) (jReading j) (jGrade j) W1 W2) as [[G Ej]|[G Ej]]; rewrite Ej; cbn [obind];
      replace (MkJukugo (jName j) (jReading j) (jGrade j)) with j in * by (destruct j; reflexivity).
    + left.
      assert (L : loadable (js ++ [j])).
      { split; [apply Forall_app; split; [exact Hg|constructor; [exact G|constructor]]|].
        intros a b Ha Hb Hn Hr. apply in_app_or in Ha. apply in_app_or in Hb.
        destruct Ha as [Ha|[<-|[]]], Hb as [Hb|[<-|[]]]; [apply Hc; assumption| | |reflexivity].
        - assert (same_word a j = true) by (apply same_word_iff; auto). rewrite Nx in H by exact Ha. discriminate.
        - assert (same_word b j = true) by (apply same_word_iff; auto). rewrite Nx in H by exact Hb. discriminate. }
      split; [exact L|]. destruct (word_exists _ W1) as [ks Hk]. rewrite (kanjiOf_spec _ _ W1 Hk). cbn [obind].
      destruct (add_to_map ks j (jMap d) Hs) as [M1 M2]. eexists. split; [reflexivity|]. constructor; cbn [jUnique jMap].
      * apply Forall_app. split; [exact Hok|]. constructor; [split; assumption|constructor].
      * exact L.
      * rewrite distinct_snoc, Ex. reflexivity.
      * exact M1.
      * intros kf Hkf k. unfold jFind. cbn [jMap]. rewrite M2. change (match mfind k (jMap d) with Some l => l | None => [] end) with (jFind d k).
        rewrite (Hf kf) by (intros a Ha; apply Hkf; apply in_or_app; left; exact Ha). rewrite distinct_snoc, Ex, flat_map_app. f_equal.
        cbn [flat_map]. rewrite app_nil_r.
        assert (Ij : In j (js ++ [j])) by (apply in_or_app; right; left; reflexivity).
        rewrite (word_unique _ _ _ (Hkf j Ij) Hk). reflexivity.
    + right. split; [|reflexivity]. intros [X _]. apply Forall_app in X. destruct X as [_ X]. inversion X; contradiction.
Qed.
Lemma loadable_prefix : forall a b, loadable (a ++ b) -> loadable a.
Proof.
  intros a b [H1 H2]. apply Forall_app in H1. split; [tauto|]. intros j k Hj Hk. apply H2; apply in_or_app; left; assumption.
Qed.

(** [run_ok P x js]: the computation [x], started from [js], ends with the words of [P] or fails *)
Definition outcome (js : list Jukugo) (Q : list Jukugo -> Prop) (x : out JukugoData) : Prop :=
  (exists ws d, Q ws /\ x = Val d /\ Holds (js ++ ws) d)
  \/ ((exists e, x = Throw e) /\ forall ws, Q ws -> ~ loadable (js ++ ws)).

Lemma outcome_entries : forall onep (R : bytes -> bytes -> bytes -> Prop) g,
  (forall l n r d, fits l -> R l n r -> createJukugo l g onep d = addJukugo n r g d) ->
  (forall l n r n' r', R l n r -> R l n' r' -> n = n' /\ r = r') ->
  (forall l d, (forall n r, ~ R l n r) -> createJukugo l g onep d = Throw DomainError) ->
  (forall l n r, bytes_ok l -> R l n r -> bytes_ok n /\ bytes_ok r) ->
  (forall l, (exists n r, R l n r) \/ forall n r, ~ R l n r) ->
  forall ls js d, Holds js d -> Forall fits ls -> Forall bytes_ok ls ->
  outcome js (Forall2 (fun l j => R l (jName j) (jReading j) /\ jGrade j = g) ls) (createAll ls g onep d).
Proof.
  intros onep R g HR HU HN HB HD ls. induction ls as [|l ls IH]; intros js d H F B.
  - left. exists [], d. split; [constructor|]. split; [reflexivity|]. rewrite app_nil_r. exact H.
  - inversion F as [|? ? F1 F2]; subst. inversion B as [|? ? B1 B2]; subst. cbn [createAll].
    destruct (HD l) as [(n & r & Hr)|Hn].
    + rewrite (HR l n r d F1 Hr). destruct (HB l n r B1 Hr) as [Bn Br].
      destruct (add_step js d (MkJukugo n r g) H (conj Bn Br)) as [[L [d' [E H']]]|[L E]]; cbn [jName jReading jGrade] in E; rewrite E; cbn [obind].
      * destruct (IH _ d' H' F2 B2) as [(ws & d2 & Q & E2 & H2)|[Ex Hf]].
        -- left. exists (MkJukugo n r g :: ws), d2. split; [constructor; [cbn; auto|exact Q]|]. split; [exact E2|]. rewrite <- app_assoc in H2. exact H2.
        -- right. split; [exact Ex|]. intros ws Q. inversion Q as [|? j ? ws' [Q1 Q2] Q3]; subst.
           destruct (HU _ _ _ _ _ Q1 Hr) as [En Er]. replace j with (MkJukugo n r (jGrade j)) by (destruct j; cbn in *; congruence).
           specialize (Hf ws' Q3). rewrite <- app_assoc in Hf. exact Hf.
      * right. split; [eexists; reflexivity|]. intros ws Q. inversion Q as [|? j ? ws' [Q1 Q2] Q3]; subst.
        destruct (HU _ _ _ _ _ Q1 Hr) as [En Er]. replace j with (MkJukugo n r (jGrade j)) by (destruct j; cbn in *; congruence).
        intro X. apply L. apply (loadable_prefix _ ws'). rewrite <- app_assoc. exact X.
    + rewrite (HN l d Hn). cbn [obind]. right. split; [eexists; reflexivity|]. intros ws Q. inversion Q as [|? j ? ws' [Q1 Q2] Q3]; subst.
      exfalso. exact (Hn _ _ Q1).
Qed.

Lemma bytes_ok_mid : forall a b c, bytes_ok (a ++ b ++ c) -> bytes_ok a /\ bytes_ok b /\ bytes_ok c.
Proof. intros a b c H. apply bytes_ok_app in H. destruct H as [H1 H2]. apply bytes_ok_app in H2. tauto. Qed.

Lemma grade_decidable : forall l, (exists n r, grade_line l n r) \/ forall n r, ~ grade_line l n r.
Proof.
  intros l. destruct (findByte_cases 40 l) as [[_ E]|[a [r [E Ha]]]].
  { right. intros n r (X & _). apply E. rewrite X. apply in_or_app. right. right. left. reflexivity. }
  destruct a as [|y a]; [right; intros n q (X & _ & A & _); rewrite E in X; change (b_ " (" ++ ?x) with ([32] ++ 40 :: x) in X;
    rewrite app_assoc in X; apply (split_first_unique 40 []) in X; [destruct X as [X _]; destruct n; discriminate|intros []|
    intro Y; apply in_app_or in Y; destruct Y as [Y|[Y|[]]]; [exact (A Y)|lia]]|].
  destruct (exists_last (l := y :: a)) as [n [x Ex]]; [discriminate|]. rewrite Ex in *. clear y a Ex.
  assert (U : forall m q, grade_line l m q -> m = n /\ x = 32 /\ r = q ++ [41]).
  { intros m q (X & _ & A & _). rewrite E in X. change (b_ " (" ++ ?x) with ([32] ++ 40 :: x) in X. rewrite (app_assoc m) in X.
    apply split_first_unique in X; [|exact Ha|intro Y; apply in_app_or in Y; destruct Y as [Y|[Y|[]]]; [exact (A Y)|lia]].
    destruct X as [X Y]. apply app_inj_tail in X. destruct X. auto. }
  destruct (N.eq_dec x 32) as [->|Nx]; [|right; intros m q X; destruct (U m q X) as (_ & Y & _); exact (Nx Y)].
  destruct r as [|z r]; [right; intros m q X; destruct (U m q X) as (_ & _ & Y); destruct q; discriminate|].
  destruct (exists_last (l := z :: r)) as [q [w Ew]]; [discriminate|]. rewrite Ew in *. clear z r Ew.
  destruct (N.eq_dec w 41) as [->|Nw]; [|right; intros m q' X; destruct (U m q' X) as (_ & _ & Y); apply app_inj_tail in Y; destruct Y as [_ Y]; exact (Nw Y)].
  destruct n as [|n0 n1]; [right; intros m q' X; pose proof X as (_ & Y & _); destruct (U m q' X) as (Z & _ & _); contradiction|].
  destruct (in_dec N.eq_dec 41 (n0 :: n1)) as [I|I]; [right; intros m q' X; pose proof X as (_ & _ & _ & Y & _); destruct (U m q' X) as (Z & _ & _); subst m; contradiction|].
  destruct (in_dec N.eq_dec 41 q) as [J|J].
  { right; intros m q' X; pose proof X as (_ & _ & _ & _ & Y); destruct (U m q' X) as (Z & _ & W); apply app_inj_tail in W; destruct W as [<- _]; contradiction. }
  left. exists (n0 :: n1), q. split; [rewrite E, <- app_assoc; reflexivity|]. split; [discriminate|].
  split; [intro Y; apply Ha; apply in_or_app; left; exact Y|]. auto.
Qed.
Lemma other_decidable : forall e, (exists n r, other_entry e n r) \/ forall n r, ~ other_entry e n r.
Proof.
  intros e. destruct (findByte_cases 40 e) as [[_ E]|[a [r [E Ha]]]].
  { right. intros n r [_ [(t & X & _)|[X _]]]; apply E; rewrite X; apply in_or_app; right; left; reflexivity. }
  destruct (in_dec N.eq_dec 41 a) as [I|I].
  { left. exists a, r. split; [exact Ha|]. right. split; [exact E|exact I]. }
  destruct (in_dec N.eq_dec 41 r) as [J|J].
  { left. destruct (in_split_first 41 r J) as (b & t & Er & Hb). exists a, b. split; [exact Ha|]. left. exists t. split; [rewrite E, Er; reflexivity|]. auto. }
  right. intros n q [A [(t & X & _)|[X Y]]]; rewrite E in X.
  - change ([40] ++ ?x) with (40 :: x) in X. apply split_first_unique in X; [|exact Ha|exact A]. destruct X as [_ X]. apply J. rewrite X. apply in_or_app. right. left. reflexivity.
  - change ([40] ++ ?x) with (40 :: x) in X. apply split_first_unique in X; [|exact Ha|exact A]. destruct X as [X _]. subst n. contradiction.
Qed.

Lemma outcome_grade : forall g ls js d, Holds js d -> Forall fits ls -> Forall bytes_ok ls ->
  outcome js (Forall2 (fun l j => grade_line l (jName j) (jReading j) /\ jGrade j = g) ls) (createAll ls g true d).
Proof.
  intros g. apply outcome_entries.
  - intros l n r d F R. exact (grade_create l n r g d F R).
  - exact grade_unique.
  - intros l d H. exact (grade_refused l g d H).
  - intros l n r B (E & _). rewrite E in B. apply bytes_ok_mid in B. destruct B as (B1 & _ & B2). apply bytes_ok_app in B2. tauto.
  - exact grade_decidable.
Qed.
Lemma outcome_other : forall g ls js d, Holds js d -> Forall fits ls -> Forall bytes_ok ls ->
  outcome js (Forall2 (fun e j => other_entry e (jName j) (jReading j) /\ jGrade j = g) ls) (createAll ls g false d).
Proof.
  intros g. apply outcome_entries.
  - intros l n r d F R. exact (other_create l n r g d F R).
  - exact other_unique.
  - intros l d H. exact (other_refused l g d H).
  - intros l n r B (_ & [(t & E & _)|[E _]]); rewrite E in B; apply bytes_ok_mid in B; destruct B as (B1 & _ & B2); [apply bytes_ok_app in B2|]; tauto.
  - exact other_decidable.
Qed.

(** pieces of a text are not longer than the text *)
Lemma getlines_from_len : forall c s cur p l, In l (getlines_from c s cur p) -> len l <= len s + len cur.
Proof.
  intros c. induction s as [|b s IH]; intros cur p l H; cbn [getlines_from] in H.
  - destruct p; [destruct H as [<-|[]]|destruct H]; rewrite len_nil; lia.
  - rewrite len_cons. destruct (b =? c).
    + destruct H as [<-|H]; [lia|]. apply IH in H. rewrite len_nil in H. lia.
    + apply IH in H. rewrite len_app in H. change (len [b]) with 1 in H. lia.
Qed.
Lemma getlines_fit : forall c s, fits s -> Forall fits (getlines c s).
Proof.
  intros c s F. apply Forall_forall. intros l H. unfold getlines in H. apply getlines_from_len in H. unfold fits in *. rewrite len_nil in H. lia.
Qed.
Lemma getlines_ok : forall c s, bytes_ok s -> Forall bytes_ok (getlines c s).
Proof. intros c s H. apply getlines_generic_ok; [exact H|constructor]. Qed.

Definition other_words (g : N) (ls : list bytes) (js : list Jukugo) : Prop :=
  exists ess, Forall2 other_line ls ess
    /\ Forall2 (fun e j => other_entry e (jName j) (jReading j) /\ jGrade j = g) (concat ess) js.

Lemma outcome_lines : forall g ls js d, Holds js d -> Forall fits ls -> Forall bytes_ok ls ->
  outcome js (other_words g ls) (otherLines ls g d).
Proof.
  intros g ls. induction ls as [|l ls IH]; intros js d H F B.
  - left. exists [], d. split; [exists []; split; constructor|]. split; [reflexivity|]. rewrite app_nil_r. exact H.
  - inversion F as [|? ? F1 F2]; subst. inversion B as [|? ? B1 B2]; subst. cbn [otherLines].
    destruct (findText_cases (b_ "...") l) as [[E Hn]|(a & r & E & Et & Hm)].
    { rewrite E. right. split; [eexists; reflexivity|]. intros ws [ess [Q _]]. inversion Q as [|? es ? ess' Q1 Q2]; subst.
      destruct Q1 as (a & x & rest & X & _). exfalso. exact (Hn _ _ X). }
    rewrite Et. unfold substrFrom.
    assert (Uq : forall es, other_line l es -> exists x rest, r = x :: rest /\ es = getlines 32 rest).
    { intros es (a' & x & rest & X & M & C). apply cut_getlines in C. destruct (first_unique _ _ _ _ _ _ E X Hm M) as [_ Y]. exists x, rest. auto. }
    destruct r as [|x rest].
    { right. split; [|intros ws [ess [Q _]]; inversion Q as [|? es ? ess' Q1 Q2]; subst; destruct (Uq es Q1) as (x & rest & Y & _); discriminate].
      exists StdOutOfRange. unfold substr. replace (len l <? len a + 3 + 1) with true; [reflexivity|].
      symmetry. rewrite E, !len_app, len_nil. change (len (b_ "...")) with 3. lia. }
    assert (Es : substr l (len a + 3 + 1) (len l) = Val rest).
    { assert (X : l = (a ++ b_ "..." ++ [x]) ++ rest) by (rewrite E, <- !app_assoc; reflexivity).
      replace (len a + 3 + 1) with (len (a ++ b_ "..." ++ [x])) by (rewrite !len_app; change (len (b_ "...")) with 3; change (len [x]) with 1; lia).
      rewrite X at 1. apply substr_end. rewrite X at 1. rewrite (len_app _ (a ++ _)). lia. }
    rewrite Es. cbn [obind].
    assert (Br : bytes_ok rest). { rewrite E in B1. apply bytes_ok_mid in B1. destruct B1 as (_ & _ & Y). inversion Y. assumption. }
    assert (Fr : fits rest). { unfold fits in *. rewrite E, !len_app, len_cons in F1. lia. }
    assert (Ol : other_line l (getlines 32 rest)).
    { exists a, x, rest. split; [exact E|]. split; [exact Hm|]. apply cut_getlines. reflexivity. }
    destruct (outcome_other g (getlines 32 rest) js d H (getlines_fit _ _ Fr) (getlines_ok _ _ Br)) as [(ws & d' & Q & E1 & H1)|[[e Ex] Hf]].
    + rewrite E1. cbn [obind]. destruct (IH _ d' H1 F2 B2) as [(ws2 & d2 & [ess [Q1 Q2]] & E2 & H2)|[Ex Hf]].
      * left. exists (ws ++ ws2), d2. split; [|split; [exact E2|rewrite app_assoc; exact H2]].
        exists (getlines 32 rest :: ess). split; [constructor; assumption|]. cbn [concat]. apply Forall2_app; assumption.
      * right. split; [exact Ex|]. intros ws' [ess [Q1 Q2]]. inversion Q1 as [|? es ? ess' Q3 Q4]; subst.
        destruct (Uq es Q3) as (x' & rest' & Y & ->). inversion Y; subst x' rest'. cbn [concat] in Q2.
        apply Forall2_app_inv_l in Q2. destruct Q2 as (v1 & v2 & V1 & V2 & ->).
        assert (v1 = ws).
        { clear - V1 Q. revert v1 V1. induction Q as [|e j es js [A1 A2] _ IHq]; intros v V; inversion V as [|? j' ? v' [C1 C2] V']; subst; [reflexivity|].
          destruct (other_unique _ _ _ _ _ A1 C1). f_equal; [destruct j, j'; cbn in *; congruence|]. apply IHq. assumption. }
        subst v1. rewrite app_assoc. apply Hf. exists ess'. auto.
    + rewrite Ex. cbn [obind]. right. split; [eexists; reflexivity|]. intros ws' [ess [Q1 Q2]]. inversion Q1 as [|? es ? ess' Q3 Q4]; subst.
      destruct (Uq es Q3) as (x' & rest' & Y & ->). inversion Y; subst x' rest'. cbn [concat] in Q2.
      apply Forall2_app_inv_l in Q2. destruct Q2 as (v1 & v2 & V1 & V2 & ->). intro L. rewrite app_assoc in L. apply loadable_prefix in L.
      exact (Hf v1 V1 L).
Qed.

Lemma outcome_file : forall g c js d, Holds js d -> fits c -> bytes_ok c ->
  (exists ws d', file_words_of g c ws /\ loadJukugoFile c g d = Val d' /\ Holds (js ++ ws) d')
  \/ (loadJukugoFile c g d = Throw DomainError /\ forall ws, file_words_of g c ws -> ~ loadable (js ++ ws)).
Proof.
  intros g c js d H F B. unfold loadJukugoFile, file_words_of.
  pose proof (getlines_fit 10 c F) as F'. pose proof (getlines_ok 10 c B) as B'.
  assert (C : cut 10 c (getlines 10 c)) by (apply cut_getlines; reflexivity).
  destruct (g =? GradeS); cbn [negb].
  - destruct (outcome_lines g _ js d H F' B') as [(ws & d' & Q & E & H')|[[e E] Hf]]; rewrite E.
    + left. exists ws, d'. split; [|auto]. exists (getlines 10 c). auto.
    + right. split; [reflexivity|]. intros ws [ls [Cl Q]]. apply cut_getlines in Cl. subst ls. exact (Hf ws Q).
  - destruct (outcome_grade g _ js d H F' B') as [(ws & d' & Q & E & H')|[[e E] Hf]]; rewrite E.
    + left. exists ws, d'. split; [|auto]. exists (getlines 10 c). auto.
    + right. split; [reflexivity|]. intros ws [ls [Cl Q]]. apply cut_getlines in Cl. subst ls. exact (Hf ws Q).
Qed.

Lemma forall2_fun : forall (A B : Type) (R : A -> B -> Prop), (forall a x y, R a x -> R a y -> x = y) ->
  forall l m1 m2, Forall2 R l m1 -> Forall2 R l m2 -> m1 = m2.
Proof.
  intros A B R U l m1 m2 H. revert m2. induction H as [|a x l m R1 _ IH]; intros m2 H2; inversion H2 as [|? y ? m' R2 F2]; subst; [reflexivity|].
  f_equal; [exact (U _ _ _ R1 R2)|]. apply IH. exact F2.
Qed.
Lemma file_words_unique : forall g c a b, file_words_of g c a -> file_words_of g c b -> a = b.
Proof.
  intros g c a b [l1 [C1 H1]] [l2 [C2 H2]]. apply cut_getlines in C1. apply cut_getlines in C2. subst l1 l2.
  assert (J : forall j k : Jukugo, jName j = jName k /\ jReading j = jReading k -> jGrade j = jGrade k -> j = k).
  { intros [] [] [] ?. cbn in *. congruence. }
  destruct (g =? GradeS).
  - destruct H1 as [e1 [A1 B1]]. destruct H2 as [e2 [A2 B2]].
    assert (e1 = e2).
    { revert A1 A2. apply forall2_fun. intros l x y (a1 & x1 & r1 & E1 & M1 & K1) (a2 & x2 & r2 & E2 & M2 & K2).
      destruct (first_unique _ _ _ _ _ _ E1 E2 M1 M2) as [_ Y]. inversion Y; subst. apply cut_getlines in K1. apply cut_getlines in K2. congruence. }
    subst e2. revert B1 B2. apply forall2_fun. intros e x y [P1 G1] [P2 G2]. apply J; [exact (other_unique _ _ _ _ _ P1 P2)|congruence].
  - revert H1 H2. apply forall2_fun. intros e x y [P1 G1] [P2 G2]. apply J; [exact (grade_unique _ _ _ _ _ P1 P2)|congruence].
Qed.

Definition files_fit (f : JukugoFiles) : Prop :=
  Forall (fun c => fits c /\ bytes_ok c) [fG1 f; fG2 f; fG3 f; fG4 f; fG5 f; fG6 f; fOther f].

(** loading succeeds exactly when the files list loadable words *)
Lemma load_cases : forall f, files_fit f ->
  (exists js d, all_words f js /\ loadJukugo f = Val d /\ Holds js d)
  \/ (loadJukugo f = Throw DomainError /\ forall js, all_words f js -> ~ loadable js).
Proof.
  intros f F. unfold files_fit in F.
  inversion F as [|? ? [L1 O1] F1]; subst. inversion F1 as [|? ? [L2 O2] F2]; subst. inversion F2 as [|? ? [L3 O3] F3]; subst.
  inversion F3 as [|? ? [L4 O4] F4]; subst. inversion F4 as [|? ? [L5 O5] F5]; subst. inversion F5 as [|? ? [L6 O6] F6]; subst.
  inversion F6 as [|? ? [L7 O7] _]; subst. clear F F1 F2 F3 F4 F5 F6.
  unfold loadJukugo. cbn [loadGrades].
  replace (1 + 1) with 2 by reflexivity. replace (2 + 1) with 3 by reflexivity. replace (3 + 1) with 4 by reflexivity.
  replace (4 + 1) with 5 by reflexivity. replace (5 + 1) with 6 by reflexivity.
  destruct (outcome_file 1 _ _ _ holds_start L1 O1) as [(w1 & d1 & Q1 & E1 & H1)|[E1 N1]]; rewrite E1; cbn [obind].
  2:{ right. split; [reflexivity|]. intros js (w1 & w2 & w3 & w4 & w5 & w6 & w7 & A1 & _ & _ & _ & _ & _ & _ & ->) L.
      apply loadable_prefix in L. exact (N1 _ A1 L). }
  destruct (outcome_file 2 _ _ _ H1 L2 O2) as [(w2 & d2 & Q2 & E2 & H2)|[E2 N2]]; rewrite E2; cbn [obind].
  2:{ right. split; [reflexivity|]. intros js (v1 & v2 & v3 & v4 & v5 & v6 & v7 & A1 & A2 & _ & _ & _ & _ & _ & ->) L.
      rewrite (file_words_unique _ _ _ _ A1 Q1) in L. apply (N2 v2 A2). rewrite !app_assoc in L. do 5 apply loadable_prefix in L. exact L. }
  destruct (outcome_file 3 _ _ _ H2 L3 O3) as [(w3 & d3 & Q3 & E3 & H3)|[E3 N3]]; rewrite E3; cbn [obind].
  2:{ right. split; [reflexivity|]. intros js (v1 & v2 & v3 & v4 & v5 & v6 & v7 & A1 & A2 & A3 & _ & _ & _ & _ & ->) L.
      rewrite (file_words_unique _ _ _ _ A1 Q1), (file_words_unique _ _ _ _ A2 Q2) in L. apply (N3 v3 A3). rewrite !app_assoc in L. do 4 apply loadable_prefix in L. exact L. }
  destruct (outcome_file 4 _ _ _ H3 L4 O4) as [(w4 & d4 & Q4 & E4 & H4)|[E4 N4]]; rewrite E4; cbn [obind].
  2:{ right. split; [reflexivity|]. intros js (v1 & v2 & v3 & v4 & v5 & v6 & v7 & A1 & A2 & A3 & A4 & _ & _ & _ & ->) L.
      rewrite (file_words_unique _ _ _ _ A1 Q1), (file_words_unique _ _ _ _ A2 Q2), (file_words_unique _ _ _ _ A3 Q3) in L.
      apply (N4 v4 A4). rewrite !app_assoc in L. do 3 apply loadable_prefix in L. exact L. }
  destruct (outcome_file 5 _ _ _ H4 L5 O5) as [(w5 & d5 & Q5 & E5 & H5)|[E5 N5]]; rewrite E5; cbn [obind].
  2:{ right. split; [reflexivity|]. intros js (v1 & v2 & v3 & v4 & v5 & v6 & v7 & A1 & A2 & A3 & A4 & A5 & _ & _ & ->) L.
      rewrite (file_words_unique _ _ _ _ A1 Q1), (file_words_unique _ _ _ _ A2 Q2), (file_words_unique _ _ _ _ A3 Q3), (file_words_unique _ _ _ _ A4 Q4) in L.
      apply (N5 v5 A5). rewrite !app_assoc in L. do 2 apply loadable_prefix in L. exact L. }
  destruct (outcome_file 6 _ _ _ H5 L6 O6) as [(w6 & d6 & Q6 & E6 & H6)|[E6 N6]]; rewrite E6; cbn [obind].
  2:{ right. split; [reflexivity|]. intros js (v1 & v2 & v3 & v4 & v5 & v6 & v7 & A1 & A2 & A3 & A4 & A5 & A6 & _ & ->) L.
      rewrite (file_words_unique _ _ _ _ A1 Q1), (file_words_unique _ _ _ _ A2 Q2), (file_words_unique _ _ _ _ A3 Q3), (file_words_unique _ _ _ _ A4 Q4),
        (file_words_unique _ _ _ _ A5 Q5) in L.
      apply (N6 v6 A6). rewrite !app_assoc in L. apply loadable_prefix in L. exact L. }
  destruct (outcome_file GradeS _ _ _ H6 L7 O7) as [(w7 & d7 & Q7 & E7 & H7)|[E7 N7]]; rewrite E7.
  - left. exists (w1 ++ w2 ++ w3 ++ w4 ++ w5 ++ w6 ++ w7), d7. split; [exists w1, w2, w3, w4, w5, w6, w7; auto 10|].
    split; [reflexivity|]. cbn [app] in H7. rewrite <- !app_assoc in H7. exact H7.
  - right. split; [reflexivity|]. intros js (v1 & v2 & v3 & v4 & v5 & v6 & v7 & A1 & A2 & A3 & A4 & A5 & A6 & A7 & ->) L.
    rewrite (file_words_unique _ _ _ _ A1 Q1), (file_words_unique _ _ _ _ A2 Q2), (file_words_unique _ _ _ _ A3 Q3), (file_words_unique _ _ _ _ A4 Q4),
      (file_words_unique _ _ _ _ A5 Q5), (file_words_unique _ _ _ _ A6 Q6) in L.
    apply (N7 v7 A7). rewrite !app_assoc in L. exact L.
Qed.
Lemma all_words_unique : forall f a b, all_words f a -> all_words f b -> a = b.
Proof.
  intros f a b (v1 & v2 & v3 & v4 & v5 & v6 & v7 & A1 & A2 & A3 & A4 & A5 & A6 & A7 & ->) (w1 & w2 & w3 & w4 & w5 & w6 & w7 & B1 & B2 & B3 & B4 & B5 & B6 & B7 & ->).
  rewrite (file_words_unique _ _ _ _ A1 B1), (file_words_unique _ _ _ _ A2 B2), (file_words_unique _ _ _ _ A3 B3), (file_words_unique _ _ _ _ A4 B4),
    (file_words_unique _ _ _ _ A5 B5), (file_words_unique _ _ _ _ A6 B6), (file_words_unique _ _ _ _ A7 B7). reflexivity.
Qed.
