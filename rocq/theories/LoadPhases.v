(** Lemmas about loading Kanji: the steps before the lists. *)
From Verif Require Import BaseFacts MapProofs DataModel DataSpec DataProofs LoadModel LoadSpec LoadProofs LoadAttr.
Arguments N.mul : simpl never. Arguments N.add : simpl never. Arguments N.sub : simpl never.
Arguments N.div : simpl never.

(** every Kanji that is new satisfies P *)
Definition NewAll (P : Kanji -> Prop) (d d' : Data) : Prop :=
  forall s k, mfind s (dNames d') = Some k -> mfind s (dNames d) = Some k \/ (mfind s (dNames d) = None /\ P k).
Lemma NewAll_refl : forall P d, NewAll P d d.
Proof. intros P d s k H. left. exact H. Qed.
Lemma NewAll_trans : forall P a b c, Grow a b -> NewAll P a b -> NewAll P b c -> NewAll P a c.
Proof.
  intros P a b c [G _] N1 N2 s k H. destruct (N2 s k H) as [K|[K1 K2]]; [exact (N1 s k K)|]. right. split; [|exact K2].
  destruct (mfind s (dNames a)) as [x|] eqn:E; [|reflexivity]. rewrite (G s x E) in K1. discriminate.
Qed.
Lemma NewAll_weaken : forall (P Q : Kanji -> Prop) a b, (forall k, P k -> Q k) -> NewAll P a b -> NewAll Q a b.
Proof. intros P Q a b H Nw s k K. destruct (Nw s k K) as [L|[L1 L2]]; auto. Qed.
Definition Same (d d' : Data) : Prop := dLevels d' = dLevels d /\ dKyus d' = dKyus d /\ dFreqs d' = dFreqs d.
Lemma Same_refl : forall d, Same d d.
Proof. repeat split. Qed.
Lemma Same_trans : forall a b c, Same a b -> Same b c -> Same a c.
Proof. intros a b c [A1 [A2 A3]] [B1 [B2 B3]]. repeat split; congruence. Qed.

(** one step of loading: all at once *)
Record Stage (T : list KanjiTypes) (P : Kanji -> Prop) (d d' : Data) : Prop := {
  sg_wf : Wf d'; sg_auto : Auto d'; sg_ev : Evolve T d d'; sg_new : NewAll P d d' }.
Lemma Stage_refl : forall T P d, Wf d -> Auto d -> Stage T P d d.
Proof. intros T P d W A. split; auto; [apply Evolve_refl; exact W|apply NewAll_refl]. Qed.
Lemma Stage_trans : forall T P a b c, Stage T P a b -> Stage T P b c -> Stage T P a c.
Proof.
  intros T P a b c [W1 A1 E1 N1] [W2 A2 E2 N2]. split; auto; [eapply Evolve_trans; eauto|].
  eapply NewAll_trans; [apply E1|exact N1|exact N2].
Qed.
Lemma Stage_weaken : forall T T' (P Q : Kanji -> Prop) a b, incl T T' -> (forall k, P k -> Q k) -> Stage T P a b -> Stage T' Q a b.
Proof. intros T T' P Q a b I H [W A E Nw]. split; auto; [eapply Evolve_weaken; eauto|eapply NewAll_weaken; eauto]. Qed.

Lemma stage_plain : forall d d' k b, Wf d -> Auto d -> ~ made_singly (kType k) -> checkInsert d k = Val (d', b) ->
  Stage [kType k] (eq k) d d' /\ Same d d' /\ mfind (kName k) (dNames d') <> None
  /\ (mfind (kName k) (dNames d) = None -> mfind (kName k) (dNames d') = Some k).
Proof.
  intros d d' k b W A Hk H. destruct (Auto_plain d (d', b) k W A Hk H) as [A' [E' [L1 [L2 [L3 L4]]]]]. cbn [fst] in *.
  split; [split; auto|].
  - apply E'.
  - destruct (insert_cases d k W) as [[x [X E]]|[X [d1 [E [W1 [G1 [Hn _]]]]]]]; rewrite E in H; inversion H; subst; [apply NewAll_refl|].
    intros s y. rewrite Hn. destruct (beq (kName k) s) eqn:B; [|auto]. intros [= <-]. apply beq_eq in B. subst s. auto.
  - split; [repeat split; assumption|]. split; [exact L4|]. intro K.
    destruct (insert_cases d k W) as [[x [X E]]|[X [d1 [E [W1 [G1 [Hn _]]]]]]]; rewrite E in H; inversion H; subst; [congruence|].
    rewrite Hn, beq_refl. reflexivity.
Qed.
Lemma stage_typed : forall d d' t k b, Wf d -> Auto d -> made_singly t -> kType k = t -> checkInsertType d t k = Val (d', b) ->
  Stage [t] (eq k) d d' /\ Same d d' /\ mfind (kName k) (dNames d') <> None
  /\ (findByName d (kName k) = None -> findByName d' (kName k) = Some k /\ mfind (kName k) (dNames d') = Some k).
Proof.
  intros d d' t k b W A Hs Hk H. destruct (Auto_typed d d' t k b W A Hs Hk H) as [A' [E' [L1 [L2 [L3 [[x L4] L5]]]]]].
  split; [split; auto|].
  - apply E'.
  - unfold checkInsertType in H.
    destruct (insert_cases d k W) as [[y [X E]]|[X [d1 [E [W1 [G1 [Hn _]]]]]]]; rewrite E in H; cbn [obind] in H; inversion H; subst; [apply NewAll_refl|].
    intros s z. cbn [dNames]. rewrite Hn. destruct (beq (kName k) s) eqn:B; [|auto]. intros [= <-]. apply beq_eq in B. subst s. auto.
  - split; [repeat split; assumption|]. split; [congruence|]. intro F.
    destruct (not_found_new d (kName k) W F) as [X _]. destruct (L5 X) as [L6 L7]. auto.
Qed.

Lemma fromRows_spec : forall make rows ks, fromRows make rows = Val ks ->
  Forall2 (fun r k => make r = Val k) rows ks.
Proof.
  intros make. induction rows as [|r rows IH]; intros ks H; cbn [fromRows] in H; [inversion H; constructor|].
  peel H k E. peel H ks' E'. inversion H; subst. constructor; [exact E|apply IH; exact E'].
Qed.
Lemma insertAll_stage : forall t ks d d', ~ made_singly t -> Forall (fun k => kType k = t) ks ->
  Wf d -> Auto d -> insertAll d ks = Val d' ->
  Stage [t] (fun k => In k ks) d d' /\ Same d d'
  /\ forall k, In k ks -> mfind (kName k) (dNames d') <> None.
Proof.
  intros t. induction ks as [|k ks IH]; intros d d' Ht Hk W A H; cbn [insertAll] in H.
  - inversion H; subst. split; [apply Stage_refl; assumption|]. split; [apply Same_refl|intros k []].
  - peel H p E. destruct p as [d1 b]. apply Forall_cons_iff in Hk as Hk'. destruct Hk' as [Hk1 Hk2].
    destruct (stage_plain d d1 k b W A ltac:(rewrite Hk1; exact Ht) E) as [S1 [Sm1 [P1 _]]].
    destruct (IH d1 d' Ht Hk2 (sg_wf _ _ _ _ S1) (sg_auto _ _ _ _ S1) H) as [S2 [Sm2 P2]].
    split; [|split; [eapply Same_trans; eauto|]].
    + apply Stage_trans with d1.
      * apply Stage_weaken with [kType k] (eq k); [rewrite Hk1; apply incl_refl|intros y <-; left; reflexivity|exact S1].
      * apply Stage_weaken with [t] (fun y => In y ks); [apply incl_refl|intros y Hy; right; exact Hy|exact S2].
    + intros y [<-|Hy]; [|apply P2; exact Hy]. destruct (mfind (kName k) (dNames d1)) as [z|] eqn:Z; [|congruence].
      rewrite (proj1 (ev_grow _ _ _ (sg_ev _ _ _ _ S2)) _ _ Z). discriminate.
Qed.
Lemma aset_alist : forall V k j (l : list V) m, alist N.eqb j (aset k l m) = if k =? j then l else alist N.eqb j m.
Proof.
  intros V k j l. induction m as [|[x v] m IH]; cbn [aset alist].
  - destruct (k =? j); reflexivity.
  - destruct (N.eqb_spec x k) as [->|Hx]; cbn [alist].
    + destruct (k =? j); reflexivity.
    + rewrite IH. destruct (N.eqb_spec x j) as [->|Hj]; [|reflexivity]. replace (k =? j) with false by lia. reflexivity.
Qed.
Lemma setType_list : forall d t l t', type_list (setType d t l) t' = if kanjiTypeNumber t =? kanjiTypeNumber t' then l else type_list d t'.
Proof. intros. unfold type_list, setType. cbn [dTypes]. apply aset_alist. Qed.
Lemma setType_stage : forall P d t l, Wf d -> Auto d -> ~ made_singly t -> Stage [t] P d (setType d t l) /\ Same d (setType d t l).
Proof.
  intros P d t l W A Ht.
  assert (Ty : forall t', t' <> t -> type_list (setType d t l) t' = type_list d t').
  { intros t' H. rewrite setType_list. destruct (N.eqb_spec (kanjiTypeNumber t) (kanjiTypeNumber t')) as [K|K]; [|reflexivity].
    apply typeNumber_inj in K. congruence. }
  assert (W' : Wf (setType d t l)) by (destruct W as [w1 w2 w3 w4]; split; assumption).
  split; [|repeat split]. split; [exact W'| |split; [exact W'|split; auto|left; assumption|]|].
  - intros t' Hs. rewrite Ty by congruence. exact (A t' Hs).
  - intros t' Hi. apply Ty. intro K. apply Hi. left. congruence.
  - intros s k K. left. exact K.
Qed.
Lemma loadPlain_stage : forall make t rows d d', ~ made_singly t -> (forall r k, make r = Val k -> kType k = t) ->
  Wf d -> Auto d -> loadPlain make t rows d = Val d' ->
  exists ks, Forall2 (fun r k => make r = Val k) rows ks
  /\ type_list d' t = ks /\ Stage [t] (fun k => In k ks) d d' /\ Same d d'
  /\ forall k, In k ks -> mfind (kName k) (dNames d') <> None.
Proof.
  intros make t rows d d' Ht Hm W A H. unfold loadPlain in H. peel H ks E. peel H d1 E1. inversion H; subst d'. clear H.
  apply fromRows_spec in E. exists ks. split; [exact E|].
  assert (Hk : Forall (fun k => kType k = t) ks).
  { clear E1. induction E as [|r k rows ks Hx Hr IH]; constructor; [eapply Hm; exact Hx|exact IH]. }
  destruct (insertAll_stage t ks d d1 Ht Hk W A E1) as [S1 [Sm1 P1]].
  destruct (setType_stage (fun k => In k ks) d1 t ks (sg_wf _ _ _ _ S1) (sg_auto _ _ _ _ S1) Ht) as [S2 Sm2].
  split; [rewrite setType_list, N.eqb_refl; reflexivity|]. split; [eapply Stage_trans; eauto|]. split; [eapply Same_trans; eauto|exact P1].
Qed.

(** linked Kanji *)
Lemma single_linked : forall b, made_singly (linked_type b).
Proof. intros [|]; [right; left|left]; reflexivity. Qed.
Definition linked_line (e : Env) (lines : list bytes) (d : Data) (k : Kanji) : Prop :=
  exists line j s rest link, In line lines /\ getlines 9 line = j :: s :: rest
  /\ mfind j (dNames d) = Some link /\ makeLinked e false s link = Val k.
Lemma loadLinkedLines_stage : forall e lines d d', Wf d -> Auto d -> loadLinkedLines e lines d = Val d' ->
  Stage [LinkedJinmei] (linked_line e lines d') d d' /\ Same d d'
  /\ forall line, In line lines -> exists j s rest, getlines 9 line = j :: s :: rest
       /\ mfind j (dNames d') <> None /\ mfind s (dNames d') <> None.
Proof.
  intros e. induction lines as [|line lines IH]; intros d d' W A H; cbn [loadLinkedLines] in H.
  - inversion H; subst. split; [apply Stage_refl; assumption|]. split; [apply Same_refl|intros line []].
  - destruct (getlines 9 line) as [|j [|s rest]] eqn:L; try discriminate.
    destruct (mfind j (dNames d)) as [link|] eqn:F; [|discriminate].
    peel H k E. peel H p E1. destruct p as [d1 b].
    destruct (linked_fields e false s link k E) as [K1 [K2 _]].
    destruct (stage_typed d d1 LinkedJinmei k b W A ltac:(left; reflexivity) K2 E1) as [S1 [Sm1 [P1 _]]].
    destruct (IH d1 d' (sg_wf _ _ _ _ S1) (sg_auto _ _ _ _ S1) H) as [S2 [Sm2 P2]].
    assert (G2 : Grow d1 d') by apply S2. assert (G1 : Grow d d1) by apply S1.
    assert (Fl : mfind j (dNames d') = Some link) by (apply G2; apply G1; exact F).
    split; [|split; [eapply Same_trans; eauto|]].
    + apply Stage_trans with d1.
      * eapply Stage_weaken; [apply incl_refl| |exact S1]. intros y <-. exists line, j, s, rest, link. repeat split; auto. left; reflexivity.
      * eapply Stage_weaken; [apply incl_refl| |exact S2]. intros y [ln [j' [s' [r' [l' [Q1 Q2]]]]]]. exists ln, j', s', r', l'. split; [right; exact Q1|exact Q2].
    + intros ln [<-|Hl]; [|apply P2; exact Hl]. exists j, s, rest. split; [exact L|]. split; [congruence|].
      rewrite <- K1. destruct (mfind (kName k) (dNames d1)) as [z|] eqn:Z; [|congruence]. rewrite (proj1 G2 _ _ Z). discriminate.
Qed.
Definition old_of (e : Env) (links : Kanji -> Prop) (isOld : bool) (k : Kanji) : Prop :=
  exists link j, links link /\ In j (kOldNames link) /\ makeLinked e isOld j link = Val k.
Lemma loadOldNames_stage : forall e link names d d', Wf d -> Auto d -> loadOldNames e link names d = Val d' ->
  Stage [LinkedOld] (fun k => exists j, In j names /\ makeLinked e true j link = Val k) d d' /\ Same d d'
  /\ forall j, In j names -> findByName d' j <> None.
Proof.
  intros e link. induction names as [|j names IH]; intros d d' W A H; cbn [loadOldNames] in H.
  - inversion H; subst. split; [apply Stage_refl; assumption|]. split; [apply Same_refl|intros j []].
  - destruct (findByName d j) as [z|] eqn:F.
    + destruct (IH d d' W A H) as [S2 [Sm2 P2]]. split; [|split; [exact Sm2|]].
      * eapply Stage_weaken; [apply incl_refl| |exact S2]. intros k [j' [Q1 Q2]]. exists j'. split; [right; exact Q1|exact Q2].
      * intros j' [<-|Hj]; [|auto]. eapply found_grow; [exact W|apply S2| |apply S2]. congruence.
    + peel H k E. peel H p E1. destruct p as [d1 b].
      destruct (linked_fields e true j link k E) as [K1 [K2 _]].
      destruct (stage_typed d d1 LinkedOld k b W A ltac:(right; left; reflexivity) K2 E1) as [S1 [Sm1 [P1 Q1]]].
      destruct (IH d1 d' (sg_wf _ _ _ _ S1) (sg_auto _ _ _ _ S1) H) as [S2 [Sm2 P2]].
      split; [|split; [eapply Same_trans; eauto|]].
      * apply Stage_trans with d1.
        -- eapply Stage_weaken; [apply incl_refl| |exact S1]. intros y <-. exists j. split; [left; reflexivity|exact E].
        -- eapply Stage_weaken; [apply incl_refl| |exact S2]. intros y [j' [R1 R2]]. exists j'. split; [right; exact R1|exact R2].
      * intros j' [<-|Hj]; [|auto]. eapply found_grow; [apply S1|apply S2| |apply S2]. rewrite <- K1. rewrite K1 in Q1 |- *.
        destruct (Q1 F) as [Q _]. congruence.
Qed.
Lemma loadOld_stage : forall e l d d', Wf d -> Auto d -> loadOld e l d = Val d' ->
  Stage [LinkedOld] (old_of e (fun x => In x (map snd l)) true) d d' /\ Same d d'
  /\ forall n k j, In (n, k) l -> In j (kOldNames k) -> findByName d' j <> None.
Proof.
  intros e. induction l as [|[n k] l IH]; intros d d' W A H; cbn [loadOld] in H.
  - inversion H; subst. split; [apply Stage_refl; assumption|]. split; [apply Same_refl|intros n k j []].
  - peel H d1 E. destruct (loadOldNames_stage e k (kOldNames k) d d1 W A E) as [S1 [Sm1 P1]].
    destruct (IH d1 d' (sg_wf _ _ _ _ S1) (sg_auto _ _ _ _ S1) H) as [S2 [Sm2 P2]].
    split; [|split; [eapply Same_trans; eauto|]].
    + apply Stage_trans with d1.
      * eapply Stage_weaken; [apply incl_refl| |exact S1]. intros y [j [Q1 Q2]]. exists k, j. split; [left; reflexivity|auto].
      * eapply Stage_weaken; [apply incl_refl| |exact S2]. intros y [x [j [Q1 Q2]]]. exists x, j. split; [right; exact Q1|auto].
    + intros n' k' j [Q|Q] Hj; [|eapply P2; eauto]. inversion Q; subst n' k'.
      eapply found_grow; [apply S1|apply S2|apply P1; exact Hj|apply S2].
Qed.
Lemma loadLinkedNames_stage : forall e link names d d', Wf d -> Auto d -> loadLinkedNames e link names d = Val d' ->
  Stage [LinkedJinmei] (fun k => exists j, In j names /\ makeLinked e false j link = Val k) d d' /\ Same d d'
  /\ forall j, In j names -> mfind j (dNames d') <> None.
Proof.
  intros e link. induction names as [|j names IH]; intros d d' W A H; cbn [loadLinkedNames] in H.
  - inversion H; subst. split; [apply Stage_refl; assumption|]. split; [apply Same_refl|intros j []].
  - peel H k E. peel H p E1. destruct p as [d1 b].
    destruct (linked_fields e false j link k E) as [K1 [K2 _]].
    destruct (stage_typed d d1 LinkedJinmei k b W A ltac:(left; reflexivity) K2 E1) as [S1 [Sm1 [P1 Q1]]].
    destruct (IH d1 d' (sg_wf _ _ _ _ S1) (sg_auto _ _ _ _ S1) H) as [S2 [Sm2 P2]].
    split; [|split; [eapply Same_trans; eauto|]].
    + apply Stage_trans with d1.
      * eapply Stage_weaken; [apply incl_refl| |exact S1]. intros y <-. exists j. split; [left; reflexivity|exact E].
      * eapply Stage_weaken; [apply incl_refl| |exact S2]. intros y [j' [R1 R2]]. exists j'. split; [right; exact R1|exact R2].
    + intros j' [<-|Hj]; [|auto]. rewrite <- K1. destruct (mfind (kName k) (dNames d1)) as [z|] eqn:Z; [|congruence].
      assert (G2 : Grow d1 d') by apply S2. rewrite (proj1 G2 _ _ Z). discriminate.
Qed.
Lemma not_single_jinmei : ~ made_singly Jinmei.
Proof. intros [H|[H|[H|[H|H]]]]; discriminate. Qed.
Lemma not_single_jouyou : ~ made_singly Jouyou.
Proof. intros [H|[H|[H|[H|H]]]]; discriminate. Qed.
Lemma not_single_extra : ~ made_singly Extra.
Proof. intros [H|[H|[H|[H|H]]]]; discriminate. Qed.
Lemma insertJinmei_stage : forall e ks d d', Forall (fun k => kType k = Jinmei) ks ->
  Wf d -> Auto d -> insertJinmei e ks d = Val d' ->
  Stage [Jinmei; LinkedJinmei] (fun k => In k ks \/ old_of e (fun x => In x ks) false k) d d' /\ Same d d'
  /\ forall k, In k ks -> mfind (kName k) (dNames d') <> None /\ forall j, In j (kOldNames k) -> mfind j (dNames d') <> None.
Proof.
  intros e. induction ks as [|k ks IH]; intros d d' Hk W A H; cbn [insertJinmei] in H.
  - inversion H; subst. split; [apply Stage_refl; assumption|]. split; [apply Same_refl|intros k []].
  - peel H p E. destruct p as [d1 b]. peel H d2 E2. apply Forall_cons_iff in Hk as Hk'. destruct Hk' as [Hk1 Hk2].
    destruct (stage_plain d d1 k b W A ltac:(rewrite Hk1; exact not_single_jinmei) E) as [S1 [Sm1 [P1 _]]].
    destruct (loadLinkedNames_stage e k (kOldNames k) d1 d2 (sg_wf _ _ _ _ S1) (sg_auto _ _ _ _ S1) E2) as [S2 [Sm2 P2]].
    destruct (IH d2 d' Hk2 (sg_wf _ _ _ _ S2) (sg_auto _ _ _ _ S2) H) as [S3 [Sm3 P3]].
    assert (G2 : Grow d1 d2) by apply S2. assert (G3 : Grow d2 d') by apply S3.
    split; [|split; [eapply Same_trans; [exact Sm1|eapply Same_trans; eauto]|]].
    + apply Stage_trans with d1; [|apply Stage_trans with d2].
      * apply Stage_weaken with [kType k] (eq k); [rewrite Hk1; intros y [<-|[]]; left; reflexivity|intros y <-; left; left; reflexivity|exact S1].
      * eapply Stage_weaken; [| |exact S2]; [intros y [<-|[]]; right; left; reflexivity|].
        intros y [j [Q1 Q2]]. right. exists k, j. split; [left; reflexivity|auto].
      * eapply Stage_weaken; [apply incl_refl| |exact S3]. intros y [Q|[x [j [Q1 Q2]]]]; [left; right; exact Q|].
        right. exists x, j. split; [right; exact Q1|exact Q2].
    + intros y [<-|Hy]; [|apply P3; exact Hy]. split.
      * destruct (mfind (kName k) (dNames d1)) as [z|] eqn:Z; [|congruence].
        rewrite (proj1 G3 _ _ (proj1 G2 _ _ Z)). discriminate.
      * intros j Hj. specialize (P2 j Hj). destruct (mfind j (dNames d2)) as [z|] eqn:Z; [|congruence].
        rewrite (proj1 G3 _ _ Z). discriminate.
Qed.
Lemma loadJinmei_stage : forall e rows d d', Wf d -> Auto d -> loadJinmei e rows d = Val d' ->
  exists ks, Forall2 (fun r k => makeJinmei e r = Val k) rows ks
  /\ type_list d' Jinmei = ks /\ Stage [Jinmei; LinkedJinmei] (fun k => In k ks \/ old_of e (fun x => In x ks) false k) d d' /\ Same d d'
  /\ forall k, In k ks -> mfind (kName k) (dNames d') <> None /\ forall j, In j (kOldNames k) -> mfind j (dNames d') <> None.
Proof.
  intros e rows d d' W A H. unfold loadJinmei in H. peel H ks E. peel H d1 E1. inversion H; subst d'. clear H.
  apply fromRows_spec in E. exists ks. split; [exact E|].
  assert (Hk : Forall (fun k => kType k = Jinmei) ks).
  { clear E1. induction E as [|r k rows ks Hx Hr IH]; constructor; [apply (jinmei_fields e r k Hx)|exact IH]. }
  destruct (insertJinmei_stage e ks d d1 Hk W A E1) as [S1 [Sm1 P1]].
  destruct (setType_stage (fun k => In k ks \/ old_of e (fun x => In x ks) false k) d1 Jinmei ks (sg_wf _ _ _ _ S1) (sg_auto _ _ _ _ S1) not_single_jinmei) as [S2 Sm2].
  split; [rewrite setType_list, N.eqb_refl; reflexivity|]. split; [|split; [eapply Same_trans; eauto|exact P1]].
  apply Stage_trans with d1; [exact S1|]. eapply Stage_weaken; [| |exact S2]; [intros y [<-|[]]; left; reflexivity|auto].
Qed.
