(** Lemmas about loading Kanji: the tables. *)
From Verif Require Import BaseFacts MapProofs Utf8CharLemmas ListProofs DataModel DataSpec DataProofs LoadModel LoadSpec.
Arguments N.mul : simpl never. Arguments N.add : simpl never. Arguments N.sub : simpl never.
Arguments N.div : simpl never.

(** ** States *)
Record Wf (d : Data) : Prop := {
  wf_names : msorted (dNames d);
  wf_compat : msorted (dCompat d);
  wf_own : forall s k, mfind s (dNames d) = Some k -> kName k = s;
  wf_target : forall s n, mfind s (dCompat d) = Some n ->
    exists k, mfind n (dNames d) = Some k /\ selected_name k = true /\ compatibilityName k = s
}.
Definition Grow (d d' : Data) : Prop :=
  (forall s k, mfind s (dNames d) = Some k -> mfind s (dNames d') = Some k)
  /\ (forall s n, mfind s (dCompat d) = Some n -> mfind s (dCompat d') = Some n).
Lemma Grow_refl : forall d, Grow d d.
Proof. split; auto. Qed.
Lemma Grow_trans : forall a b c, Grow a b -> Grow b c -> Grow a c.
Proof. intros a b c [H1 H2] [H3 H4]. split; auto. Qed.

Lemma Wf_new : forall m, Wf (newData m).
Proof. intro m. split; try apply msorted_nil; intros s k H; discriminate. Qed.

(** the two outcomes of an insertion *)
Lemma insert_cases : forall d k, Wf d ->
  (exists x, mfind (kName k) (dNames d) = Some x /\ checkInsert d k = Val (d, false))
  \/ (mfind (kName k) (dNames d) = None /\ exists d', checkInsert d k = Val (d', true)
      /\ Wf d' /\ Grow d d'
      /\ (forall s, mfind s (dNames d') = if beq (kName k) s then Some k else mfind s (dNames d))
      /\ (forall s, mfind s (dCompat d') = match mfind s (dCompat d) with
            | Some n => Some n
            | None => if selected_name k && beq (compatibilityName k) s then Some (kName k) else None
            end)
      /\ dTypes d' = dTypes d /\ dLevels d' = dLevels d /\ dKyus d' = dKyus d /\ dFreqs d' = dFreqs d).
Proof.
  intros d k W. destruct (mfind (kName k) (dNames d)) as [x|] eqn:E.
  - left. exists x. split; [reflexivity|]. unfold checkInsert. rewrite E. reflexivity.
  - right. split; [reflexivity|]. unfold checkInsert. rewrite E, variant_total. cbn [obind].
    eexists. split; [reflexivity|].
    match goal with |- Wf ?x /\ _ => set (d' := x) end.
    assert (Hn : forall s, mfind s (dNames d') = if beq (kName k) s then Some k else mfind s (dNames d)).
    { intro s. unfold d'. cbn [dNames]. apply madd_find. apply W. }
    assert (Hc : forall s, mfind s (dCompat d') = match mfind s (dCompat d) with
            | Some n => Some n
            | None => if selected_name k && beq (compatibilityName k) s then Some (kName k) else None
            end).
    { intro s. unfold d'. cbn [dCompat]. destruct (selected_name k); cbn [andb].
      - destruct (mfind (compatibilityName k) (dCompat d)) as [n|] eqn:F.
        + destruct (mfind s (dCompat d)) eqn:G; [reflexivity|]. destruct (beq (compatibilityName k) s) eqn:B; [|reflexivity].
          apply beq_eq in B. congruence.
        + rewrite madd_find by apply W. destruct (beq (compatibilityName k) s) eqn:B.
          * apply beq_eq in B. subst s. rewrite F. reflexivity.
          * destruct (mfind s (dCompat d)); reflexivity.
      - destruct (mfind s (dCompat d)); reflexivity. }
    split; [split|split; [split|split; [exact Hn|split; [exact Hc|repeat split]]]].
    + unfold d'. cbn [dNames]. apply mupdate_sorted. apply W.
    + unfold d'. cbn [dCompat]. destruct (selected_name k); [|apply W].
      destruct (mfind (compatibilityName k) (dCompat d)); [apply W|apply mupdate_sorted; apply W].
    + intros s x. rewrite Hn. destruct (beq (kName k) s) eqn:B; [|apply W]. intros [= <-]. apply beq_eq. exact B.
    + intros s n. rewrite Hc. destruct (mfind s (dCompat d)) as [n'|] eqn:F.
      * intros [= <-]. destruct (wf_target d W s n' F) as [x [X1 [X2 X3]]]. exists x. split; [|auto].
        rewrite Hn. destruct (beq (kName k) n') eqn:B; [|exact X1]. apply beq_eq in B. congruence.
      * destruct (selected_name k) eqn:S; cbn [andb]; [|discriminate]. destruct (beq (compatibilityName k) s) eqn:B; [|discriminate].
        intros [= <-]. exists k. rewrite Hn, beq_refl. split; [reflexivity|]. split; [exact S|]. apply beq_eq. exact B.
    + intros s x H. rewrite Hn. destruct (beq (kName k) s) eqn:B; [|exact H]. apply beq_eq in B. congruence.
    + intros s n H. rewrite Hc, H. reflexivity.
Qed.

(** findByName in states that only grow *)
Lemma found_grow : forall d d' s, Wf d -> Grow d d' -> findByName d s <> None -> Wf d' -> findByName d' s <> None.
Proof.
  intros d d' s W [G1 G2] H W'. unfold findByName in *.
  destruct (mfind s (dCompat d)) as [n|] eqn:E.
  - rewrite (G2 s n E). destruct (mfind n (dNames d)) as [k|] eqn:F; [|congruence]. rewrite (G1 n k F). discriminate.
  - destruct (mfind s (dNames d)) as [k|] eqn:F; [|congruence].
    destruct (mfind s (dCompat d')) as [n|] eqn:E'.
    + destruct (wf_target d' W' s n E') as [x [X _]]. rewrite X. discriminate.
    + rewrite (G1 s k F). discriminate.
Qed.
Lemma found_same : forall d d' s k k', Wf d -> Wf d' -> Grow d d' ->
  findByName d s = Some k -> findByName d' s = Some k' -> kName k' = s -> k = k'.
Proof.
  intros d d' s k k' W W' [G1 G2] H H' Hn. unfold findByName in *.
  destruct (mfind s (dCompat d)) as [n|] eqn:E.
  - rewrite (G2 s n E) in H'. rewrite (G1 n k H) in H'. congruence.
  - pose proof (G1 s k H) as K. destruct (mfind s (dCompat d')) as [n|] eqn:E'; [|congruence].
    pose proof (wf_own d' W' n k' H'). congruence.
Qed.
Lemma found_in : forall d s k, findByName d s = Some k -> exists n, mfind n (dNames d) = Some k.
Proof. intros d s k H. unfold findByName in H. eexists. exact H. Qed.
Lemma not_found_new : forall d s, Wf d -> findByName d s = None -> mfind s (dNames d) = None /\ mfind s (dCompat d) = None.
Proof.
  intros d s W H. unfold findByName in H. destruct (mfind s (dCompat d)) as [n|] eqn:E; [|auto].
  destruct (wf_target d W s n E) as [x [X _]]. congruence.
Qed.

(** ** Evolution: what changes from one state to a later one *)
Definition ktype_dec : forall a b : KanjiTypes, {a = b} + {a <> b}.
Proof. decide equality. Defined.
Lemma typeNumber_inj : forall a b, kanjiTypeNumber a = kanjiTypeNumber b -> a = b.
Proof. intros [] [] H; try reflexivity; discriminate. Qed.
(** new Kanji have one of the types [T], and only the lists of these types change *)
Record Evolve (T : list KanjiTypes) (d d' : Data) : Prop := {
  ev_wf : Wf d'; ev_grow : Grow d d';
  ev_new : forall s k, mfind s (dNames d') = Some k -> mfind s (dNames d) = Some k \/ (mfind s (dNames d) = None /\ In (kType k) T);
  ev_types : forall t, ~ In t T -> type_list d' t = type_list d t
}.
Lemma Evolve_refl : forall T d, Wf d -> Evolve T d d.
Proof. intros T d W. split; auto. apply Grow_refl. Qed.
Lemma Evolve_trans : forall T a b c, Evolve T a b -> Evolve T b c -> Evolve T a c.
Proof.
  intros T a b c [W1 G1 N1 T1] [W2 G2 N2 T2]. split; [exact W2|eapply Grow_trans; eauto| |].
  - intros s k H. destruct (N2 s k H) as [K|[K1 K2]]; [exact (N1 s k K)|]. right. split; [|exact K2].
    destruct (mfind s (dNames a)) as [x|] eqn:E; [|reflexivity]. rewrite (proj1 G1 s x E) in K1. discriminate.
  - intros t H. rewrite T2, T1; auto.
Qed.
Lemma Evolve_weaken : forall T T' d d', incl T T' -> Evolve T d d' -> Evolve T' d d'.
Proof.
  intros T T' d d' I [W G Nw Ty]. split; auto.
  intros s k H. destruct (Nw s k H) as [K|[K1 K2]]; [left; exact K|right; split; [exact K1|apply I; exact K2]].
Qed.
(** the lists of types made singly agree with the names *)
Definition Auto (d : Data) : Prop := forall t, made_singly t ->
  (forall k, In k (type_list d t) <-> mfind (kName k) (dNames d) = Some k /\ kType k = t)
  /\ NoDup (map kName (type_list d t)).
Lemma Auto_new : forall m, Auto (newData m).
Proof.
  intros m t _. split; [|constructor]. intro k. split; [intros []|]. intros [H _]. discriminate.
Qed.
Lemma Auto_plain : forall d d' k, Wf d -> Auto d -> ~ made_singly (kType k) -> checkInsert d k = Val d' ->
  Auto (fst d') /\ Evolve [kType k] d (fst d') /\ dLevels (fst d') = dLevels d /\ dKyus (fst d') = dKyus d /\ dFreqs (fst d') = dFreqs d
  /\ mfind (kName k) (dNames (fst d')) <> None.
Proof.
  intros d d' k W A Hk H. destruct (insert_cases d k W) as [[x [X E]]|[X [d1 [E [W1 [G1 [Hn [Hc [Ht [Hl [Hq Hf]]]]]]]]]]]; rewrite E in H; inversion H; subst d'; cbn [fst].
  - split; [exact A|]. split; [apply Evolve_refl; exact W|]. repeat split. congruence.
  - assert (Ty : forall t, type_list d1 t = type_list d t) by (intro t; unfold type_list; rewrite Ht; reflexivity).
    split; [|split; [split; auto|]].
    + intros t Hs. destruct (A t Hs) as [A1 A2]. rewrite Ty. split; [|exact A2]. intro y. rewrite A1, Hn.
      destruct (beq (kName k) (kName y)) eqn:B; [|reflexivity]. apply beq_eq in B. rewrite B in X. rewrite X.
      split; intros [Y1 Y2]; [discriminate|]. inversion Y1; subst y. exfalso. apply Hk. rewrite Y2. exact Hs.
    + intros s y. rewrite Hn. destruct (beq (kName k) s) eqn:B; [|auto]. intros [= <-]. apply beq_eq in B. subst s. right. split; [exact X|left; reflexivity].
    + repeat split; auto. rewrite Hn, beq_refl. discriminate.
Qed.
(** the same for checkInsertType *)
Lemma Auto_typed : forall d d' t k b, Wf d -> Auto d -> made_singly t -> kType k = t -> checkInsertType d t k = Val (d', b) ->
  Auto d' /\ Evolve [t] d d' /\ dLevels d' = dLevels d /\ dKyus d' = dKyus d /\ dFreqs d' = dFreqs d
  /\ (exists x, mfind (kName k) (dNames d') = Some x)
  /\ (mfind (kName k) (dNames d) = None -> mfind (kName k) (dNames d') = Some k
      /\ (findByName d (kName k) = None -> findByName d' (kName k) = Some k)).
Proof.
  intros d d' t k b W A Hs Hk H. unfold checkInsertType in H.
  destruct (insert_cases d k W) as [[x [X E]]|[X [d1 [E [W1 [G1 [Hn [Hc [Ht [Hl [Hq Hf]]]]]]]]]]]; rewrite E in H; cbn [obind] in H; inversion H; subst d' b.
  - split; [exact A|]. split; [apply Evolve_refl; exact W|]. repeat split; try congruence. exists x. exact X.
  - match goal with |- Auto ?x /\ _ => set (d2 := x) end.
    assert (Hn2 : forall s, mfind s (dNames d2) = if beq (kName k) s then Some k else mfind s (dNames d)) by exact Hn.
    assert (Ty : forall t', type_list d2 t' = type_list d t' ++ (if kanjiTypeNumber t =? kanjiTypeNumber t' then [k] else [])).
    { intro t'. unfold type_list, d2. cbn [dTypes]. rewrite (alist_append N.eqb N.eqb_eq), Ht. reflexivity. }
    assert (W2 : Wf d2) by (destruct W1 as [w1 w2 w3 w4]; split; assumption).
    assert (G2 : Grow d d2) by exact G1.
    split; [|split; [split; auto|]].
    + intros t' Hs'. destruct (A t' Hs') as [A1 A2]. rewrite Ty. split.
      * intro y. rewrite in_app_iff, A1, Hn2. destruct (N.eqb_spec (kanjiTypeNumber t) (kanjiTypeNumber t')) as [Ne|Ne].
        -- apply typeNumber_inj in Ne. subst t'. destruct (beq (kName k) (kName y)) eqn:B.
           ++ apply beq_eq in B. rewrite B in X. rewrite X. split.
              ** intros [[Y _]|[Y|[]]]; [discriminate|]. subst y. split; [reflexivity|exact Hk].
              ** intros [Y _]. inversion Y; subst y. right. left. reflexivity.
           ++ apply beq_neq in B. split; [intros [Y|[Y|[]]]; [exact Y|subst y; congruence]|auto].
        -- destruct (beq (kName k) (kName y)) eqn:B.
           ++ apply beq_eq in B. rewrite B in X. rewrite X. split; [intros [[Y _]|[]]; discriminate|].
              intros [Y1 Y2]. inversion Y1; subst y. exfalso. apply Ne. congruence.
           ++ split; [intros [Y|[]]; exact Y|auto].
      * rewrite map_app. destruct (kanjiTypeNumber t =? kanjiTypeNumber t'); cbn [map]; [|rewrite app_nil_r; exact A2].
        apply NoDup_rev in A2. rewrite <- (rev_involutive (map kName (type_list d t') ++ [kName k])). apply NoDup_rev.
        rewrite rev_unit. constructor; [|exact A2]. rewrite <- in_rev, in_map_iff. intros [y [Y1 Y2]].
        apply A1 in Y2. rewrite Y1 in Y2. destruct Y2 as [Y2 _]. congruence.
    + intros s y. rewrite Hn2. destruct (beq (kName k) s) eqn:B; [|auto]. intros [= <-]. apply beq_eq in B. subst s. right. split; [exact X|left; congruence].
    + intros t' Hi. rewrite Ty. destruct (N.eqb_spec (kanjiTypeNumber t) (kanjiTypeNumber t')) as [Ne|Ne]; [|apply app_nil_r].
      apply typeNumber_inj in Ne. exfalso. apply Hi. left. exact Ne.
    + repeat split; auto.
      * exists k. rewrite Hn2, beq_refl. reflexivity.
      * rewrite Hn2, beq_refl. reflexivity.
      * intro F. destruct (not_found_new d (kName k) W F) as [_ C]. unfold findByName. change (dCompat d2) with (dCompat d1). rewrite Hc, C.
        destruct (selected_name k && beq (compatibilityName k) (kName k)); rewrite Hn2, beq_refl; reflexivity.
Qed.
