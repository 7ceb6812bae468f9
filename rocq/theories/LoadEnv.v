(** Lemmas about loading Kanji: the lists that the constructors look things up in. *)
From Verif Require Import BaseFacts MapProofs ListProofs DataModel DataSpec DataProofs LoadModel LoadSpec LoadProofs LoadAttr.
Arguments N.mul : simpl never. Arguments N.add : simpl never. Arguments N.sub : simpl never.
Arguments N.div : simpl never.

Lemma construct_words : forall k ft c st st' l, bytes_ok c -> construct k ft c st = Val (st', inl l) ->
  words c (listOf l) /\ list_inv l
  /\ (forall w, In w (uniqueOf st k) -> In w (uniqueOf st' k))
  /\ (forall w, In w (listOf l) -> In w (uniqueOf st' k) /\ ~ In w (uniqueOf st k)).
Proof.
  intros k ft c st st' l Hc E.
  destruct (construct_spec k ft c st Hc) as [s1 [r1 [E1 [_ [Q1 [Q2 _]]]]]]. rewrite E in E1. inversion E1; subst s1 r1.
  assert (Hl : exists ls, file_words c ls) by (eexists; apply file_words_fun; reflexivity). destruct Hl as [ls Hl].
  rewrite construct_load in E.
  destruct (load_spec (kind_type k ft) (negb (kind_eqb k PlainList)) c (uniqueOf st k) ls Hc Hl) as [[_ [s [l' [L [L1 [L2 _]]]]]]|[_ [s [e' [L _]]]]];
    rewrite L in E; cbn [obind] in E; inversion E; subst.
  split; [exists ls; split; [exact Hl|exact L1]|]. split; [exact L2|]. split; [exact Q1|]. intros w Hw. apply (Q2 l eq_refl w Hw).
Qed.
Lemma words_unique : forall c a b, words c a -> words c b -> a = b.
Proof. intros c a b [x [X ->]] [y [Y ->]]. apply file_words_fun in X, Y. congruence. Qed.

(** one list for each file *)
Definition list_for {A} (p : A * bytes) (q : A * ListFile) : Prop :=
  fst p = fst q /\ words (snd p) (listOf (snd q)) /\ list_inv (snd q).
Definition no_common {A} (a b : A * ListFile) : Prop := forall w, In w (listOf (snd a)) -> ~ In w (listOf (snd b)).
Lemma makeLists_spec : forall A k (files : list (A * bytes)) st st' l, Forall (fun p => bytes_ok (snd p)) files ->
  makeLists k files st = Val (st', l) ->
  Forall2 list_for files l /\ ForallOrdPairs no_common l
  /\ (forall w, In w (uniqueOf st k) -> forall q, In q l -> ~ In w (listOf (snd q))).
Proof.
  intros A k. induction files as [|[a c] files IH]; intros st st' l Hf H; cbn [makeLists] in H.
  - inversion H; subst. split; [constructor|]. split; [constructor|intros w _ q []].
  - apply Forall_cons_iff in Hf. destruct Hf as [Hc Hf]. cbn [snd] in Hc. peel H p E. destruct p as [st1 [x|x]]; [|discriminate].
    peel H p E1. destruct p as [st2 l1]. inversion H; subst st2 l.
    destruct (construct_words k MultiplePerLine c st st1 x Hc E) as [W1 [W2 [W3 W4]]].
    destruct (IH st1 st' l1 Hf E1) as [I1 [I2 I3]].
    split; [constructor; [split; [reflexivity|split; assumption]|exact I1]|]. split.
    + constructor; [|exact I2]. apply Forall_forall. intros q Hq w Hw. apply (I3 w); [|exact Hq]. apply W4. exact Hw.
    + intros w Hw q [<-|Hq]; [cbn [snd]; intro K; apply (proj2 (W4 w K)); exact Hw|]. apply (I3 w); [apply W3; exact Hw|exact Hq].
Qed.

(** the first list with the name *)
Lemma levelIn_some : forall l s v f, Forall (fun p => list_inv (snd p)) l -> ForallOrdPairs no_common l ->
  In (v, f) l -> In s (listOf f) -> levelIn l s = v.
Proof.
  induction l as [|[v' f'] l IH]; intros s v f Hi Hd Hin Hs; [destruct Hin|]. cbn [levelIn].
  apply Forall_cons_iff in Hi. destruct Hi as [H1 H2]. inversion Hd as [|? ? D1 D2]; subst.
  destruct (getIndex_spec f' H1) as [_ [_ X]]. destruct Hin as [E|Hin].
  - inversion E; subst v' f'. rewrite (proj2 (X s) Hs). reflexivity.
  - destruct (list_exists f' s) eqn:Y; [|eapply IH; eauto]. apply X in Y. rewrite Forall_forall in D1. exfalso. exact (D1 _ Hin s Y Hs).
Qed.
Lemma levelIn_none : forall l s, Forall (fun p => list_inv (snd p)) l -> (forall v f, In (v, f) l -> ~ In s (listOf f)) -> levelIn l s = NoLevel.
Proof.
  induction l as [|[v' f'] l IH]; intros s Hi H; [reflexivity|]. cbn [levelIn]. apply Forall_cons_iff in Hi. destruct Hi as [H1 H2].
  destruct (getIndex_spec f' H1) as [_ [_ X]]. destruct (list_exists f' s) eqn:Y.
  - apply X in Y. exfalso. exact (H v' f' (or_introl eq_refl) Y).
  - apply IH; [exact H2|]. intros v f K. apply (H v f). right. exact K.
Qed.
Lemma kyuIn_some : forall l s v f, Forall (fun p => list_inv (snd p)) l -> ForallOrdPairs no_common l ->
  In (v, f) l -> In s (listOf f) -> kyuIn l s = v.
Proof.
  induction l as [|[v' f'] l IH]; intros s v f Hi Hd Hin Hs; [destruct Hin|]. cbn [kyuIn].
  apply Forall_cons_iff in Hi. destruct Hi as [H1 H2]. inversion Hd as [|? ? D1 D2]; subst.
  destruct (getIndex_spec f' H1) as [_ [_ X]]. destruct Hin as [E|Hin].
  - inversion E; subst v' f'. rewrite (proj2 (X s) Hs). reflexivity.
  - destruct (list_exists f' s) eqn:Y; [|eapply IH; eauto]. apply X in Y. rewrite Forall_forall in D1. exfalso. exact (D1 _ Hin s Y Hs).
Qed.
Lemma kyuIn_none : forall l s, Forall (fun p => list_inv (snd p)) l -> (forall v f, In (v, f) l -> ~ In s (listOf f)) -> kyuIn l s = NoKyu.
Proof.
  induction l as [|[v' f'] l IH]; intros s Hi H; [reflexivity|]. cbn [kyuIn]. apply Forall_cons_iff in Hi. destruct Hi as [H1 H2].
  destruct (getIndex_spec f' H1) as [_ [_ X]]. destruct (list_exists f' s) eqn:Y.
  - apply X in Y. exfalso. exact (H v' f' (or_introl eq_refl) Y).
  - apply IH; [exact H2|]. intros v f K. apply (H v f). right. exact K.
Qed.

(** what holds of the environment *)
Record env_ok (f : Files) (e : Env) : Prop := {
  en_levels : Forall2 list_for (levelFiles f) (envLevels e);
  en_levels_apart : ForallOrdPairs no_common (envLevels e);
  en_kyus : Forall2 list_for (kyuFiles f) (envKyus e);
  en_kyus_apart : ForallOrdPairs no_common (envKyus e);
  en_freq : words (frequencyFile f) (listOf (envFrequency e));
  en_freq_inv : list_inv (envFrequency e);
  en_ucd : loadUcd (ucdRows f) emptyUcdData = Val (envUcd e);
  en_radicals : loadRadicals (radicalRows f) emptyRadicals = Val (envRadicals e);
  en_readings : loadReadings (readingRows f) [] = Val (envReadings e)
}.
Lemma loadEnv_ok : forall ltr f st e, files_ok f -> loadEnv ltr f st = Val e -> env_ok f e.
Proof.
  intros ltr f st e [_ [_ [B1 [B2 B3]]]] H. unfold loadEnv in H. peel H p E1. destruct p as [s1 lv]. peel H p E2. destruct p as [s2 ky].
  peel H p E3. destruct p as [s3 [fr|fr]]; [|discriminate]. peel H u E4. peel H r E5. peel H rd E6. inversion H; subst e. clear H.
  destruct (makeLists_spec _ _ _ _ _ _ B1 E1) as [L1 [L2 _]]. destruct (makeLists_spec _ _ _ _ _ _ B2 E2) as [K1 [K2 _]].
  destruct (construct_words _ _ _ _ _ _ B3 E3) as [F1 [F2 _]].
  split; auto.
Qed.
Lemma list_for_inv : forall A (files : list (A * bytes)) l, Forall2 list_for files l -> Forall (fun p => list_inv (snd p)) l.
Proof. intros A files l H. induction H as [|a b la lb [_ [_ H]] _ IH]; constructor; assumption. Qed.
Lemma list_for_in : forall A (files : list (A * bytes)) l a f, Forall2 list_for files l -> In (a, f) l ->
  exists c, In (a, c) files /\ words c (listOf f).
Proof.
  intros A files l a f H. induction H as [|[a' c] [b g] la lb [H1 [H2 _]] _ IH]; intros Hin; [destruct Hin|]. cbn [fst snd] in *.
  destruct Hin as [E|Hin]; [inversion E; subst; exists c; split; [left; reflexivity|exact H2]|].
  destruct (IH Hin) as [c' [Q1 Q2]]. exists c'. split; [right; exact Q1|exact Q2].
Qed.
Lemma list_for_file : forall A (files : list (A * bytes)) l a c, Forall2 list_for files l -> In (a, c) files ->
  exists f, In (a, f) l /\ words c (listOf f).
Proof.
  intros A files l a c H. induction H as [|[a' c'] [b g] la lb [H1 [H2 _]] _ IH]; intros Hin; [destruct Hin|]. cbn [fst snd] in *.
  destruct Hin as [E|Hin]; [inversion E; subst; exists g; split; [left; reflexivity|exact H2]|].
  destruct (IH Hin) as [f' [Q1 Q2]]. exists f'. split; [right; exact Q1|exact Q2].
Qed.
Lemma list_for_keys : forall A (files : list (A * bytes)) l, Forall2 list_for files l -> map fst files = map fst l.
Proof. intros A files l H. induction H as [|a b la lb [H _] _ IH]; [reflexivity|]. cbn [map]. congruence. Qed.

(** the lookups in terms of the files *)
Lemma level_of_file : forall f e s v, env_ok f e -> listed (levelFiles f) v s -> level e s = v.
Proof.
  intros f e s v O [c [ws [H1 [H2 H3]]]]. destruct (list_for_file _ _ _ _ _ (en_levels f e O) H1) as [g [G1 G2]].
  pose proof (words_unique c ws (listOf g) H2 G2). subst ws. unfold level.
  eapply levelIn_some; [eapply list_for_inv; apply O|apply O|exact G1|exact H3].
Qed.
Lemma level_of_none : forall f e s, env_ok f e -> (forall v, ~ listed (levelFiles f) v s) -> level e s = NoLevel.
Proof.
  intros f e s O H. unfold level. apply levelIn_none; [eapply list_for_inv; apply O|]. intros v g Hg Hs.
  destruct (list_for_in _ _ _ _ _ (en_levels f e O) Hg) as [c [C1 C2]]. apply (H v). exists c, (listOf g). auto.
Qed.
Lemma kyu_of_file : forall f e s v, env_ok f e -> listed (kyuFiles f) v s -> kyu e s = v.
Proof.
  intros f e s v O [c [ws [H1 [H2 H3]]]]. destruct (list_for_file _ _ _ _ _ (en_kyus f e O) H1) as [g [G1 G2]].
  pose proof (words_unique c ws (listOf g) H2 G2). subst ws. unfold kyu.
  eapply kyuIn_some; [eapply list_for_inv; apply O|apply O|exact G1|exact H3].
Qed.
Lemma kyu_of_none : forall f e s, env_ok f e -> (forall v, ~ listed (kyuFiles f) v s) -> kyu e s = NoKyu.
Proof.
  intros f e s O H. unfold kyu. apply kyuIn_none; [eapply list_for_inv; apply O|]. intros v g Hg Hs.
  destruct (list_for_in _ _ _ _ _ (en_kyus f e O) Hg) as [c [C1 C2]]. apply (H v). exists c, (listOf g). auto.
Qed.
Lemma frequency_of_file : forall f e ws, env_ok f e -> words (frequencyFile f) ws ->
  (forall i s, nth_error ws i = Some s -> frequency e s = N.of_nat i + 1) /\ (forall s, ~ In s ws -> frequency e s = 0).
Proof.
  intros f e ws O H. pose proof (words_unique _ _ _ H (en_freq f e O)). subst ws.
  destruct (getIndex_spec _ (en_freq_inv f e O)) as [X1 [X2 _]]. split; [intros i s K; apply X1; exact K|intros s K; apply X2; exact K].
Qed.
