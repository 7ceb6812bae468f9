(** Lemmas about the programs: the names of the Kanji loaded from files are bytes. *)
From Verif Require Import BaseFacts MapProofs ListProofs DataModel LoadModel LoadSpec LoadProofs LoadAttr LoadEnv LoadWhole LoadFacts DirSpec UcdSpec KanjiSpec MainSpec MainProofs.
Open Scope N_scope.
Arguments N.mul : simpl never. Arguments N.add : simpl never. Arguments N.sub : simpl never.

Definition good (k : Kanji) : Prop := bytes_ok (kName k) /\ kanji_ok k /\ Forall bytes_ok (kOldNames k).
Definition named (d : Data) : Prop := Forall (fun p => good (snd p)) (dNames d).
Definition row_good (r : KanjiRow) : Prop := bytes_ok (krName r) /\ bytes_ok (krOldNames r).
(** the Unicode data *)
Definition ucd_good (e : Env) : Prop := forall n u, mfind n (ucdMap (envUcd e)) = Some u -> bytes_ok (ucdName u) /\ Forall bytes_ok (ucdLinks u).

Lemma find_good : forall e s u, ucd_good e -> ucdFind (envUcd e) s = Val (Some u) -> bytes_ok (ucdName u) /\ Forall bytes_ok (ucdLinks u).
Proof.
  intros e s u G H. unfold ucdFind in H. peel H v E. destruct v; [|injection H as H; exact (G _ _ H)]. peel H n E2.
  destruct (mfind n (linkedJinmei (envUcd e))); [|discriminate H]. injection H as H. exact (G _ _ H).
Qed.
Lemma new_good : forall e name u r s t f g q l nn old ln x k, ucd_good e -> bytes_ok name -> Forall bytes_ok old ->
  newKanji e name u r s t f g q l nn old ln x = Val k -> good k.
Proof.
  intros e name u r s t f g q l nn old ln x k G B O H. apply newKanji_fields in H.
  destruct H as [F1 [F2 [F3 [F4 [F5 [F6 [F7 [F8 [F9 [F10 [F11 [F12 [F13 F14]]]]]]]]]]]]]. split; [rewrite F1; exact B|]. split; [|rewrite F11; exact O].
  destruct F13 as [C _]. unfold kanji_ok, compatibilityName. destruct (kCompatibility k) as [n|]; [|rewrite F1; exact B].
  unfold getCompatibilityName in C. peel C v E. injection C as C. destruct v as [v|]; [|discriminate C].
  destruct (negb (beq (ucdName v) (kName k))); [|discriminate C]. injection C as <-. exact (proj1 (find_good _ _ _ G E)).
Qed.
Lemma old_names_bytes : forall r, row_good r -> Forall bytes_ok (getOldNames r).
Proof. intros r [_ H]. apply ListProofs.getlines_generic_ok; [exact H|constructor]. Qed.
Lemma jouyou_good : forall e r k, ucd_good e -> row_good r -> makeJouyou e r = Val k -> good k.
Proof.
  intros e r k G R H. unfold makeJouyou in H. peel H st E1. peel H u E2. peel H rad E3. peel H n E4. peel H y E5. peel H g E6.
  eapply new_good; [exact G|exact (proj1 R)|exact (old_names_bytes r R)|exact H].
Qed.
Lemma jinmei_good : forall e r k, ucd_good e -> row_good r -> makeJinmei e r = Val k -> good k.
Proof.
  intros e r k G R H. unfold makeJinmei in H. peel H u E2. peel H rad E3. peel H st E1. peel H n E4. peel H y E5. peel H g E6.
  eapply new_good; [exact G|exact (proj1 R)|exact (old_names_bytes r R)|exact H].
Qed.
Lemma links_good : forall e s u (b : bool), ucd_good e -> ucdFind (envUcd e) s = Val u -> Forall bytes_ok (if b then linkNames u else []).
Proof. intros e s u b G E. destruct b; [|constructor]. destruct u as [u|]; [exact (proj2 (find_good _ _ _ G E))|constructor]. Qed.
Lemma extra_good : forall e r k, ucd_good e -> bytes_ok (krName r) -> makeExtra e r = Val k -> good k.
Proof.
  intros e r k G R H. unfold makeExtra in H. peel H u E2. peel H st E1. peel H rad E3. peel H n E4.
  eapply new_good; [exact G|exact R|exact (links_good e _ u (hasTraditional u) G E2)|exact H].
Qed.
Lemma linked_good : forall e isOld name link k, ucd_good e -> bytes_ok name -> makeLinked e isOld name link = Val k -> good k.
Proof.
  intros e isOld name link k G B H. unfold makeLinked in H. destruct (match kType link with Jouyou => false | Jinmei => isOld | _ => true end); [discriminate H|].
  peel H u E2. peel H rad E3. peel H st E1. eapply new_good; [exact G|exact B|constructor|exact H].
Qed.
Lemma other_good : forall e name u rd t f q k, ucd_good e -> bytes_ok name -> Forall bytes_ok (linkNames u) -> makeOther e name u rd t f q = Val k -> good k.
Proof.
  intros e name u rd t f q k G B L H. unfold makeOther in H. peel H rr E0. peel H rad E3. peel H st E1. eapply new_good; [exact G|exact B| |exact H].
  destruct (hasTraditional u); [exact L|constructor].
Qed.
Lemma frequency_good : forall e i name k, ucd_good e -> bytes_ok name -> makeFrequency e i name = Val k -> good k.
Proof. intros e i name k G B H. unfold makeFrequency in H. peel H u E. eapply other_good; [exact G|exact B|exact (links_good e _ u true G E)|exact H]. Qed.
Lemma kentei_good : forall e q name k, ucd_good e -> bytes_ok name -> makeKentei e q name = Val k -> good k.
Proof. intros e i name k G B H. unfold makeKentei in H. peel H u E. eapply other_good; [exact G|exact B|exact (links_good e _ u true G E)|exact H]. Qed.
Lemma ucdkanji_good : forall e u k, ucd_good e -> bytes_ok (ucdName u) /\ Forall bytes_ok (ucdLinks u) -> makeUcdKanji e u = Val k -> good k.
Proof. intros e u k G [B L] H. unfold makeUcdKanji in H. exact (other_good e _ (Some u) _ _ _ _ k G B L H). Qed.

(** ** Loading *)
Definition keeps (m : out Data) : Prop := forall d, m = Val d -> named d.
Lemma keeps_val : forall d, named d -> keeps (Val d).
Proof. intros d H d' E. injection E as <-. exact H. Qed.
Lemma keeps_throw : forall e, keeps (Throw e).
Proof. intros e d H. discriminate H. Qed.
Lemma keeps_bind : forall (m : out Data) f, keeps m -> (forall d, named d -> keeps (f d)) -> keeps (x <- m ;; f x).
Proof. intros m f H K d' E. destruct m as [d| | |]; try discriminate. exact (K d (H d eq_refl) d' E). Qed.
Lemma keeps_any : forall A (m : out A) f, (forall x, m = Val x -> keeps (f x)) -> keeps (x <- m ;; f x).
Proof. intros A m f K d' E. destruct m as [x| | |]; try discriminate. exact (K x eq_refl d' E). Qed.
Lemma add_good : forall m n k, Forall (fun p => good (snd p)) m -> good k -> Forall (fun p : bytes * Kanji => good (snd p)) (madd n k m).
Proof.
  intros m n k H G. unfold madd. induction H as [|[x v] m H1 H IH]; cbn [mupdate]; [constructor; [exact G|constructor]|].
  destruct (beq x n); [constructor; [exact G|exact H]|]. destruct (blt n x); [constructor; [exact G|constructor; [exact H1|exact H]]|]. constructor; [exact H1|exact IH].
Qed.
Lemma insert_named : forall d k d' b, named d -> good k -> checkInsert d k = Val (d', b) -> named d'.
Proof.
  intros d k d' b H G E. unfold checkInsert in E. destruct (mfind _ _); [injection E as <- <-; exact H|]. peel E v X. injection E as <- <-. 
  unfold named. cbn [dNames]. apply add_good; assumption.
Qed.
Lemma insert_type_named : forall d t k d' b, named d -> good k -> checkInsertType d t k = Val (d', b) -> named d'.
Proof.
  intros d t k d' b H G E. unfold checkInsertType in E. peel E p X. destruct p as [d1 c]. apply insert_named in X; [|exact H|exact G]. destruct c; injection E as <- <-; exact X.
Qed.
Lemma keeps_insert : forall d k (f : Data * bool -> out Data), named d -> good k -> (forall d' b, named d' -> keeps (f (d', b))) -> keeps (x <- checkInsert d k ;; f x).
Proof. intros d k f H G K d' E. peel E p X. destruct p as [d1 b]. exact (K d1 b (insert_named _ _ _ _ H G X) d' E). Qed.
Lemma keeps_insert_type : forall d t k (f : Data * bool -> out Data), named d -> good k -> (forall d' b, named d' -> keeps (f (d', b))) ->
  keeps (x <- checkInsertType d t k ;; f x).
Proof. intros d t k f H G K d' E. peel E p X. destruct p as [d1 b]. exact (K d1 b (insert_type_named _ _ _ _ _ H G X) d' E). Qed.
Lemma insert_all_named : forall ks d, Forall good ks -> named d -> keeps (insertAll d ks).
Proof.
  induction ks as [|k ks IH]; intros d G H; cbn [insertAll]; [apply keeps_val; exact H|]. inversion G; subst.
  apply keeps_insert; [exact H|assumption|]. intros d' b H'. apply IH; assumption.
Qed.
Lemma rows_named : forall make rows ks, (forall r k, In r rows -> make r = Val k -> good k) -> fromRows make rows = Val ks -> Forall good ks.
Proof.
  intros make. induction rows as [|r rows IH]; intros ks G H; cbn [fromRows] in H; [injection H as <-; constructor|]. peel H k K. peel H l Q. injection H as <-.
  constructor; [exact (G r k (or_introl eq_refl) K)|]. apply IH; [|exact Q]. intros r' k' I. apply G. right. exact I.
Qed.
Lemma plain_named : forall make t rows d, (forall r k, In r rows -> make r = Val k -> good k) -> named d -> keeps (loadPlain make t rows d).
Proof.
  intros make t rows d G H. unfold loadPlain. apply keeps_any. intros ks K. apply keeps_bind; [apply insert_all_named; [exact (rows_named _ _ _ G K)|exact H]|].
  intros d' H'. apply keeps_val. exact H'.
Qed.
Lemma linked_lines_named : forall e lines d, ucd_good e -> Forall bytes_ok lines -> named d -> keeps (loadLinkedLines e lines d).
Proof.
  intros e lines d G B. revert d. induction B as [|l lines B1 B IH]; intros d H; cbn [loadLinkedLines]; [apply keeps_val; exact H|].
  destruct (getlines 9 l) as [|j [|s rest]] eqn:Q; [apply keeps_throw..|]. destruct (mfind j (dNames d)); [|apply keeps_throw].
  apply keeps_any. intros k' K. assert (Bs : Forall bytes_ok (getlines 9 l)) by (apply ListProofs.getlines_generic_ok; [exact B1|constructor]).
  rewrite Q in Bs. inversion Bs as [|? ? _ Bs2]; subst. inversion Bs2; subst.
  apply keeps_insert_type; [exact H|eapply linked_good; eassumption|]. intros d' b H'. apply IH. exact H'.
Qed.
Lemma old_names_named : forall e k names d, ucd_good e -> Forall bytes_ok names -> named d -> keeps (loadOldNames e k names d).
Proof.
  intros e k names d G B. revert d. induction B as [|n names B1 B IH]; intros d H; cbn [loadOldNames]; [apply keeps_val; exact H|]. destruct (findByName d n); [apply IH; exact H|].
  apply keeps_any. intros k' K. apply keeps_insert_type; [exact H|eapply linked_good; eassumption|]. intros d' b H'. apply IH. exact H'.
Qed.
Lemma old_named : forall e l d, ucd_good e -> Forall (fun p => good (snd p)) l -> named d -> keeps (loadOld e l d).
Proof.
  intros e l d G B. revert d. induction B as [|[n k] l B1 B IH]; intros d H; cbn [loadOld]; [apply keeps_val; exact H|].
  apply keeps_bind; [apply old_names_named; [exact G|apply B1|exact H]|]. exact IH.
Qed.
Lemma linked_names_named : forall e k names d, ucd_good e -> Forall bytes_ok names -> named d -> keeps (loadLinkedNames e k names d).
Proof.
  intros e k names d G B. revert d. induction B as [|n names B1 B IH]; intros d H; cbn [loadLinkedNames]; [apply keeps_val; exact H|].
  apply keeps_any. intros k' K. apply keeps_insert_type; [exact H|eapply linked_good; eassumption|]. intros d' b H'. apply IH. exact H'.
Qed.
Lemma jinmei_named : forall e ks d, ucd_good e -> Forall good ks -> named d -> keeps (insertJinmei e ks d).
Proof.
  intros e ks d G B. revert d. induction B as [|k ks B1 B IH]; intros d H; cbn [insertJinmei]; [apply keeps_val; exact H|]. apply keeps_insert; [exact H|exact B1|].
  intros d' b H'. apply keeps_bind; [apply linked_names_named; [exact G|apply B1|exact H']|]. exact IH.
Qed.
Lemma process_named : forall kind make l i d, (forall i s k, In s l -> make i s = Val k -> good k) -> named d -> keeps (processLoop kind make i l d).
Proof.
  intros kind make. induction l as [|n l IH]; intros i d G H; cbn [processLoop]; [apply keeps_val; exact H|]. intros d' E. peel E p X. destruct p as [d1 k].
  assert (H1 : named d1).
  { destruct (findByName d n); [injection X as <- <-; exact H|]. peel X k' Y. peel X p W. destruct p as [d2 b]. injection X as <- <-.
    exact (insert_type_named _ _ _ _ _ H (G _ _ _ (or_introl eq_refl) Y) W). }
  peel E d2 X2. refine (IH _ d2 _ _ d' E); [intros j s k' I; apply G; right; exact I|]. destruct kind; [| |injection X2 as <-; exact H1];
    unfold addToKyus, addToLevels in X2; match type of X2 with (if ?c then _ else _) = _ => destruct c end; try discriminate X2; injection X2 as <-; exact H1.
Qed.
Lemma ucd_named : forall e l d, ucd_good e -> Forall (fun p : bytes * Ucd => bytes_ok (ucdName (snd p)) /\ Forall bytes_ok (ucdLinks (snd p))) l -> named d -> keeps (processUcd e l d).
Proof.
  intros e l d G B. revert d. induction B as [|[n u] l B1 B IH]; intros d H; cbn [processUcd]; [apply keeps_val; exact H|]. destruct (findByName d (ucdName u)); [apply IH; exact H|].
  apply keeps_any. intros k' K. apply keeps_insert_type; [exact H|eapply ucdkanji_good; eassumption|]. intros d' b H'. apply IH. exact H'.
Qed.
Lemma levels_named : forall e l d, ucd_good e -> Forall (fun p : JlptLevels * ListFile => Forall bytes_ok (listOf (snd p))) l -> named d -> keeps (processLevels e l d).
Proof.
  intros e l d G B. revert d. induction B as [|[n u] l B1 B IH]; intros d H; cbn [processLevels]; [apply keeps_val; exact H|].
  apply keeps_bind; [|exact IH]. apply process_named; [|exact H]. intros i s k I E. cbn [snd] in B1. rewrite Forall_forall in B1. eapply frequency_good; [exact G|exact (B1 s I)|exact E].
Qed.
Lemma kyus_named : forall e l d, ucd_good e -> Forall (fun p : KenteiKyus * ListFile => Forall bytes_ok (listOf (snd p))) l -> named d -> keeps (processKyus e l d).
Proof.
  intros e l d G B. revert d. induction B as [|[n u] l B1 B IH]; intros d H; cbn [processKyus]; [apply keeps_val; exact H|].
  apply keeps_bind; [|exact IH]. apply process_named; [|exact H]. intros i s k I E. cbn [snd] in B1. rewrite Forall_forall in B1. eapply kentei_good; [exact G|exact (B1 s I)|exact E].
Qed.
Lemma words_bytes : forall c ws, words c ws -> bytes_ok c -> Forall bytes_ok ws.
Proof.
  intros c ws (ls & (C & F) & ->) B. apply cut_bytes in C; [|exact B]. clear -C F. induction F as [|[l ws] ls H F IH]; cbn [flat_map]; [constructor|].
  inversion C; subst. apply Forall_app. split; [eapply cut_bytes; eassumption|apply IH; assumption].
Qed.
Lemma lists_words : forall A (files : list (A * bytes)) l, Forall2 list_for files l -> Forall (fun p => bytes_ok (snd p)) files -> Forall (fun p => Forall bytes_ok (listOf (snd p))) l.
Proof.
  intros A files l H B. induction H as [|x y xs ys (_ & W & _) F IH]; [constructor|]. inversion B; subst. constructor; [eapply words_bytes; eassumption|apply IH; assumption].
Qed.

(** the rows and the file of linked Jinmei Kanji are bytes *)
Definition rows_good (f : Files) : Prop :=
  Forall row_good (jouyouRows f) /\ Forall row_good (jinmeiRows f) /\ Forall (fun r => bytes_ok (krName r)) (extraRows f) /\ bytes_ok (linkedFile f).
Theorem loaded_named : forall ltr f st m e d, files_ok f -> Forall row_bytes (ucdRows f) -> rows_good f -> loadData ltr f st m = Val (e, d) -> named d.
Proof.
  intros ltr f st m e d O B (R1 & R2 & R3 & R4) H. destruct (env_unicode ltr f st m e d O H B) as (us & U1 & (U2 & _) & U3).
  assert (G0 : forall u, In u us -> bytes_ok (ucdName u) /\ Forall bytes_ok (ucdLinks u)).
  { intros u I. destruct (forall2_in_r _ _ _ _ _ _ U1 I) as (r & Ir & Ru). rewrite Forall_forall in B. destruct (B r Ir) as [B1 B2]. split.
    - rewrite (proj1 (is_name _ _ Ru)). exact B1.
    - destruct (is_links _ _ Ru) as [[C _] _]. eapply cut_bytes; eassumption. }
  assert (G : ucd_good e) by (intros n u F; apply U2 in F; exact (G0 u (proj1 F))).
  assert (G2 : Forall (fun p : bytes * Ucd => bytes_ok (ucdName (snd p)) /\ Forall bytes_ok (ucdLinks (snd p))) (ucdMap (envUcd e))).
  { apply Forall_forall. intros [n u] I. exact (G n u (mfind_In _ _ _ U3 I)). }
  unfold loadData in H. peel H e' E. peel H d' K. injection H as <- <-. pose proof (loadEnv_ok _ _ _ _ O E) as Ok. destruct O as (_ & _ & L1 & L2 & L3).
  rewrite Forall_forall in R1, R2, R3.
  revert K. apply keeps_bind; [apply plain_named; [intros r k I; apply jouyou_good; [exact G|exact (R1 r I)]|constructor]|].
  intros d1 H1. apply keeps_bind; [apply linked_lines_named; [exact G|apply ListProofs.getlines_generic_ok; [exact R4|constructor]|exact H1]|].
  intros d2 H2. apply keeps_bind; [apply old_named; [exact G|exact H2|exact H2]|].
  intros d3 H3. apply keeps_bind.
  { apply keeps_any. intros ks Ks. apply keeps_bind; [|intros x Hx; apply keeps_val; exact Hx]. apply jinmei_named; [exact G| |exact H3].
    refine (rows_named _ _ _ _ Ks). intros r k I. apply jinmei_good; [exact G|exact (R2 r I)]. }
  intros d4 H4. apply keeps_bind; [apply plain_named; [intros r k I; apply extra_good; [exact G|exact (R3 r I)]|exact H4]|].
  intros d5 H5. apply keeps_bind; [apply levels_named; [exact G|exact (lists_words _ _ _ (en_levels _ _ Ok) L1)|exact H5]|].
  intros d6 H6. apply keeps_bind; [apply process_named; [|exact H6]|].
  { intros i s k I. apply frequency_good; [exact G|]. pose proof (words_bytes _ _ (en_freq _ _ Ok) L3) as W. rewrite Forall_forall in W. exact (W s I). }
  intros d7 H7. apply keeps_bind; [apply kyus_named; [exact G|exact (lists_words _ _ _ (en_kyus _ _ Ok) L2)|exact H7]|].
  intros d8 H8. apply ucd_named; [exact G|exact G2|exact H8].
Qed.
Lemma dir_rows_good : forall fs writable, files_bytes fs -> forall dir f, dir_files fs writable dir f -> rows_good f.
Proof.
  intros fs writable Hb dir f (_ & _ & _ & _ & _ & _ & _ & J & _ & (p & _ & T) & M & _ & X & _). apply (records_bytes fs writable Hb) in J, M, X. apply (text_bytes fs Hb) in T.
  split; [|split; [|split; [|exact T]]].
  - eapply Forall_impl; [|exact J]. intros r H. rewrite Forall_forall in H. split; [apply (H (b_ "Name", krName))|apply (H (b_ "OldNames", krOldNames))];
      repeat (try (left; reflexivity); right).
  - eapply Forall_impl; [|exact M]. intros r H. rewrite Forall_forall in H. split; [apply (H (b_ "Name", krName))|apply (H (b_ "OldNames", krOldNames))];
      repeat (try (left; reflexivity); right).
  - eapply Forall_impl; [|exact X]. intros r H. rewrite Forall_forall in H. apply (H (b_ "Name", krName)). repeat (try (left; reflexivity); right).
Qed.
(** all Kanji found in the data of a directory *)
Theorem dir_names : forall fs writable, files_bytes fs -> forall dir f ltr st m e d, dir_files fs writable dir f -> loadData ltr f st m = Val (e, d) ->
  (forall k, loaded_kanji d k -> good k) /\ (forall n k, findByName d n = Some k -> good k).
Proof.
  intros fs writable Hb dir f ltr st m e d D L. destruct (dir_ok fs writable Hb dir f D) as [O B]. pose proof (dir_rows_good fs writable Hb dir f D) as R.
  pose proof (loaded_named _ _ _ _ _ _ O B R L) as N. unfold named in N. rewrite Forall_forall in N. split.
  - intros k I. exact (N _ I).
  - intros n k F. unfold findByName in F. apply In_mfind in F. exact (N _ F).
Qed.
