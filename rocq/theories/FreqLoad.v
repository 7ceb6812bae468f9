(** Lemmas about the frequency lists of loaded data. *)
From Verif Require Import BaseFacts MapProofs ListProofs DataModel DataSpec DataProofs DataFreq LoadModel LoadSpec LoadProofs LoadAttr LoadPhases LoadLists
  LoadEnv LoadWhole LoadMade LoadFacts FreqLoadSpec.
Arguments N.mul : simpl never. Arguments N.add : simpl never. Arguments N.sub : simpl never.
Arguments N.div : simpl never.
Open Scope N_scope.

(** ** The tables of frequencies *)
Definition table (d : Data) : list (list Kanji) * N := (dFreqs d, dMax d).
Definition keeps (d : Data) (m : out Data) : Prop := forall d', m = Val d' -> table d' = table d.
Lemma keeps_val : forall d x, table x = table d -> keeps d (Val x).
Proof. intros d x H d' E. injection E as <-. exact H. Qed.
Lemma keeps_throw : forall d e, keeps d (Throw e).
Proof. intros d e d' H. discriminate H. Qed.
Lemma keeps_bind : forall d (m : out Data) f, keeps d m -> (forall x, table x = table d -> keeps x (f x)) -> keeps d (x <- m ;; f x).
Proof. intros d m f H K d' E. destruct m as [x| | |]; try discriminate. rewrite (K x (H x eq_refl) d' E). exact (H x eq_refl). Qed.
Lemma keeps_any : forall d A (m : out A) f, (forall x, keeps d (f x)) -> keeps d (x <- m ;; f x).
Proof. intros d A m f K d' E. destruct m as [x| | |]; try discriminate. exact (K x d' E). Qed.
Lemma insert_table : forall d k d' b, checkInsert d k = Val (d', b) -> table d' = table d.
Proof.
  intros d k d' b E. unfold checkInsert in E. destruct (mfind _ _); [injection E as <- <-; reflexivity|]. peel E v X. injection E as <- <-. reflexivity.
Qed.
Lemma insert_type_table : forall d t k d' b, checkInsertType d t k = Val (d', b) -> table d' = table d.
Proof.
  intros d t k d' b E. unfold checkInsertType in E. peel E p X. destruct p as [d1 c]. apply insert_table in X. destruct c; injection E as <- <-; exact X.
Qed.
Lemma keeps_insert : forall d k (f : Data * bool -> out Data), (forall d' b, keeps d' (f (d', b))) -> keeps d (x <- checkInsert d k ;; f x).
Proof. intros d k f K d' E. peel E p X. destruct p as [d1 b]. rewrite (K d1 b d' E). exact (insert_table _ _ _ _ X). Qed.
Lemma keeps_insert_type : forall d t k (f : Data * bool -> out Data), (forall d' b, keeps d' (f (d', b))) -> keeps d (x <- checkInsertType d t k ;; f x).
Proof. intros d t k f K d' E. peel E p X. destruct p as [d1 b]. rewrite (K d1 b d' E). exact (insert_type_table _ _ _ _ _ X). Qed.
Lemma insert_all_table : forall ks d, keeps d (insertAll d ks).
Proof. induction ks as [|k ks IH]; intros d; cbn [insertAll]; [apply keeps_val; reflexivity|]. apply keeps_insert. intros d' b. apply IH. Qed.
Lemma plain_table : forall make t rows d, keeps d (loadPlain make t rows d).
Proof.
  intros. unfold loadPlain. apply keeps_any. intros ks. apply keeps_bind; [apply insert_all_table|]. intros d' H'. apply keeps_val. reflexivity.
Qed.
Lemma linked_lines_table : forall e lines d, keeps d (loadLinkedLines e lines d).
Proof.
  intros e. induction lines as [|l lines IH]; intros d; cbn [loadLinkedLines]; [apply keeps_val; reflexivity|].
  destruct (getlines 9 l) as [|j [|s rest]]; [apply keeps_throw..|]. destruct (mfind j (dNames d)); [|apply keeps_throw].
  apply keeps_any. intros k'. apply keeps_insert_type. intros d' b. apply IH.
Qed.
Lemma old_names_table : forall e k names d, keeps d (loadOldNames e k names d).
Proof.
  intros e k. induction names as [|n names IH]; intros d; cbn [loadOldNames]; [apply keeps_val; reflexivity|]. destruct (findByName d n); [apply IH|].
  apply keeps_any. intros k'. apply keeps_insert_type. intros d' b. apply IH.
Qed.
Lemma old_table : forall e l d, keeps d (loadOld e l d).
Proof.
  intros e. induction l as [|[n k] l IH]; intros d; cbn [loadOld]; [apply keeps_val; reflexivity|]. apply keeps_bind; [apply old_names_table|]. intros x _. apply IH.
Qed.
Lemma linked_names_table : forall e k names d, keeps d (loadLinkedNames e k names d).
Proof.
  intros e k. induction names as [|n names IH]; intros d; cbn [loadLinkedNames]; [apply keeps_val; reflexivity|].
  apply keeps_any. intros k'. apply keeps_insert_type. intros d' b. apply IH.
Qed.
Lemma jinmei_table : forall e ks d, keeps d (insertJinmei e ks d).
Proof.
  intros e. induction ks as [|k ks IH]; intros d; cbn [insertJinmei]; [apply keeps_val; reflexivity|]. apply keeps_insert. intros d' b.
  apply keeps_bind; [apply linked_names_table|]. intros x _. apply IH.
Qed.
Lemma process_table : forall kind make l i d, kind <> FrequencyList -> keeps d (processLoop kind make i l d).
Proof.
  intros kind make. induction l as [|n l IH]; intros i d H; cbn [processLoop]; [apply keeps_val; reflexivity|]. intros d' E. peel E p X. destruct p as [d1 k].
  assert (H1 : table d1 = table d).
  { destruct (findByName d n); [injection X as <- <-; reflexivity|]. peel X k' Y. peel X p W. destruct p as [d2 b]. injection X as <- <-. exact (insert_type_table _ _ _ _ _ W). }
  peel E d2 X2. rewrite (IH _ d2 H d' E), <- H1. destruct kind; [| |destruct (H eq_refl)];
    unfold addToKyus, addToLevels in X2; match type of X2 with (if ?c then _ else _) = _ => destruct c end; try discriminate X2; injection X2 as <-; reflexivity.
Qed.
Lemma ucd_table : forall e l d, keeps d (processUcd e l d).
Proof.
  intros e. induction l as [|[n u] l IH]; intros d; cbn [processUcd]; [apply keeps_val; reflexivity|]. destruct (findByName d (ucdName u)); [apply IH|].
  apply keeps_any. intros k'. apply keeps_insert_type. intros d' b. apply IH.
Qed.
Lemma levels_table : forall e l d, keeps d (processLevels e l d).
Proof.
  intros e. induction l as [|[n u] l IH]; intros d; cbn [processLevels]; [apply keeps_val; reflexivity|]. apply keeps_bind; [apply process_table; discriminate|]. intros x _. apply IH.
Qed.
Lemma kyus_table : forall e l d, keeps d (processKyus e l d).
Proof.
  intros e. induction l as [|[n u] l IH]; intros d; cbn [processKyus]; [apply keeps_val; reflexivity|]. apply keeps_bind; [apply process_table; discriminate|]. intros x _. apply IH.
Qed.
Lemma add_table : forall d x k, table d = table x -> table (addToFrequencies d k) = table (addToFrequencies x k).
Proof. intros d x k H. injection H as H1 H2. unfold addToFrequencies, table. cbv zeta. cbn [dFreqs dMax]. rewrite H1, H2. reflexivity. Qed.
Lemma adds_table : forall ks d x, table d = table x -> table (fold_left addToFrequencies ks d) = table (fold_left addToFrequencies ks x).
Proof. induction ks as [|k ks IH]; intros d x H; cbn [fold_left]; [exact H|]. apply IH. apply add_table. exact H. Qed.

(** the loop over the frequency list adds the Kanji found at that time *)
Lemma frequency_loop : forall make, (forall i s k, make i s = Val k -> kName k = s /\ kType k = FrequencyType) ->
  forall l i d d', Wf d -> Auto d -> processLoop FrequencyList make i l d = Val d' ->
  exists ks, Forall2 (found_then d') l ks /\ Wf d' /\ Auto d' /\ Grow d d' /\ table d' = table (fold_left addToFrequencies ks d).
Proof.
  intros make Hm. induction l as [|name l IH]; intros i d d' W A H.
  - cbn [processLoop] in H. injection H as <-. exists []. split; [constructor|]. split; [exact W|]. split; [exact A|]. split; [apply Grow_refl|reflexivity].
  - assert (exists k d2, Wf d2 /\ Auto d2 /\ Grow d d2 /\ findByName d2 name = Some k /\ table d2 = table (addToFrequencies d k)
            /\ processLoop FrequencyList make (i + 1) l d2 = Val d') as (k & d2 & W2 & A2 & G2 & F2 & T2 & H2).
    { cbn [processLoop] in H. peel H p E. destruct p as [d1 k]. peel H d2 E2. injection E2 as <-. exists k, (addToFrequencies d1 k).
      assert (S1 : Wf d1 /\ Auto d1 /\ Grow d d1 /\ findByName d1 name = Some k /\ table d1 = table d).
      { destruct (findByName d name) as [k0|] eqn:F.
        - injection E as <- <-. split; [exact W|]. split; [exact A|]. split; [apply Grow_refl|]. split; [exact F|reflexivity].
        - peel E k0 E0. peel E p E1. destruct p as [d0 b]. injection E as <- <-. destruct (Hm _ _ _ E0) as [M1 M2].
          destruct (stage_typed d d0 FrequencyType k0 b W A ltac:(unfold made_singly; auto) M2 E1) as [S [_ [_ Q]]].
          rewrite M1 in Q. destruct (Q F) as [Q1 _]. split; [apply S|]. split; [apply S|]. split; [apply S|]. split; [exact Q1|].
          exact (insert_type_table _ _ _ _ _ E1). }
      destruct S1 as (W1 & A1 & G1 & F1 & T1).
      split; [|split; [|split; [|split; [|split; [|exact H]]]]].
      - destruct W1 as [w1 w2 w3 w4]. split; assumption.
      - exact A1.
      - exact G1.
      - exact F1.
      - apply add_table. exact T1. }
    destruct (IH (i + 1) d2 d' W2 A2 H2) as (ks & Ff & W' & A' & G' & T'). exists (k :: ks).
    split; [constructor; [|exact Ff]; exists d2; auto|]. split; [exact W'|]. split; [exact A'|]. split; [eapply Grow_trans; eauto|].
    rewrite T'. cbn [fold_left]. apply adds_table. exact T2.
Qed.
Lemma loaded_frequencies : forall ltr f st m e d, files_ok f -> loadData ltr f st m = Val (e, d) ->
  exists ks, Forall2 (found_then d) (listOf (envFrequency e)) ks /\ Wf d /\ table d = table (fold_left addToFrequencies ks (newData m)).
Proof.
  intros ltr f st m e d Hf H. unfold loadData in H. peel H e' E. peel H d' K. injection H as -> ->. unfold loadKanji in K.
  peel K d1 Q1. peel K d2 Q2. peel K d3 Q3. peel K d4 Q4. peel K d5 Q5. peel K d6 Q6. peel K d7 Q7. peel K d8 Q8.
  pose proof (plain_table _ _ _ _ _ Q1) as T1. pose proof (linked_lines_table _ _ _ _ Q2) as T2. pose proof (old_table _ _ _ _ Q3) as T3.
  assert (T4 : table d4 = table d3).
  { unfold loadJinmei in Q4. peel Q4 js J1. peel Q4 dj J2. injection Q4 as <-. exact (jinmei_table _ _ _ _ J2). }
  pose proof (plain_table _ _ _ _ _ Q5) as T5. pose proof (levels_table _ _ _ _ Q6) as T6.
  pose proof (kyus_table _ _ _ _ Q8) as T8. pose proof (ucd_table _ _ _ _ K) as T9.
  destruct (loadPlain_stage _ _ _ _ _ not_single_jouyou (fun r k Q => proj1 (proj2 (jouyou_fields e r k Q))) (Wf_new m) (Auto_new m) Q1) as (j0 & _ & _ & S1 & _).
  destruct (loadLinkedLines_stage e _ _ _ (sg_wf _ _ _ _ S1) (sg_auto _ _ _ _ S1) Q2) as [S2 _].
  destruct (loadOld_stage e _ _ _ (sg_wf _ _ _ _ S2) (sg_auto _ _ _ _ S2) Q3) as [S3 _].
  assert (S4 : Wf d4 /\ Auto d4).
  { unfold loadJinmei in Q4. peel Q4 js J1. peel Q4 dj J2. injection Q4 as <-.
    assert (Ty : Forall (fun k => kType k = Jinmei) js).
    { apply fromRows_spec in J1. clear -J1. induction J1; constructor; auto. exact (proj1 (proj2 (jinmei_fields _ _ _ H))). }
    destruct (insertJinmei_stage e js d3 dj Ty (sg_wf _ _ _ _ S3) (sg_auto _ _ _ _ S3) J2) as [S _].
    destruct (setType_stage (fun _ => False) dj Jinmei js (sg_wf _ _ _ _ S) (sg_auto _ _ _ _ S) not_single_jinmei) as [S' _].
    split; apply S'. }
  destruct S4 as [W4 A4].
  destruct (loadPlain_stage _ _ _ _ _ not_single_extra (fun r k Q => proj1 (proj2 (extra_fields e r k Q))) W4 A4 Q5) as (x0 & _ & _ & S5 & _).
  destruct (processLevels_stage e _ _ _ (sg_wf _ _ _ _ S5) (sg_auto _ _ _ _ S5) Q6) as (l0 & S6 & _).
  destruct (frequency_loop _ (fun i s k Q => conj (proj1 (frequency_fields e i s k Q)) (proj1 (proj2 (frequency_fields e i s k Q)))) _ _ _ _
              (sg_wf _ _ _ _ S6) (sg_auto _ _ _ _ S6) Q7) as (ks & F7 & W7 & A7 & _ & T7).
  destruct (processKyus_stage e _ _ _ W7 A7 Q8) as (q0 & S8 & _).
  destruct (processUcd_stage e _ _ _ (sg_wf _ _ _ _ S8) (sg_auto _ _ _ _ S8) K) as [S9 _].
  exists ks. split; [|split; [apply S9|]].
  - assert (G : Grow d7 d) by (eapply Grow_trans; [apply S8|apply S9]). clear -F7 G. induction F7; constructor; [eapply found_then_grow; eauto|exact IHF7].
  - rewrite T9, T8, T7. apply adds_table. congruence.
Qed.

(** ** The lists *)
Lemma bucket_number : forall f b, f <= 65535 -> b < 10 ->
  let q := u32 (f + 0xffffffff) / FrequencyEntries in
  (if q <? FrequencyBuckets then q else FrequencyBuckets - 1) = b <->
  (b < 9 /\ 250 * b < f <= 250 * b + 250) \/ (b = 9 /\ (f = 0 \/ 2250 < f)).
Proof.
  intros f b Hf Hb. change FrequencyEntries with 250. change FrequencyBuckets with 10. change (10 - 1) with 9. cbv zeta.
  destruct (N.eqb_spec f 0) as [->|H0].
  - change (u32 (0 + 4294967295) / 250) with 17179869. change (17179869 <? 10) with false. cbv iota. lia.
  - replace (u32 (f + 4294967295)) with (f - 1).
    2: { unfold u32. replace (f + 4294967295) with (f - 1 + 1 * 4294967296) by lia. rewrite N.mod_add by lia. symmetry. apply N.mod_small. lia. }
    assert (H250 : (f - 1) / 250 * 250 <= f - 1 < (f - 1) / 250 * 250 + 250).
    { pose proof (N.div_mod (f - 1) 250 ltac:(lia)). pose proof (N.mod_lt (f - 1) 250 ltac:(lia)). lia. }
    remember ((f - 1) / 250) as q. destruct (N.ltb_spec q 10); lia.
Qed.
Lemma adds_bucket : forall b, b < 10 -> forall ks d old, Forall (fun k => kFrequency k <= 65535) ks -> nth_error (dFreqs d) (N.to_nat b) = Some old ->
  exists sub, chosen (in_bucket b) ks sub /\ nth_error (dFreqs (fold_left addToFrequencies ks d)) (N.to_nat b) = Some (old ++ sub).
Proof.
  intros b Hb. induction ks as [|k ks IH]; intros d old Hk Ho; cbn [fold_left].
  - exists []. split; [constructor|]. rewrite app_nil_r. exact Ho.
  - apply Forall_cons_iff in Hk. destruct Hk as [Hk1 Hk2].
    set (q := u32 (kFrequency k + 0xffffffff) / FrequencyEntries).
    assert (Hn : nth_error (dFreqs (addToFrequencies d k)) (N.to_nat b)
                 = Some (if (if q <? FrequencyBuckets then q else FrequencyBuckets - 1) =? b then old ++ [k] else old)).
    { unfold addToFrequencies. cbv zeta. cbn [dFreqs]. fold q. rewrite nth_appendAt, Ho. cbn [option_map].
      destruct (N.eqb_spec (if q <? FrequencyBuckets then q else FrequencyBuckets - 1) b) as [->|Hne]; [rewrite Nat.eqb_refl; reflexivity|].
      match goal with |- context [Nat.eqb ?x ?y] => replace (Nat.eqb x y) with false end; [reflexivity|]. symmetry. apply Nat.eqb_neq. lia. }
    pose proof (bucket_number (kFrequency k) b Hk1 Hb) as B1. cbv zeta in B1. fold q in B1.
    destruct (N.eqb_spec (if q <? FrequencyBuckets then q else FrequencyBuckets - 1) b) as [E|E].
    + destruct (IH _ _ Hk2 Hn) as (sub & S1 & S2). exists (k :: sub). split; [apply ch_in; [apply B1; exact E|exact S1]|].
      rewrite S2, <- app_assoc. reflexivity.
    + destruct (IH _ _ Hk2 Hn) as (sub & S1 & S2). exists sub. split; [|exact S2]. apply ch_out; [|exact S1]. intro K. apply E. apply B1. exact K.
Qed.
Lemma frequency_bound : forall ltr f st m e d k, files_ok f -> loadData ltr f st m = Val (e, d) -> loaded_kanji d k -> kFrequency k <= 65534.
Proof.
  intros ltr f st m e d k Hf H Hk. destruct (loadData_loaded _ _ _ _ _ _ Hf H) as [O [_ [js [ms [xs [lss [kss L]]]]]]].
  pose proof (lo_wf _ _ _ _ _ _ _ _ L) as W. apply (loaded_iff d k W) in Hk. pose proof (lo_attr _ _ _ _ _ _ _ _ L _ _ Hk) as A.
  destruct (ktype_dec (kType k) Extra) as [T|T]; [rewrite (at_extra _ _ A T); lia|]. rewrite (at_freq _ _ A T). unfold frequency.
  pose proof (en_freq_inv f e O) as Iv. destruct (getIndex_spec _ Iv) as [X1 [X2 _]].
  destruct (in_dec bytes_eq_dec (kName k) (listOf (envFrequency e))) as [I|I]; [|rewrite (X2 _ I); lia].
  apply In_nth_error in I. destruct I as [i I]. rewrite (X1 i _ I). assert (Hi : (i < List.length (listOf (envFrequency e)))%nat) by (apply nth_error_Some; congruence).
  destruct Iv as [_ [_ [Hb _]]]. change MaxEntries with 65534 in Hb. unfold len in Hb. lia.
Qed.
Lemma loaded_own : forall ltr f st m e d ws, files_ok f -> loadData ltr f st m = Val (e, d) -> words (frequencyFile f) ws ->
  (forall s, In s ws -> own_name d s) ->
  exists ks, Forall2 (found_own d) ws ks /\ Forall (loaded_kanji d) ks /\ NoDup ws /\ table d = table (fold_left addToFrequencies ks (newData m)).
Proof.
  intros ltr f st m e d ws Hf H Hw Own. destruct (loaded_frequencies _ _ _ _ _ _ Hf H) as (ks & Ff & W & T).
  destruct (loadData_loaded _ _ _ _ _ _ Hf H) as [O _]. pose proof (words_unique _ _ _ Hw (en_freq f e O)). subst ws.
  exists ks. assert (Fo : Forall2 (found_own d) (listOf (envFrequency e)) ks).
  { clear T Hw. revert Own. induction Ff as [|s k l ks Q _ IH]; intro Own; constructor.
    - apply found_then_own; [exact W|exact Q|apply Own; left; reflexivity].
    - apply IH. intros x Hx. apply Own. right. exact Hx. }
  split; [exact Fo|]. split; [|split; [|exact T]].
  - clear -Fo W. induction Fo as [|s k l ks [Q _] _ IH]; constructor; [eapply found_loaded; eauto|exact IH].
  - apply (en_freq_inv f e O).
Qed.
Lemma lists_exact : forall ltr f st m e d ws, files_ok f -> loadData ltr f st m = Val (e, d) -> words (frequencyFile f) ws ->
  (forall s, In s ws -> own_name d s) ->
  exists ks, Forall2 (found_own d) ws ks
  /\ forall b, exists sub, frequencyList d b = Val sub /\ (b < 10 -> chosen (in_bucket b) ks sub) /\ (10 <= b -> sub = []).
Proof.
  intros ltr f st m e d ws Hf H Hw Own. destruct (loaded_own _ _ _ _ _ _ _ Hf H Hw Own) as (ks & Fo & Lo & _ & T). exists ks. split; [exact Fo|].
  intro b. unfold frequencyList. change FrequencyBuckets with 10. destruct (N.ltb_spec b 10) as [Hb|Hb].
  - assert (Hk : Forall (fun k => kFrequency k <= 65535) ks).
    { eapply Forall_impl; [|exact Lo]. intros k Q. pose proof (frequency_bound _ _ _ _ _ _ k Hf H Q). lia. }
    assert (Hn : nth_error (dFreqs (newData m)) (N.to_nat b) = Some []).
    { destruct (freqs_empty (newData m) eq_refl) as [_ E]. rewrite (E b Hb). unfold bucket_of. destruct (b <? 9); rewrite ?skipn_nil, ?firstn_nil; reflexivity. }
    destruct (adds_bucket b Hb ks _ _ Hk Hn) as (sub & S1 & S2). exists sub. injection T as T1 _. rewrite T1, S2. split; [reflexivity|]. split; [auto|lia].
  - exists []. split; [reflexivity|]. split; [lia|reflexivity].
Qed.
Lemma adds_freqs : forall ks pre d, freqs_ok d pre -> (forall j k, nth_error ks j = Some k -> kFrequency k = len pre + N.of_nat j + 1) ->
  len pre + len ks <= 2750 -> dMax d <= len pre + len ks + 1 ->
  freqs_ok (fold_left addToFrequencies ks d) (pre ++ ks)
  /\ dMax (fold_left addToFrequencies ks d) = (if len ks =? 0 then dMax d else len pre + len ks + 1).
Proof.
  induction ks as [|k ks IH]; intros pre d Ho Hk Hl Hm; cbn [fold_left].
  - rewrite app_nil_r. split; [exact Ho|reflexivity].
  - pose proof (Hk 0%nat k eq_refl) as K0. change (N.of_nat 0) with 0 in K0. rewrite N.add_0_r in K0.
    assert (Hc : len (k :: ks) = len ks + 1) by (unfold len; cbn [List.length]; lia). rewrite Hc in *.
    assert (Hp : len (pre ++ [k]) = len pre + 1) by (unfold len; rewrite app_length; cbn [List.length]; lia).
    assert (Hx : dMax (addToFrequencies d k) = if dMax d <=? kFrequency k then u16 (kFrequency k + 1) else dMax d) by reflexivity.
    assert (Hu : u16 (kFrequency k + 1) = kFrequency k + 1) by (unfold u16; apply N.mod_small; lia). rewrite Hu in Hx.
    destruct (IH (pre ++ [k]) (addToFrequencies d k)) as [I1 I2].
    + apply add_bucket; [exact Ho|exact K0|lia].
    + intros j k' Q. rewrite Hp. rewrite (Hk (S j) k' Q). lia.
    + lia.
    + rewrite Hp, Hx. destruct (N.leb_spec (dMax d) (kFrequency k)); lia.
    + rewrite <- app_assoc in I1. split; [exact I1|]. rewrite I2, Hp, Hx. replace (len ks + 1 =? 0) with false by lia.
      destruct (N.eqb_spec (len ks) 0) as [E|E]; [|lia]. destruct (N.leb_spec (dMax d) (kFrequency k)); lia.
Qed.
Lemma F2_nth : forall A B (R : A -> B -> Prop) l1 l2 j y, Forall2 R l1 l2 -> nth_error l2 j = Some y -> exists x, nth_error l1 j = Some x /\ R x y.
Proof.
  intros A B R l1 l2 j y H. revert j. induction H as [|a b l1 l2 Q _ IH]; intros [|j] E; try discriminate.
  - injection E as <-. exists a. split; [reflexivity|exact Q].
  - exact (IH j E).
Qed.
Lemma find_exact : forall ltr f st m e d ws, files_ok f -> loadData ltr f st m = Val (e, d) -> words (frequencyFile f) ws ->
  (forall s, In s ws -> own_name d s) -> (forall s k, In s ws -> findByName d s = Some k -> kType k <> Extra) ->
  len ws <= 2750 -> m <= len ws + 1 ->
  forall n, (1 <= n <= len ws -> exists k, findByFrequency d n = Val (Some k) /\ nth_error ws (N.to_nat (n - 1)) = Some (kName k)
      /\ findByName d (kName k) = Some k /\ kFrequency k = n)
    /\ (n = 0 \/ len ws < n -> findByFrequency d n = Val None).
Proof.
  intros ltr f st m e d ws Hf H Hw Own Ne Hl Hm n. destruct (loaded_own _ _ _ _ _ _ _ Hf H Hw Own) as (ks & Fo & Lo & _ & T).
  assert (Hlen : len ks = len ws) by (unfold len; f_equal; clear -Fo; induction Fo; cbn [List.length]; congruence).
  assert (At : forall j k, nth_error ks j = Some k -> nth_error ws j = Some (kName k) /\ findByName d (kName k) = Some k /\ kFrequency k = N.of_nat j + 1).
  { intros j k Q. destruct (F2_nth _ _ _ _ _ _ _ Fo Q) as (s & Q1 & Q2 & Q3). subst s. split; [exact Q1|]. split; [exact Q2|].
    apply (proj1 (frequency_exact ltr f st m e d Hf H k ws (proj1 (Forall_forall _ _) Lo k (nth_error_In _ _ Q)) Hw)); [|exact Q1].
    apply (Ne (kName k)); [eapply nth_error_In; exact Q1|exact Q2]. }
  destruct (adds_freqs ks [] (newData m)) as [Fk Mk].
  - apply freqs_empty. reflexivity.
  - intros j k Q. change (len (@nil Kanji)) with 0. rewrite (proj2 (proj2 (At j k Q))). lia.
  - change (len (@nil Kanji)) with 0. lia.
  - change (len (@nil Kanji)) with 0. cbn [newData dMax]. lia.
  - cbn [app] in Fk. change (len (@nil Kanji)) with 0 in Mk. cbn [newData dMax] in Mk. injection T as T1 T2.
    assert (Fd : freqs_ok d ks) by (unfold freqs_ok in *; rewrite T1; exact Fk). fold (newData m) in T2. rewrite Mk in T2.
    destruct (N.eqb_spec (len ks) 0) as [E|E].
    + split; [lia|]. intros _. unfold findByFrequency. replace ((n =? 0) || (dMax d <=? n)) with true by lia. reflexivity.
    + pose proof (bucket_lookup d ks n Fd ltac:(lia) ltac:(lia)) as R. rewrite Hlen in R. split.
      * intro Hn. replace ((1 <=? n) && (n <=? len ws)) with true in R by lia.
        destruct (nth_error ks (N.to_nat (n - 1))) as [k|] eqn:Q; [|apply nth_error_None in Q; unfold len in *; lia].
        destruct (At _ _ Q) as (A1 & A2 & A3). exists k. split; [exact R|]. split; [exact A1|]. split; [exact A2|]. lia.
      * intro Hn. replace ((1 <=? n) && (n <=? len ws)) with false in R by lia. exact R.
Qed.
