(** Properties of the Kanji tables. *)
From Verif Require Import BaseFacts MapProofs StringSpec StringProofs ColumnFileSpec KanjiSpec DataModel DataSpec DataProofs DataFreq DataLemmas.
Open Scope N_scope.

(** C34: after a frequency list of at most 2750 different names is processed, findByFrequency
    finds for every number the Kanji at that place in the list and nothing else.  Longer lists
    are missing, see the theorems below. *)
Theorem C34_find_by_frequency_partial : forall make l d0,
  ready d0 l -> makes make d0 l -> NoDup l -> Forall (fun s => len s <= 4) l -> len l <= 2750 ->
  exists d', processList FrequencyList make l d0 = Val d' /\
  forall f, if (1 <=? f) && (f <=? len l)
    then exists k, findByFrequency d' f = Val (Some k) /\ nth_error l (N.to_nat (f - 1)) = Some (kName k)
                   /\ kFrequency k = f /\ findByName d' (kName k) = Some k
    else findByFrequency d' f = Val None.
Proof.
  intros make l d0 R M Hn Hs Hl.
  destruct (frequency_list make l d0 R M Hn Hs ltac:(lia)) as [d' [ks [E [En [Ef [Hf [Fo Hm]]]]]]].
  exists d'. split; [exact E|]. intro f.
  assert (Hlk : len ks = len l) by (unfold len; rewrite <- En, map_length; reflexivity).
  destruct (N.eqb_spec (len l) 0) as [H0|H0].
  - replace ((1 <=? f) && (f <=? len l)) with false by lia. unfold findByFrequency.
    destruct R as [_ [_ [R3 _]]]. replace ((f =? 0) || (dMax d' <=? f)) with true by lia. reflexivity.
  - rewrite (bucket_lookup d' ks f Fo ltac:(lia) ltac:(lia)), Hlk.
    destruct ((1 <=? f) && (f <=? len l)) eqn:B; [|reflexivity].
    destruct (nth_error ks (N.to_nat (f - 1))) as [k|] eqn:K.
    + exists k. split; [reflexivity|].
      split; [rewrite <- En, nth_error_map, K; reflexivity|].
      split; [|apply Hf; apply nth_error_In with (N.to_nat (f - 1)); exact K].
      assert (Hk : nth_error (map kFrequency ks) (N.to_nat (f - 1)) = Some (kFrequency k)) by (rewrite nth_error_map, K; reflexivity).
      rewrite Ef, nth_error_map in Hk.
      assert (Hj : nth_error (seq 0 (List.length l)) (N.to_nat (f - 1)) = Some (N.to_nat (f - 1))).
      { unfold len in *. rewrite (nth_error_nth' _ 0%nat) by (rewrite seq_length; lia). rewrite seq_nth by lia. reflexivity. }
      rewrite Hj in Hk. cbn [option_map] in Hk. injection Hk as <-. lia.
    + apply nth_error_None in K. unfold len in *. lia.
Qed.
Print Assumptions C34_find_by_frequency_partial.
(** C34: the buckets are consecutive parts of the list, 250 entries each, the rest in the last. *)
Theorem C34_buckets : forall make l d0,
  ready d0 l -> makes make d0 l -> NoDup l -> Forall (fun s => len s <= 4) l -> len l <= 65534 ->
  exists d', processList FrequencyList make l d0 = Val d' /\
  forall b, exists ks, frequencyList d' b = Val ks
    /\ map kName ks = (if b <? 10 then bucket_of b l else []).
Proof.
  intros make l d0 R M Hn Hs Hl.
  destruct (frequency_list make l d0 R M Hn Hs Hl) as [d' [ks [E [En [Ef [Hf [[Fl Fo] Hm]]]]]]].
  exists d'. split; [exact E|]. intro b. unfold frequencyList. change FrequencyBuckets with 10.
  destruct (N.ltb_spec b 10) as [Hb|Hb]; [|exists []; auto].
  exists (bucket_of b ks). rewrite (Fo b Hb). split; [reflexivity|]. rewrite <- En. unfold bucket_of.
  destruct (b <? 9); rewrite ?skipn_map, ?firstn_map; reflexivity.
Qed.
Print Assumptions C34_buckets.
Example C34_example : forall l, ready (newData 0) l
  /\ makes (fun f s => Val (sample s 1 f)) (newData 0) l.
Proof.
  intro l. split.
  - split; [apply msorted_nil|]. split; [reflexivity|]. split; [cbn [dMax newData]; lia|].
    intros i s _. split; [reflexivity|discriminate].
  - intros i s _ _. eexists. split; [reflexivity|]. split; reflexivity.
Qed.

(** C34 is false for longer lists: asking for any number above 2750 that is in the list reads
    outside of the array of buckets. *)
Theorem C34_long_list_refuted : forall make l d0,
  ready d0 l -> makes make d0 l -> NoDup l -> Forall (fun s => len s <= 4) l -> len l <= 65534 ->
  exists d', processList FrequencyList make l d0 = Val d' /\
  forall f, 2750 < f -> f <= len l -> findByFrequency d' f = Ub.
Proof.
  intros make l d0 R M Hn Hs Hl.
  destruct (frequency_list make l d0 R M Hn Hs Hl) as [d' [ks [E [_ [_ [_ [[Fl _] Hm]]]]]]].
  exists d'. split; [exact E|]. intros f H1 H2. unfold findByFrequency.
  replace (len l =? 0) with false in Hm by lia. rewrite Hm.
  replace ((f =? 0) || (len l + 1 <=? f)) with false by lia.
  change FrequencyEntries with 250. change FrequencyBuckets with 10.
  assert (Hq : 11 <= (f - 1) / 250).
  { change 11 with (2750 / 250). apply N.div_le_mono; lia. }
  replace ((f - 1) / 250 =? 10) with false by lia.
  replace (nth_error (dFreqs d') (N.to_nat ((f - 1) / 250))) with (@None (list Kanji)); [reflexivity|].
  symmetry. apply nth_error_None. lia.
Qed.
Print Assumptions C34_long_list_refuted.
(** C34 is false for a second object in the same program with a shorter list: the highest
    frequency is shared by all objects. *)
Theorem C34_second_object_refuted : exists make d1 d2,
  processList FrequencyList make [b_ "一"; b_ "二"] (newData 0) = Val d1
  /\ processList FrequencyList make [b_ "一"] (newData (dMax d1)) = Val d2
  /\ findByFrequency d2 2 = Ub.
Proof.
  exists (fun f s => Val (sample s 1 f)). eexists. eexists.
  split; [vm_compute; reflexivity|]. split; vm_compute; reflexivity.
Qed.
Print Assumptions C34_second_object_refuted.
(** C34 is false if the list has a Kanji that was loaded without a frequency, as those of
    'extra.txt' are: the Kanji after it are found one place too early. *)
Theorem C34_without_frequency_refuted : exists make k0 d0 d1 k,
  kFrequency k0 = 0 /\ kType k0 = Extra /\ insertAll (newData 0) [k0] = Val d0
  /\ processList FrequencyList make [kName k0; b_ "二"] d0 = Val d1
  /\ findByFrequency d1 1 = Val (Some k) /\ kName k = b_ "二" /\ kFrequency k = 2
  /\ findByFrequency d1 2 = Ub.
Proof.
  exists (fun f s => Val (sample s 1 f)).
  exists (MkKanji (b_ "一") None [] 1 (1, 0) [] (0, Plain) [] Extra 0 NoGrade NoKyu NoLevel None [] false (MkDetails [] [] 0 0 None)).
  eexists. eexists. eexists. split; [reflexivity|]. split; [reflexivity|].
  split; [vm_compute; reflexivity|]. split; [vm_compute; reflexivity|].
  split; [vm_compute; reflexivity|]. repeat split; vm_compute; reflexivity.
Qed.
Print Assumptions C34_without_frequency_refuted.

(** C61: insertions always answer; a Kanji is only refused if its name is already there. *)
Theorem C61_insert : forall m ks k, exists d d' b, insertAll (newData m) ks = Val d
  /\ checkInsert d k = Val (d', b) /\ (b = true <-> ~ In (kName k) (map kName ks)).
Proof.
  intros m ks k. destruct (insertAll_rep m ks) as [d [E R]].
  destruct (Rep_insert ks d k R) as [d' [b [E2 [_ H]]]]. exists d, d', b. auto.
Qed.
Print Assumptions C61_insert.
(** C61: a name finds the first Kanji with a variation selector that has it as compatibility
    name, and otherwise the first Kanji of that name. *)
Theorem C61_find_by_name : forall m ks d s, insertAll (newData m) ks = Val d ->
  findByName d s = match find (variant_of s) (accepted ks) with
                   | Some v => Some v
                   | None => find (fun k => beq (kName k) s) ks
                   end.
Proof. intros m ks d s H. exact (findByName_spec ks d (insertAll_fun m ks d H) s). Qed.
Print Assumptions C61_find_by_name.
(** C61: so the name with a selector and the compatibility name find the same Kanji, unless
    another Kanji with a selector has one of them as compatibility name. *)
Theorem C61_both_names : forall m ks d k, insertAll (newData m) ks = Val d ->
  In k (accepted ks) -> selected_name k = true ->
  (forall v, In v (accepted ks) -> selected_name v = true -> v <> k ->
     compatibilityName v <> compatibilityName k /\ compatibilityName v <> kName k) ->
  findByName d (compatibilityName k) = Some k /\ findByName d (kName k) = Some k.
Proof.
  intros m ks d k H Hin Hs Hu. pose proof (insertAll_fun m ks d H) as R.
  rewrite !(findByName_spec ks d R). split.
  - destruct (find (variant_of (compatibilityName k)) (accepted ks)) as [v|] eqn:E.
    + apply find_some in E. destruct E as [Hv E]. unfold variant_of in E. apply andb_true_iff in E. destruct E as [E1 E2].
      apply beq_eq in E2. destruct (bytes_eq_dec (kName v) (kName k)) as [Hn|Hn].
      * f_equal. pose proof (proj1 (accepted_first ks [] v Hv)) as F1. pose proof (proj1 (accepted_first ks [] k Hin)) as F2.
        rewrite Hn in F1. congruence.
      * exfalso. assert (v <> k) by congruence. destruct (Hu v Hv E1 H0) as [U1 U2]. auto.
    + exfalso. apply find_none with (x := k) in E; [|exact Hin]. unfold variant_of in E.
      rewrite Hs, beq_refl in E. discriminate.
  - destruct (find (variant_of (kName k)) (accepted ks)) as [v|] eqn:E.
    + apply find_some in E. destruct E as [Hv E]. unfold variant_of in E. apply andb_true_iff in E. destruct E as [E1 E2].
      apply beq_eq in E2. destruct (bytes_eq_dec (kName v) (kName k)) as [Hn|Hn].
      * f_equal. pose proof (proj1 (accepted_first ks [] v Hv)) as F1. pose proof (proj1 (accepted_first ks [] k Hin)) as F2.
        rewrite Hn in F1. congruence.
      * exfalso. assert (v <> k) by congruence. destruct (Hu v Hv E1 H0) as [U1 U2]. auto.
    + exact (proj1 (accepted_first ks [] k Hin)).
Qed.
Print Assumptions C61_both_names.
(** a Kanji with a selector (the first name is U+4FAE U+FE00, the second U+FA30) *)
Example C61_example :
  let k := MkKanji (b_ "侮︀") (Some (b_ "侮")) [] 1 (1, 0) [] (0, Plain) [] LinkedJinmei 0 NoGrade NoKyu NoLevel None [] true (MkDetails [] [] 0 0 None) in
  exists d, insertAll (newData 0) [sample (b_ "侮") 8 1; k] = Val d
  /\ selected_name k = true /\ accepted [sample (b_ "侮") 8 1; k] = [sample (b_ "侮") 8 1; k]
  /\ findByName d (b_ "侮︀") = Some k /\ findByName d (b_ "侮") = Some k
  /\ findByName d (b_ "x") = None.
Proof. eexists. split; [vm_compute; reflexivity|]. vm_compute. auto 10. Qed.
(** C61, finding: a Kanji that was accepted under a name is not found by it any more once a
    Kanji with a selector has that name as compatibility name. *)
Theorem C61_hidden_refuted : exists ks k d v, insertAll (newData 0) ks = Val d
  /\ In k (accepted ks) /\ selected_name k = false /\ findByName d (kName k) = Some v /\ v <> k
  /\ kName v <> kName k.
Proof.
  exists [sample (enc 0xfa30) 8 1; MkKanji (enc 0x4fae ++ enc 0xfe00) (Some (enc 0xfa30)) [] 1 (1, 0) [] (0, Plain) [] LinkedJinmei 0 NoGrade NoKyu NoLevel None [] true (MkDetails [] [] 0 0 None)].
  exists (sample (enc 0xfa30) 8 1). eexists. eexists. split; [vm_compute; reflexivity|].
  split; [left; reflexivity|]. split; [vm_compute; reflexivity|]. split; [vm_compute; reflexivity|].
  split; discriminate.
Qed.
Print Assumptions C61_hidden_refuted.

(** C62: looking up by Dai Kan-Wa Jiten id gives exactly the accepted Kanji with that id, in
    the order they were inserted. *)
Theorem C62_by_morohashi : forall m ks d id, insertAll (newData m) ks = Val d ->
  findByMorohashiId d id = if fst id =? 0 then []
    else filter (fun k => idEqb (kMorohashi k) id) (accepted ks).
Proof.
  intros m ks d id H. unfold findByMorohashiId. destruct (fst id =? 0) eqn:E; [reflexivity|].
  rewrite (rep_moro _ _ (insertAll_fun m ks d H)). apply filter_ext. intro k.
  destruct (idEqb (kMorohashi k) id) eqn:F; [|rewrite !andb_false_r; reflexivity].
  apply idEqb_eq in F. rewrite F, E. reflexivity.
Qed.
Print Assumptions C62_by_morohashi.
Theorem C62_by_morohashi_found : forall m ks d id k, insertAll (newData m) ks = Val d ->
  (In k (findByMorohashiId d id) <-> In k (accepted ks) /\ kMorohashi k = id /\ fst id <> 0).
Proof.
  intros m ks d id k H. rewrite (C62_by_morohashi m ks d id H).
  destruct (N.eqb_spec (fst id) 0) as [E|E].
  - split; [intros []|]. intros [_ [_ N]]. contradiction.
  - rewrite filter_In, idEqb_eq. tauto.
Qed.
Print Assumptions C62_by_morohashi_found.
(** C62: looking up by Nelson id gives the accepted Kanji that list the id, in order; one that
    lists the id twice is there twice. *)
Theorem C62_by_nelson : forall m ks d id, insertAll (newData m) ks = Val d ->
  findByNelsonId d id = flat_map (fun k => repeat k (count_occ N.eq_dec (kNelson k) id)) (accepted ks).
Proof. intros m ks d id H. exact (rep_nelson _ _ (insertAll_fun m ks d H) id). Qed.
Print Assumptions C62_by_nelson.
(** C62: so if no Kanji lists an id twice, exactly the Kanji that list it are found, once. *)
Theorem C62_by_nelson_once : forall m ks d id, insertAll (newData m) ks = Val d ->
  Forall (fun k => NoDup (kNelson k)) ks ->
  findByNelsonId d id = filter (fun k => if in_dec N.eq_dec id (kNelson k) then true else false) (accepted ks).
Proof.
  intros m ks d id H Hn. rewrite (C62_by_nelson m ks d id H).
  assert (F : Forall (fun k => NoDup (kNelson k)) (accepted ks)).
  { rewrite Forall_forall in *. intros k Hk. apply Hn. exact (accepted_In ks [] k Hk). }
  clear -F. induction F as [|k l Hk F IH]; [reflexivity|]. cbn [flat_map filter].
  destruct (in_dec N.eq_dec id (kNelson k)) as [Hi|Hi].
  - pose proof (proj1 (NoDup_count_occ' N.eq_dec (kNelson k)) Hk) as Hc. rewrite (Hc id Hi). cbn [repeat app]. f_equal. exact IH.
  - rewrite (proj1 (count_occ_not_In N.eq_dec _ _) Hi). exact IH.
Qed.
Print Assumptions C62_by_nelson_once.
(** C62: the list of a grade has the accepted Kanji of that grade, in order. *)
Theorem C62_by_grade : forall m ks d g, insertAll (newData m) ks = Val d -> g <> NoGrade ->
  alist N.eqb (gradeNumber g) (dGrades d) = filter (fun k => gradeNumber (kGrade k) =? gradeNumber g) (accepted ks).
Proof.
  intros m ks d g H Hg. rewrite (rep_grade _ _ (insertAll_fun m ks d H)). apply filter_ext. intro k.
  unfold hasGrade. destruct (kGrade k); destruct g; try reflexivity; congruence.
Qed.
Print Assumptions C62_by_grade.
Example C62_example :
  let a := sample (b_ "一") 1 1 in let b := sample (b_ "二") 2 2 in
  exists d, insertAll (newData 0) [a; b; a] = Val d
  /\ findByMorohashiId d (1, Plain) = [a; b] /\ findByMorohashiText d (b_ "1P") = Val []
  /\ findByNelsonId d 1 = [a; b] /\ findByNelsonId d 2 = [].
Proof. eexists. split; [vm_compute; reflexivity|]. vm_compute. auto. Qed.

(** C63: every list of numerals separated by commas is read back. *)
Theorem C63_nelson_ids : forall ids, Forall (fun i => i <= 65535) ids ->
  getNelsonIds (join 44 (map to_string ids)) = ids.
Proof.
  intros ids H. destruct ids as [|i ids]; [reflexivity|].
  rewrite <- (app_nil_r (join 44 (map to_string (i :: ids)))). rewrite nelson_ids; [|discriminate| |left; reflexivity].
  - rewrite map_map. rewrite <- (map_id (i :: ids)) at 2. apply map_ext. intro x. apply to_string_decimal.
  - apply Forall_map. eapply Forall_impl; [|exact H]. intros x Hx. rewrite to_string_decimal.
    split; [split; [apply to_string_nonempty|apply to_string_digits]|exact Hx].
Qed.
Print Assumptions C63_nelson_ids.
(** C63, finding: everything from the first entry that is not a number on is dropped without
    an error, whatever comes after it. *)
Theorem C63_bad_entry_refuted : forall ids c r, ids <> [] -> Forall (fun i => i <= 65535) ids ->
  ~ is_digit c -> c <> 43 -> c <> 45 -> c <> 44 -> isSpace c = false ->
  getNelsonIds (join 44 (map to_string ids) ++ 44 :: c :: r) = ids.
Proof.
  intros ids c r Hne H H1 H2 H3 H4 H5. rewrite nelson_ids.
  - rewrite map_map. rewrite <- (map_id ids) at 2. apply map_ext. intro x. apply to_string_decimal.
  - destruct ids; [congruence|discriminate].
  - apply Forall_map. eapply Forall_impl; [|exact H]. intros x Hx. rewrite to_string_decimal.
    split; [split; [apply to_string_nonempty|apply to_string_digits]|exact Hx].
  - right. exists c, r. repeat split; auto.
Qed.
Print Assumptions C63_bad_entry_refuted.
Example C63_example : getNelsonIds (b_ "1491,37,65535") = [1491; 37; 65535]
  /\ getNelsonIds (b_ "12,65536,7") = [12] /\ getNelsonIds (b_ "12,x,7") = [12] /\ getNelsonIds [] = [].
Proof. vm_compute. auto. Qed.
