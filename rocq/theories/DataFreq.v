(** Lemmas about the frequency table. *)
From Verif Require Import BaseFacts MapProofs DataModel DataSpec DataProofs.
Arguments N.mul : simpl never. Arguments N.add : simpl never. Arguments N.sub : simpl never.
Arguments N.div : simpl never.

Lemma nth_appendAt : forall A (l : list (list A)) i j x,
  nth_error (appendAt i x l) j = option_map (fun a => if Nat.eqb i j then a ++ [x] else a) (nth_error l j).
Proof.
  induction l as [|a l IH]; intros i j x.
  - destruct i; destruct j; reflexivity.
  - destruct i as [|i]; destruct j as [|j]; cbn [appendAt nth_error option_map]; try reflexivity.
    + destruct (nth_error l j); reflexivity.
    + rewrite IH. reflexivity.
Qed.
(** the bucket of the next entry of a list *)
Definition bucketNo (i : N) : N := if i / 250 <? 10 then i / 250 else 9.
Lemma bucket_snoc : forall A (l : list A) x b, b < 10 ->
  bucket_of b (l ++ [x]) = if bucketNo (len l) =? b then bucket_of b l ++ [x] else bucket_of b l.
Proof.
  intros A l x b Hb. unfold bucket_of, bucketNo.
  assert (H250 : len l / 250 * 250 <= len l < len l / 250 * 250 + 250).
  { pose proof (N.div_mod (len l) 250 ltac:(lia)). pose proof (N.mod_lt (len l) 250 ltac:(lia)). lia. }
  remember (len l / 250) as q. unfold len in H250.
  destruct (N.ltb_spec b 9) as [H9|H9].
  - rewrite skipn_app, firstn_app.
    destruct (N.ltb_spec q 10) as [Hq|Hq].
    + destruct (N.eqb_spec q b) as [E|E].
      * subst b. rewrite (firstn_all2 (skipn (N.to_nat (250 * q)) l)) by (rewrite skipn_length; lia).
        rewrite skipn_length.
        replace (N.to_nat (250 * q) - List.length l)%nat with 0%nat by lia. cbn [skipn].
        destruct (N.to_nat 250 - (List.length l - N.to_nat (250 * q)))%nat eqn:F; [lia|].
        rewrite firstn_cons, firstn_nil. reflexivity.
      * rewrite skipn_length. destruct (N.lt_ge_cases q b) as [K|K].
        -- destruct (N.to_nat (250 * b) - List.length l)%nat eqn:F; [lia|]. cbn [skipn].
           rewrite skipn_nil, firstn_nil, app_nil_r. reflexivity.
        -- replace (N.to_nat 250 - (List.length l - N.to_nat (250 * b)))%nat with 0%nat by lia.
           cbn [firstn]. rewrite app_nil_r. reflexivity.
    + replace (9 =? b) with false by lia. rewrite skipn_length.
      replace (N.to_nat 250 - (List.length l - N.to_nat (250 * b)))%nat with 0%nat by lia.
      cbn [firstn]. rewrite app_nil_r. reflexivity.
  - assert (b = 9) by lia. subst b. rewrite skipn_app.
    replace ((if q <? 10 then q else 9) =? 9) with (9 <=? q) by (destruct (N.ltb_spec q 10); lia).
    destruct (N.leb_spec 9 q) as [K|K].
    + replace (N.to_nat 2250 - List.length l)%nat with 0%nat by lia. reflexivity.
    + destruct (N.to_nat 2250 - List.length l)%nat eqn:F; [lia|]. cbn [skipn]. rewrite skipn_nil, app_nil_r. reflexivity.
Qed.

Definition freqs_ok (d : Data) (ks : list Kanji) : Prop :=
  List.length (dFreqs d) = 10%nat /\
  forall b, b < 10 -> nth_error (dFreqs d) (N.to_nat b) = Some (bucket_of b ks).
Lemma freqs_empty : forall d, dFreqs d = repeat [] (N.to_nat 10) -> freqs_ok d [].
Proof.
  intros d H. split; [rewrite H; reflexivity|]. intros b Hb. rewrite H.
  assert (E : @bucket_of Kanji b [] = []).
  { unfold bucket_of. destruct (b <? 9); [rewrite skipn_nil, firstn_nil; reflexivity|apply skipn_nil]. }
  rewrite E. assert (K : forall n i (x : list Kanji), (i < n)%nat -> nth_error (repeat x n) i = Some x).
  { induction n as [|n IH]; intros i x Hi; [lia|]. destruct i; [reflexivity|]. cbn [repeat nth_error]. apply IH. lia. }
  apply K. lia.
Qed.
Lemma add_bucket : forall d ks k, freqs_ok d ks -> kFrequency k = len ks + 1 -> len ks < 65535 ->
  freqs_ok (addToFrequencies d k) (ks ++ [k]).
Proof.
  intros d ks k [Hl H] Hf Hlt. unfold addToFrequencies, freqs_ok. cbn [dFreqs].
  assert (E : u32 (kFrequency k + 0xffffffff) = len ks).
  { rewrite Hf. unfold u32. replace (len ks + 1 + 4294967295) with (len ks + 1 * 4294967296) by lia.
    rewrite N.mod_add by lia. apply N.mod_small. lia. }
  rewrite E. change FrequencyEntries with 250. change FrequencyBuckets with 10. change (10 - 1) with 9.
  fold (bucketNo (len ks)).
  split.
  - clear -Hl. revert Hl. generalize (dFreqs d) 10%nat (N.to_nat (bucketNo (len ks))). intro l.
    induction l as [|a l IH]; intros n i Hl; [destruct i; exact Hl|]. destruct n; [discriminate|].
    destruct i; cbn [appendAt List.length] in *; [exact Hl|]. f_equal. apply IH. lia.
  - intros b Hb. rewrite nth_appendAt, (H b Hb). cbn [option_map]. rewrite bucket_snoc by exact Hb.
    destruct (N.eqb_spec (bucketNo (len ks)) b) as [->|Hne]; [rewrite Nat.eqb_refl; reflexivity|].
    replace (Nat.eqb (N.to_nat (bucketNo (len ks))) (N.to_nat b)) with false; [reflexivity|].
    symmetry. apply Nat.eqb_neq. lia.
Qed.
Lemma bucket_lookup : forall d ks f, freqs_ok d ks -> len ks <= 2750 -> dMax d = len ks + 1 ->
  findByFrequency d f = Val (if (1 <=? f) && (f <=? len ks) then nth_error ks (N.to_nat (f - 1)) else None).
Proof.
  intros d ks f [Hl H] Hn Hm. unfold findByFrequency. rewrite Hm.
  destruct ((1 <=? f) && (f <=? len ks)) eqn:E.
  - replace ((f =? 0) || (len ks + 1 <=? f)) with false by lia.
    change FrequencyEntries with 250. change FrequencyBuckets with 10.
    assert (H250 : (f - 1) / 250 * 250 <= f - 1 < (f - 1) / 250 * 250 + 250).
    { pose proof (N.div_mod (f - 1) 250 ltac:(lia)). pose proof (N.mod_lt (f - 1) 250 ltac:(lia)). lia. }
    remember ((f - 1) / 250) as q.
    assert (Hq : q <= 10) by nia.
    set (b := if q =? 10 then q - 1 else q).
    assert (Hb : b < 10) by (unfold b; destruct (N.eqb_spec q 10); lia).
    rewrite (H b Hb).
    assert (K : nth_error (bucket_of b ks) (N.to_nat (f - 1 - b * 250)) = nth_error ks (N.to_nat (f - 1))).
    { assert (skipn_nth : forall (l : list Kanji) n i, nth_error (skipn n l) i = nth_error l (n + i)%nat).
      { induction l as [|a l IH]; intros n i; [rewrite skipn_nil; destruct (n + i)%nat; destruct i; reflexivity|].
        destruct n; [reflexivity|]. cbn [skipn]. rewrite IH. reflexivity. }
      assert (firstn_nth : forall (l : list Kanji) n i, (i < n)%nat -> nth_error (firstn n l) i = nth_error l i).
      { induction l as [|a l IH]; intros n i Hi; [rewrite firstn_nil; reflexivity|].
        destruct n; [lia|]. destruct i; [reflexivity|]. cbn [firstn nth_error]. apply IH. lia. }
      unfold bucket_of. destruct (N.ltb_spec b 9) as [H9|H9].
      - rewrite firstn_nth; [rewrite skipn_nth; f_equal|]; unfold b in *; destruct (N.eqb_spec q 10); lia.
      - rewrite skipn_nth. f_equal. unfold b in *; destruct (N.eqb_spec q 10); lia. }
    rewrite K. destruct (nth_error ks (N.to_nat (f - 1))) as [k|] eqn:F; [reflexivity|].
    apply nth_error_None in F. unfold len in E. lia.
  - replace ((f =? 0) || (len ks + 1 <=? f)) with true by lia. reflexivity.
Qed.

(** ** The frequency list *)
Lemma insert_new : forall d t k, msorted (dNames d) -> mfind (kName k) (dNames d) = None -> len (kName k) <= 4 ->
  exists d', checkInsertType d t k = Val (d', true)
  /\ msorted (dNames d') /\ (forall s, mfind s (dNames d') = if beq (kName k) s then Some k else mfind s (dNames d))
  /\ dCompat d' = dCompat d /\ dFreqs d' = dFreqs d /\ dMax d' = dMax d.
Proof.
  intros d t k Hs Hn Hl. unfold checkInsertType, checkInsert. rewrite Hn, variant_total. cbn [obind].
  assert (E : selected_name k = false).
  { unfold selected_name, variant, isCharWithVariationSelector. replace (3 + 2 <=? len (kName k)) with false by lia. reflexivity. }
  rewrite E. eexists. split; [reflexivity|]. cbn [dNames dCompat dFreqs dMax].
  split; [apply mupdate_sorted; exact Hs|]. split; [|auto]. intro s. apply madd_find. exact Hs.
Qed.

Section FrequencyListProof.
  Variables (make : N -> bytes -> out Kanji) (l : list bytes) (d0 : Data).
  Hypothesis Hready : ready d0 l.
  Hypothesis Hmakes : makes make d0 l.
  Hypothesis Hnodup : NoDup l.
  Hypothesis Hshort : Forall (fun s => len s <= 4) l.
  Hypothesis Hlen : len l <= 65534.

  Record Inv (i : nat) (d : Data) (ks : list Kanji) : Prop := {
    inv_sorted : msorted (dNames d);
    inv_compat : dCompat d = dCompat d0;
    inv_new : forall j s, (i <= j)%nat -> nth_error l j = Some s -> mfind s (dNames d) = mfind s (dNames d0);
    inv_len : List.length ks = i;
    inv_done : forall j k, nth_error ks j = Some k ->
      nth_error l j = Some (kName k) /\ kFrequency k = N.of_nat j + 1 /\ mfind (kName k) (dNames d) = Some k;
    inv_freqs : freqs_ok d ks;
    inv_max : dMax d = N.max (dMax d0) (if (i =? 0)%nat then 0 else N.of_nat i + 1)
  }.
  Lemma Inv_start : Inv 0 d0 [].
  Proof.
    destruct Hready as [R1 [R2 [R3 R4]]].
    split; try reflexivity; auto.
    - intros j k H. destruct j; discriminate.
    - apply freqs_empty. exact R2.
    - cbn [Nat.eqb]. lia.
  Qed.
  Lemma Inv_step : forall i d ks s r, Inv i d ks -> nth_error l i = Some s ->
    processLoop FrequencyList make (N.of_nat i) (s :: r) d
    = match findByName d s with
      | Some k => processLoop FrequencyList make (N.of_nat (S i)) r (addToFrequencies d k)
      | None => processLoop FrequencyList make (N.of_nat i) (s :: r) d
      end
    /\ exists d' k, processLoop FrequencyList make (N.of_nat i) (s :: r) d
        = processLoop FrequencyList make (N.of_nat (S i)) r d' /\ Inv (S i) d' (ks ++ [k]).
  Proof.
    intros i d ks s r I Hs. destruct Hready as [_ [_ [R3 R4]]]. destruct (R4 i s Hs) as [Rc Rk].
    assert (Hi : (i < List.length l)%nat) by (apply nth_error_Some; congruence).
    assert (EN : N.of_nat i + 1 = N.of_nat (S i)) by lia.
    assert (Hfind : findByName d s = mfind s (dNames d0)).
    { unfold findByName. rewrite (inv_compat _ _ _ I), Rc. apply (inv_new _ _ _ I i s); [lia|exact Hs]. }
    (* adding a Kanji with the right name and frequency keeps the invariant *)
    assert (Hadd : forall d1 k, kName k = s -> kFrequency k = N.of_nat i + 1 ->
      msorted (dNames d1) -> dCompat d1 = dCompat d0 ->
      (forall t, mfind t (dNames d1) = if beq s t then Some k else mfind t (dNames d)) ->
      dFreqs d1 = dFreqs d -> dMax d1 = dMax d -> Inv (S i) (addToFrequencies d1 k) (ks ++ [k])).
    { intros d1 k Hk Hf H1 H2 H3 H4 H5.
      pose proof (inv_len _ _ _ I) as Hlk.
      assert (Hnotold : forall j k', nth_error ks j = Some k' -> kName k' <> s).
      { intros j k' Hj E. destruct (inv_done _ _ _ I j k' Hj) as [D1 _]. rewrite E in D1.
        assert (j < List.length ks)%nat by (apply nth_error_Some; congruence).
        assert (i = j); [|lia]. apply (proj1 (NoDup_nth_error l) Hnodup); [exact Hi|congruence]. }
      split.
      - exact H1.
      - exact H2.
      - intros j t Hj Ht. cbn [addToFrequencies dNames]. rewrite H3.
        replace (beq s t) with false.
        + apply (inv_new _ _ _ I j t); [lia|exact Ht].
        + symmetry. apply beq_neq. intro E. subst t. assert (i = j); [|lia].
          apply (proj1 (NoDup_nth_error l) Hnodup); [exact Hi|congruence].
      - rewrite app_length. cbn [List.length]. lia.
      - intros j k' Hj. cbn [addToFrequencies dNames].
        destruct (Nat.lt_ge_cases j (List.length ks)) as [K|K].
        + rewrite nth_error_app1 in Hj by exact K. destruct (inv_done _ _ _ I j k' Hj) as [D1 [D2 D3]].
          split; [exact D1|]. split; [exact D2|]. rewrite H3.
          replace (beq s (kName k')) with false; [exact D3|]. symmetry. apply beq_neq. intro E.
          apply (Hnotold j k' Hj). congruence.
        + rewrite nth_error_app2 in Hj by exact K.
          destruct (j - List.length ks)%nat as [|n] eqn:F; [|destruct n; discriminate].
          injection Hj as <-. assert (j = i) by lia. subst j. rewrite Hk. split; [exact Hs|]. split; [exact Hf|].
          rewrite H3, beq_refl. reflexivity.
      - apply add_bucket.
        + destruct (inv_freqs _ _ _ I) as [F1 F2]. split; rewrite H4; assumption.
        + unfold len. rewrite Hlk. exact Hf.
        + unfold len in *. lia.
      - cbn [addToFrequencies dMax]. rewrite H5, (inv_max _ _ _ I), Hf. unfold len in Hlen, R3.
        cbn [Nat.eqb]. unfold u16. rewrite N.mod_small by lia.
        destruct (Nat.eqb_spec i 0) as [E|E];
          match goal with |- (if ?a <=? ?b then _ else _) = _ => destruct (N.leb_spec a b) end; lia. }
    destruct (mfind s (dNames d0)) as [k|] eqn:E0.
    - destruct (Rk k eq_refl) as [Kn Kf].
      assert (Ep : processLoop FrequencyList make (N.of_nat i) (s :: r) d
        = processLoop FrequencyList make (N.of_nat (S i)) r (addToFrequencies d k)).
      { cbn [processLoop]. rewrite Hfind. cbn [obind]. rewrite EN. reflexivity. }
      split; [rewrite Hfind; exact Ep|]. exists (addToFrequencies d k), k. split; [exact Ep|].
      apply Hadd; auto; try apply I. intro t. destruct (beq s t) eqn:F; [|reflexivity].
      apply beq_eq in F. subst t. unfold findByName in Hfind. rewrite (inv_compat _ _ _ I), Rc in Hfind. exact Hfind.
    - split; [rewrite Hfind; reflexivity|].
      destruct (Hmakes i s Hs E0) as [k [M1 [M2 M3]]].
      assert (Hnone : mfind (kName k) (dNames d) = None).
      { rewrite M2. rewrite (inv_new _ _ _ I i s); [exact E0|lia|exact Hs]. }
      assert (Hl4 : len (kName k) <= 4).
      { rewrite M2. rewrite Forall_forall in Hshort. apply Hshort. apply nth_error_In with i. exact Hs. }
      destruct (insert_new d FrequencyType k (inv_sorted _ _ _ I) Hnone Hl4) as [d1 [J1 [J2 [J3 [J4 [J5 J6]]]]]].
      exists (addToFrequencies d1 k), k. split.
      + cbn [processLoop]. rewrite Hfind, M1. cbn [obind]. rewrite J1. cbn [obind]. rewrite EN. reflexivity.
      + apply Hadd; auto.
        * rewrite J4. apply I.
        * intro t. rewrite J3, M2. reflexivity.
  Qed.
  Lemma Inv_loop : forall r i d ks, Inv i d ks -> skipn i l = r ->
    exists d' ks', processLoop FrequencyList make (N.of_nat i) r d = Val d' /\ Inv (List.length l) d' ks'.
  Proof.
    induction r as [|s r IH]; intros i d ks I Hr.
    - exists d, ks. split; [reflexivity|].
      assert (List.length l <= i)%nat.
      { assert (List.length (skipn i l) = 0%nat) by (rewrite Hr; reflexivity). rewrite skipn_length in *. lia. }
      destruct (Nat.eq_dec i (List.length l)) as [<-|Hne]; [exact I|].
      exfalso. pose proof (inv_len _ _ _ I) as L.
      destruct ks as [|k0 ks]; [cbn in L; lia|].
      destruct (nth_error (k0 :: ks) (i - 1)) as [k|] eqn:E.
      + destruct (inv_done _ _ _ I _ _ E) as [D _].
        assert (i - 1 < List.length l)%nat by (apply nth_error_Some; congruence). lia.
      + apply nth_error_None in E. lia.
    - assert (Hs : nth_error l i = Some s).
      { clear -Hr. revert l Hr. induction i as [|i IH]; intros m H; destruct m as [|a m]; try discriminate.
        - cbn in H. injection H as -> _. reflexivity.
        - cbn [skipn] in H. cbn [nth_error]. apply IH. exact H. }
      assert (Hr' : skipn (S i) l = r).
      { clear -Hr. revert l Hr. induction i as [|i IH]; intros m H; destruct m as [|a m]; try discriminate.
        - cbn in *. injection H. auto.
        - change (skipn (S i) m = r). apply IH. exact H. }
      destruct (Inv_step i d ks s r I Hs) as [_ [d' [k [E I']]]]. rewrite E.
      apply (IH (S i) d' (ks ++ [k]) I' Hr').
  Qed.
  Lemma frequency_list : exists d' ks, processList FrequencyList make l d0 = Val d'
    /\ map kName ks = l /\ map kFrequency ks = map (fun i => N.of_nat i + 1) (seq 0 (List.length l))
    /\ (forall k, In k ks -> findByName d' (kName k) = Some k)
    /\ freqs_ok d' ks /\ dMax d' = (if len l =? 0 then dMax d0 else len l + 1).
  Proof.
    destruct (Inv_loop l 0%nat d0 [] Inv_start eq_refl) as [d' [ks [E I]]].
    exists d', ks. split; [exact E|].
    assert (Hnm : forall j, nth_error (map kName ks) j = nth_error l j).
    { intro j. rewrite nth_error_map. destruct (nth_error ks j) as [k|] eqn:F.
      - destruct (inv_done _ _ _ I j k F) as [D _]. cbn [option_map]. congruence.
      - cbn [option_map]. symmetry. apply nth_error_None. apply nth_error_None in F. rewrite (inv_len _ _ _ I) in F. lia. }
    assert (ext : forall A (a b : list A), (forall j, nth_error a j = nth_error b j) -> a = b).
    { intros A. induction a as [|x a IH]; intros [|y b] H; [reflexivity|specialize (H 0%nat); discriminate|specialize (H 0%nat); discriminate|].
      pose proof (H 0%nat) as H0. cbn in H0. injection H0 as ->. f_equal. apply IH. intro j. exact (H (S j)). }
    split; [apply ext; exact Hnm|]. split.
    - apply ext. intro j. rewrite !nth_error_map. destruct (nth_error ks j) as [k|] eqn:F.
      + assert (j < List.length l)%nat by (rewrite <- (inv_len _ _ _ I); apply nth_error_Some; congruence).
        destruct (inv_done _ _ _ I j k F) as [_ [D _]].
        assert (Hseq : nth_error (seq 0 (List.length l)) j = Some j).
        { rewrite (nth_error_nth' _ 0%nat) by (rewrite seq_length; lia). rewrite seq_nth by lia. reflexivity. }
        rewrite Hseq. cbn [option_map]. f_equal. exact D.
      + apply nth_error_None in F. rewrite (inv_len _ _ _ I) in F.
        replace (nth_error (seq 0 (List.length l)) j) with (@None nat); [reflexivity|].
        symmetry. apply nth_error_None. rewrite seq_length. lia.
    - split; [|split; [apply I|]].
      + intros k Hin. apply In_nth_error in Hin. destruct Hin as [j F].
        destruct (inv_done _ _ _ I j k F) as [D1 [_ D3]]. unfold findByName. rewrite (inv_compat _ _ _ I).
        destruct Hready as [_ [_ [_ R4]]]. destruct (R4 j _ D1) as [Rc _]. rewrite Rc. exact D3.
      + rewrite (inv_max _ _ _ I). destruct Hready as [_ [_ [R3 _]]]. unfold len in *.
        destruct (Nat.eqb_spec (List.length l) 0) as [E0|E0].
        * rewrite E0. change (N.of_nat 0 =? 0) with true. cbv iota. lia.
        * replace (N.of_nat (List.length l) =? 0) with false by lia. lia.
  Qed.
End FrequencyListProof.
