(** Lemmas about letters, lists of choices and the count of right answers of group quizzes. *)
From Verif Require Import BaseFacts.
From Verif Require Export GroupSpec QuizWhole.
Open Scope N_scope.
Arguments N.add : simpl never.
Arguments N.sub : simpl never.
Arguments N.mul : simpl never.
Arguments u16 : simpl never.
Arguments u64 : simpl never.

(** ** Letters *)
Lemma letter_range : forall j, (j < 58)%nat -> 65 <= letter j <= 122.
Proof. intros j H. unfold letter. destruct (j <? 26)%nat eqn:E; [apply Nat.ltb_lt in E|apply Nat.ltb_ge in E]; lia. Qed.
Lemma letter_inj : forall i j, (i < 58)%nat -> (j < 58)%nat -> letter i = letter j -> i = j.
Proof.
  intros i j Hi Hj. unfold letter.
  destruct (i <? 26)%nat eqn:E; [apply Nat.ltb_lt in E|apply Nat.ltb_ge in E];
  (destruct (j <? 26)%nat eqn:F; [apply Nat.ltb_lt in F|apply Nat.ltb_ge in F]); lia.
Qed.
Lemma letters_in : forall n c, In c (letters n) <-> exists j, (j < n)%nat /\ c = letter j.
Proof.
  intros n c. unfold letters. rewrite in_map_iff. split.
  - intros [j [<- H]]. apply in_seq in H. exists j. split; [lia|reflexivity].
  - intros [j [H ->]]. exists j. split; [reflexivity|]. apply in_seq. lia.
Qed.
Lemma letters_range : forall n c, (n <= 58)%nat -> In c (letters n) -> 65 <= c <= 122.
Proof. intros n c H K. apply letters_in in K. destruct K as [j [K ->]]. apply letter_range. lia. Qed.
Lemma letters_length : forall n, length (letters n) = n.
Proof. intro n. unfold letters. rewrite map_length, seq_length. reflexivity. Qed.
Lemma letters_nodup : forall n, (n <= 58)%nat -> NoDup (letters n).
Proof.
  intros n H. unfold letters. assert (K : forall l : list nat, NoDup l -> (forall x, In x l -> (x < 58)%nat) -> NoDup (map letter l)).
  { induction 1 as [|x l Hx _ IH]; intro B; cbn [map]; [constructor|]. constructor; [|apply IH; intros; apply B; right; assumption].
    intro K. apply in_map_iff in K. destruct K as [y [E Hy]]. apply letter_inj in E; [subst; contradiction|apply B; right; exact Hy|apply B; left; reflexivity]. }
  apply K; [apply seq_NoDup|]. intros x Hx. apply in_seq in Hx. lia.
Qed.
Lemma member_iff : forall c l, member c l = true <-> In c l.
Proof.
  intros c l. unfold member. rewrite existsb_exists. split.
  - intros [x [H E]]. apply N.eqb_eq in E. subst. exact H.
  - intro H. exists c. split; [exact H|apply N.eqb_refl].
Qed.
Lemma member_false : forall c l, member c l = false <-> ~ In c l.
Proof. intros c l. rewrite <- member_iff. destruct (member c l); split; congruence. Qed.

Lemma find_combine : forall (f : nat -> N) (rs : list QKanji) i j, (forall x, (i <= x < i + length rs)%nat -> f x = f j -> x = j) -> (i <= j)%nat ->
  match find (fun p => fst p =? f j) (combine (map f (seq i (length rs))) rs) with Some p => Some (snd p) | None => None end
  = nth_error rs (j - i).
Proof.
  intros f rs. induction rs as [|r rs IH]; intros i j H L; cbn [length seq map combine find].
  - destruct (j - i)%nat; reflexivity.
  - cbn [fst]. destruct (f i =? f j) eqn:E.
    + apply N.eqb_eq in E. apply H in E; [|cbn [length]; lia]. subst. rewrite Nat.sub_diag. reflexivity.
    + assert (i <> j) by (intro; subst; rewrite N.eqb_refl in E; discriminate).
      rewrite (IH (S i) j); [|intros x Hx; apply H; cbn [length]; lia|lia]. replace (j - i)%nat with (S (j - S i)) by lia. reflexivity.
Qed.
Lemma beside_letter : forall rs j, (length rs <= 58)%nat -> (j < length rs)%nat -> beside rs (letter j) = nth_error rs j.
Proof.
  intros rs j H L. unfold beside, letters. rewrite (find_combine letter rs 0 j); [rewrite Nat.sub_0_r; reflexivity| |lia].
  intros x Hx. apply letter_inj; lia.
Qed.

(** ** Counting right answers *)
Lemma count_points : forall shown rs sheet qs, (length rs <= 26)%nat -> (forall c, In c sheet -> In c (letters (length rs))) ->
  (length sheet <= length qs)%nat -> countRight shown qs rs sheet = Val (points shown qs rs sheet).
Proof.
  intros shown rs sheet. induction sheet as [|c sheet IH]; intros qs H K L.
  - unfold points. destruct qs; reflexivity.
  - destruct qs as [|q qs]; [cbn in L; lia|]. cbn [countRight]. destruct (proj1 (letters_in _ _) (K c (or_introl eq_refl))) as [j [Hj Ec]].
    assert (El : letter j = 97 + N.of_nat j) by (unfold letter; replace (j <? 26)%nat with true by (symmetry; apply Nat.ltb_lt; lia); reflexivity).
    replace (c <=? 122) with true by lia. unfold u64. change (2 ^ 64) with 18446744073709551616.
    replace (18446744073709551616 + c - 97) with (N.of_nat j + 1 * 18446744073709551616) by lia. rewrite N.mod_add, N.mod_small by lia.
    replace (N.of_nat j <? len rs) with true by (unfold len; lia). rewrite Nat2N.id. destruct (nth_error rs j) as [r|] eqn:E; [|apply nth_error_None in E; lia].
    rewrite IH; [|exact H|intros x Hx; apply K; right; exact Hx|cbn in L; lia]. cbn [obind]. f_equal.
    unfold points. cbn [combine filter]. unfold fitting at 2. cbn [fst snd]. rewrite Ec, beside_letter, E by lia. unfold matches.
    destruct (beq (qReading q) (qReading r) && (negb shown || beq (qMeaning q) (qMeaning r))); unfold len; cbn [length]; lia.
Qed.
(** an upper case letter is no index *)
Lemma count_undefined : forall shown rs sheet qs c, len rs < 2 ^ 32 -> In c sheet -> c < 97 -> countRight shown qs rs sheet = Ub.
Proof.
  intros shown rs sheet. induction sheet as [|x sheet IH]; intros qs c H K L; [contradiction|].
  destruct qs as [|q qs]; [reflexivity|]. cbn [countRight]. change (2 ^ 32) with 4294967296 in *. destruct K as [->|K].
  - replace (c <=? 122) with true by lia. unfold u64. change (2 ^ 64) with 18446744073709551616. rewrite N.mod_small by lia.
    replace (18446744073709551616 + c - 97 <? len rs) with false by lia. reflexivity.
  - match goal with |- match ?x with _ => _ end = _ => destruct x; [|reflexivity] end. rewrite (IH qs c) by (assumption || lia). reflexivity.
Qed.
(** a complete sheet for more than 26 members has one *)
Lemma full_has : forall n sheet, (26 < n <= 58)%nat -> NoDup sheet -> (forall c, In c sheet -> In c (letters n)) -> length sheet = n -> In 65 sheet.
Proof.
  intros n sheet H K I L. assert (X : incl (letters n) sheet) by (apply NoDup_length_incl; [exact K|rewrite letters_length; lia|exact I]).
  apply X, letters_in. exists 26%nat. split; [lia|reflexivity].
Qed.
Lemma points_le : forall shown qs rs sheet, points shown qs rs sheet <= len sheet.
Proof.
  intros. unfold points, len. pose proof (filter_le _ (fitting shown rs) (combine qs sheet)) as H. rewrite combine_length in H. lia.
Qed.

(** ** Lists of choices *)
Definition ascii : list N := map N.of_nat (seq 0 128).
Lemma ascii_in : forall c, In c ascii <-> c < 128.
Proof.
  intro c. unfold ascii. rewrite in_map_iff. split.
  - intros [j [<- H]]. apply in_seq in H. lia.
  - intro H. exists (N.to_nat c). split; [lia|]. apply in_seq. lia.
Qed.
Lemma ascii_sorted : StronglySorted N.lt ascii.
Proof.
  unfold ascii. assert (K : forall n a, StronglySorted N.lt (map N.of_nat (seq a n))).
  { induction n as [|n IH]; intro a; cbn [seq map]; constructor; [apply IH|]. apply Forall_forall. intros x Hx. apply in_map_iff in Hx.
    destruct Hx as [j [<- Hj]]. apply in_seq in Hj. lia. }
  apply K.
Qed.
Lemma sorted_filter : forall (p : N -> bool) l, StronglySorted N.lt l -> StronglySorted N.lt (filter p l).
Proof.
  intros p l H. induction H as [|x l H IH F]; cbn [filter]; [constructor|]. destruct (p x); [|exact IH]. constructor; [exact IH|].
  apply Forall_forall. intros y Hy. apply filter_In in Hy. rewrite Forall_forall in F. apply F, Hy.
Qed.
Lemma listing_in : forall p d e, In e (listing p d) <-> p (fst e) = true /\ fst e < 128 /\ snd e = d (fst e).
Proof.
  intros p d [c x]. unfold listing. fold ascii. rewrite in_map_iff. cbn [fst snd]. split.
  - intros [k [[= -> <-] H]]. apply filter_In in H. destruct H as [H1 H2]. apply ascii_in in H1. auto.
  - intros [H1 [H2 ->]]. exists c. split; [reflexivity|]. apply filter_In. split; [apply ascii_in; exact H2|exact H1].
Qed.
Lemma listing_keys : forall p d, map fst (listing p d) = filter p ascii.
Proof. intros. unfold listing. fold ascii. rewrite map_map. cbn [fst]. apply map_id. Qed.
Lemma listing_key : forall p d c, In c (map fst (listing p d)) <-> p c = true /\ c < 128.
Proof. intros. rewrite listing_keys, filter_In, ascii_in. tauto. Qed.
Lemma listing_map : forall p d, is_map (listing p d).
Proof. intros. unfold is_map. rewrite listing_keys. apply sorted_filter, ascii_sorted. Qed.
Lemma listing_ext : forall p d p' d', (forall c, c < 128 -> p c = p' c) -> (forall c, c < 128 -> p c = true -> d c = d' c) ->
  listing p d = listing p' d'.
Proof.
  intros p d p' d' H K. unfold listing. fold ascii.
  rewrite <- (filter_ext_in p p') by (intros c Hc; apply H, ascii_in, Hc).
  apply map_ext_in. intros c Hc. apply filter_In in Hc. destruct Hc as [H1 H2]. rewrite K; [reflexivity|apply ascii_in; exact H1|exact H2].
Qed.
(** sorted maps with the same entries are the same *)
Lemma maps_equal : forall a b : Choices, is_map a -> is_map b -> (forall e, In e a <-> In e b) -> a = b.
Proof.
  unfold is_map. induction a as [|x a IH]; intros b Ha Hb H.
  - destruct b as [|y b]; [reflexivity|]. exfalso. apply (H y). left. reflexivity.
  - destruct b as [|y b]; [exfalso; apply (H x); left; reflexivity|]. cbn [map] in *. inversion Ha as [|u v Ha1 Ha2]; inversion Hb as [|u' v' Hb1 Hb2]; subst.
    rewrite Forall_forall in Ha2, Hb2.
    assert (E : x = y).
    { destruct (proj1 (H x) (or_introl eq_refl)) as [E|E]; [auto|]. destruct (proj2 (H y) (or_introl eq_refl)) as [F|F]; [auto|].
      apply (in_map fst) in E. apply (in_map fst) in F. specialize (Ha2 _ F). specialize (Hb2 _ E). lia. }
    subst y. f_equal. apply IH; [assumption|assumption|]. intro e. split; intro K.
    + destruct (proj1 (H e) (or_intror K)) as [E|E]; [|exact E]. subst e. apply (in_map fst) in K. specialize (Ha2 _ K). lia.
    + destruct (proj2 (H e) (or_intror K)) as [E|E]; [|exact E]. subst e. apply (in_map fst) in K. specialize (Hb2 _ K). lia.
Qed.
Lemma setKey_listing : forall c x p d, c < 128 ->
  setKey c x (listing p d) = listing (fun k => (k =? c) || p k) (fun k => if k =? c then x else d k).
Proof.
  intros c x p d Hc. unfold setKey. destruct (hasKey c (listing p d)) eqn:E.
  - apply hasKey_iff, listing_key in E. destruct E as [E _]. unfold listing. fold ascii. rewrite map_map. cbn [fst].
    rewrite (filter_ext_in (fun k => (k =? c) || p k) p).
    + apply map_ext. intro k. destruct (k =? c) eqn:F; [apply N.eqb_eq in F; subst|]; reflexivity.
    + intros k _. destruct (k =? c) eqn:F; [apply N.eqb_eq in F; subst; rewrite E|]; reflexivity.
  - assert (N1 : ~ In c (map fst (listing p d))) by (intro K; apply hasKey_iff in K; congruence).
    apply maps_equal; [apply insert_map; [apply listing_map|exact N1]|apply listing_map|]. intros [k y]. rewrite insert_in, !listing_in. cbn [fst snd].
    destruct (k =? c) eqn:F.
    + apply N.eqb_eq in F. subst k. cbn [orb]. split.
      * intros [[= ->]|[H1 [H2 H3]]]; [auto|]. exfalso. apply N1, listing_key. auto.
      * intros [_ [_ ->]]. left. reflexivity.
    + cbn [orb]. split; [intros [[= -> ->]|H]; [rewrite N.eqb_refl in F; discriminate|exact H]|auto].
Qed.
Lemma eraseKey_listing : forall c p d, eraseKey c (listing p d) = listing (fun k => negb (k =? c) && p k) d.
Proof.
  intros c p d. unfold eraseKey, listing. fold ascii. induction ascii as [|x l IH]; [reflexivity|]. cbn [filter]. destruct (p x) eqn:E; cbn [map filter fst].
  - destruct (x =? c); cbn [negb andb map]; rewrite IH; reflexivity.
  - rewrite IH, andb_false_r. reflexivity.
Qed.
Lemma listing_nil : listing (fun _ => false) (fun _ => []) = [].
Proof. reflexivity. Qed.
Lemma keys_listing : forall sheet p m, Forall (fun c => c < 128) sheet -> m = listing p (fun _ => []) ->
  fold_left (fun m k => setKey k [] m) sheet m = listing (fun c => member c sheet || p c) (fun _ => []).
Proof.
  induction sheet as [|k sheet IH]; intros p m H E; cbn [fold_left]; [rewrite E; apply listing_ext; reflexivity|]. inversion H; subst x l.
  rewrite (IH (fun c => (c =? k) || p c)); [|assumption|].
  - apply listing_ext; [|reflexivity]. intros c _. unfold member. cbn [existsb]. fold (member c sheet).
    destruct (member c sheet), (c =? k); reflexivity.
  - rewrite E, setKey_listing by assumption. apply listing_ext; [reflexivity|]. intros c _ _. destruct (c =? k); reflexivity.
Qed.

(** ** The answer sheet *)
Lemma place_combine : forall sheet i c,
  match find (fun p => snd p =? c) (combine (seq i (length sheet)) sheet) with Some p => Some (fst p) | None => None end
  = option_map (fun j => (i + N.to_nat j)%nat) (indexOf c sheet).
Proof.
  induction sheet as [|x sheet IH]; intros i c; [reflexivity|]. cbn [length seq combine find snd indexOf]. destruct (x =? c).
  - cbn [option_map fst]. f_equal. lia.
  - rewrite IH. destruct (indexOf c sheet); cbn [option_map]; [|reflexivity]. f_equal. lia.
Qed.
Lemma place_index : forall sheet c, place sheet c = option_map N.to_nat (indexOf c sheet).
Proof. intros. unfold place. rewrite place_combine. destruct (indexOf c sheet); reflexivity. Qed.
Lemma index_some : forall sheet c, In c sheet -> exists j, indexOf c sheet = Some j /\ nth_error sheet (N.to_nat j) = Some c.
Proof.
  induction sheet as [|x sheet IH]; intros c H; [contradiction|]. cbn [indexOf]. destruct (x =? c) eqn:E.
  - apply N.eqb_eq in E. subst. exists 0. auto.
  - destruct H as [H|H]; [subst; rewrite N.eqb_refl in E; discriminate|]. destruct (IH c H) as [j [E1 E2]]. rewrite E1. exists (N.succ j).
    split; [reflexivity|]. rewrite N2Nat.inj_succ. exact E2.
Qed.
Lemma index_none : forall sheet c, ~ In c sheet -> indexOf c sheet = None.
Proof.
  induction sheet as [|x sheet IH]; intros c H; [reflexivity|]. cbn [indexOf]. destruct (x =? c) eqn:E.
  - apply N.eqb_eq in E. subst. exfalso. apply H. left. reflexivity.
  - rewrite IH; [reflexivity|]. intro K. apply H. right. exact K.
Qed.
Lemma setNth_replaced : forall e x sheet, (e < length sheet)%nat -> setNth e x sheet = replaced sheet e x.
Proof.
  unfold replaced. induction e as [|e IH]; intros x sheet H; destruct sheet as [|y sheet]; try (cbn in H; lia); cbn [setNth firstn skipn app]; [reflexivity|].
  rewrite IH by (cbn in H; lia). reflexivity.
Qed.
Lemma split_at : forall (sheet : list N) e, (e < length sheet)%nat ->
  exists a y r, sheet = a ++ y :: r /\ nth e sheet 0 = y /\ forall x, replaced sheet e x = a ++ x :: r.
Proof.
  unfold replaced. intros sheet e. revert sheet. induction e as [|e IH]; intros [|y sheet] H; try (cbn in H; lia).
  - exists [], y, sheet. auto.
  - destruct (IH sheet) as [a [z [r [E1 [E2 E3]]]]]; [cbn in H; lia|]. exists (y :: a), z, r. split; [rewrite E1; reflexivity|].
    split; [exact E2|]. intro x. cbn [firstn app]. rewrite <- (E3 x). reflexivity.
Qed.
Lemma replaced_in : forall sheet e x c, (e < length sheet)%nat -> NoDup sheet ->
  (In c (replaced sheet e x) <-> c = x \/ (In c sheet /\ c <> nth e sheet 0)).
Proof.
  intros sheet e x c H K. destruct (split_at sheet e H) as [a [y [r [E1 [E2 E3]]]]]. rewrite E2, E3. rewrite E1 in K |- *.
  pose proof (NoDup_remove_2 _ _ _ K) as K2. rewrite in_app_iff in K2. rewrite !in_app_iff. cbn [In]. split.
  - intros [Hc|[Hc|Hc]]; [right; split; [auto|]|left; congruence|right; split; [auto|]]; intro; subst; apply K2; auto.
  - intros [->|[[Hc|[Hc|Hc]] D]]; auto. congruence.
Qed.
Lemma replaced_nodup : forall sheet e x, (e < length sheet)%nat -> NoDup sheet -> (~ In x sheet \/ x = nth e sheet 0) -> NoDup (replaced sheet e x).
Proof.
  intros sheet e x H K D. destruct (split_at sheet e H) as [a [y [r [E1 [E2 E3]]]]]. rewrite E3. rewrite E2 in D. rewrite E1 in K, D.
  pose proof (NoDup_remove_1 _ _ _ K) as K1. pose proof (NoDup_remove_2 _ _ _ K) as K2.
  assert (X : ~ In x (a ++ r)).
  { destruct D as [D| ->]; [|exact K2]. intro Z. apply D. rewrite in_app_iff in *. cbn [In]. tauto. }
  apply Permutation_NoDup with (l := x :: a ++ r); [apply Permutation_middle|]. constructor; assumption.
Qed.
Lemma replaced_length : forall sheet e x, (e < length sheet)%nat -> length (replaced sheet e x) = length sheet.
Proof. intros. unfold replaced. rewrite app_length. cbn [length]. rewrite firstn_length, skipn_length. lia. Qed.

(** conversion must not look into these lists *)
Global Opaque listing.
