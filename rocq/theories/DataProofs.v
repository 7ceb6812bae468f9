(** Lemmas about the Kanji tables. *)
From Verif Require Import BaseFacts MapProofs IdsProofs Utf8CharLemmas DataModel DataSpec.
Arguments N.mul : simpl never. Arguments N.add : simpl never. Arguments N.sub : simpl never.
Arguments N.div : simpl never.

(** ** Lists by key *)
Section Assoc.
  Context {K V : Type} (eqb : K -> K -> bool) (eqb_eq : forall a b, eqb a b = true <-> a = b).
  Lemma alist_append : forall j k (v : V) m,
    alist eqb j (aappend eqb k v m) = alist eqb j m ++ (if eqb k j then [v] else []).
  Proof.
    intros j k v. induction m as [|[x l] m IH]; cbn [aappend alist].
    - destruct (eqb k j); reflexivity.
    - destruct (eqb x k) eqn:E; cbn [alist].
      + apply eqb_eq in E. subst x. destruct (eqb k j); [reflexivity|]. rewrite app_nil_r. reflexivity.
      + destruct (eqb x j) eqn:F; [|exact IH]. apply eqb_eq in F. subst x.
        replace (eqb k j) with false; [rewrite app_nil_r; reflexivity|].
        symmetry. destruct (eqb k j) eqn:G; [|reflexivity]. apply eqb_eq in G. subst k.
        assert (eqb j j = true) by (apply eqb_eq; reflexivity). congruence.
  Qed.
End Assoc.
Lemma idEqb_eq : forall a b, idEqb a b = true <-> a = b.
Proof.
  intros a b. unfold idEqb. destruct (morohashi_order a b) as [_ [H _]].
  destruct (morohashiCompare a b); split; intro E; try discriminate; try (apply H; reflexivity); try reflexivity;
    apply H in E; discriminate.
Qed.
Lemma nelson_fold : forall ids (k : Kanji) j m,
  alist N.eqb j (fold_left (fun m id => aappend N.eqb id k m) ids m)
  = alist N.eqb j m ++ repeat k (count_occ N.eq_dec ids j).
Proof.
  induction ids as [|i ids IH]; intros k j m; cbn [fold_left count_occ].
  - cbn [repeat]. rewrite app_nil_r. reflexivity.
  - rewrite IH, (alist_append N.eqb N.eqb_eq), <- app_assoc. f_equal.
    destruct (N.eq_dec i j) as [->|Hne]; [rewrite N.eqb_refl; reflexivity|].
    replace (i =? j) with false by lia. reflexivity.
Qed.

(** ** Accepted Kanji *)
Definition names_of (ks : list Kanji) : list bytes := map kName ks.
Lemma existsb_In : forall s l, existsb (beq s) l = true <-> In s l.
Proof.
  intros s l. rewrite existsb_exists. split.
  - intros [x [H1 H2]]. apply beq_eq in H2. subst. exact H1.
  - intro H. exists s. split; [exact H|apply beq_refl].
Qed.
Lemma accepted_snoc : forall ks seen k,
  accepted_from seen (ks ++ [k]) = accepted_from seen ks
    ++ (if existsb (beq (kName k)) (seen ++ names_of ks) then [] else [k]).
Proof.
  induction ks as [|x ks IH]; intros seen k; cbn [app accepted_from names_of map].
  - rewrite app_nil_r. destruct (existsb (beq (kName k)) seen); reflexivity.
  - change (map kName ks) with (names_of ks). destruct (existsb (beq (kName x)) seen) eqn:E.
    + rewrite IH. f_equal.
      replace (existsb (beq (kName k)) (seen ++ kName x :: names_of ks))
        with (existsb (beq (kName k)) (seen ++ names_of ks)); [reflexivity|].
      rewrite !existsb_app. cbn [existsb].
      destruct (beq (kName k) (kName x)) eqn:F; [|reflexivity]. apply beq_eq in F. rewrite F, E. reflexivity.
    + rewrite IH. cbn [app]. f_equal. f_equal.
      replace (existsb (beq (kName k)) (kName x :: seen ++ names_of ks))
        with (existsb (beq (kName k)) (seen ++ kName x :: names_of ks)); [reflexivity|].
      cbn [existsb]. rewrite !existsb_app. cbn [existsb].
      destruct (existsb (beq (kName k)) seen); destruct (beq (kName k) (kName x)); reflexivity.
Qed.
Lemma accepted_In : forall ks seen k, In k (accepted_from seen ks) -> In k ks.
Proof.
  induction ks as [|x ks IH]; intros seen k H; [exact H|]. cbn [accepted_from] in H.
  destruct (existsb (beq (kName x)) seen); [right; eapply IH; exact H|].
  destruct H as [H|H]; [left; exact H|right; eapply IH; exact H].
Qed.

Lemma variant_total : forall k, variant k = Val (selected_name k).
Proof.
  intro k. unfold selected_name, variant, isCharWithVariationSelector.
  destruct ((3 + 2 <=? len (kName k)) && (len (kName k) <=? 3 + 4)); [|reflexivity].
  destruct (vs_total (skipn (List.length (kName k) - 3) (kName k))) as [b ->]. reflexivity.
Qed.

Lemma find_snoc : forall A (P : A -> bool) l x,
  find P (l ++ [x]) = match find P l with Some y => Some y | None => if P x then Some x else None end.
Proof. intros A P. induction l as [|y l IH]; intro x; cbn [app find]; [reflexivity|]. destruct (P y); [reflexivity|apply IH]. Qed.
Lemma madd_find : forall V k (v : V) s m, msorted m ->
  mfind s (madd k v m) = if beq k s then Some v else mfind s m.
Proof.
  intros V k v s m H. unfold madd. destruct (beq k s) eqn:E.
  - apply beq_eq in E. subst s. rewrite mupdate_same by exact H. reflexivity.
  - apply beq_neq in E. rewrite mupdate_other by congruence. reflexivity.
Qed.

(** what the tables hold after a sequence of insertions *)
Record Rep (ks : list Kanji) (d : Data) : Prop := {
  rep_sorted : msorted (dNames d);
  rep_sorted2 : msorted (dCompat d);
  rep_names : forall s, mfind s (dNames d) = find (fun k => beq (kName k) s) ks;
  rep_compat : forall s, mfind s (dCompat d) = option_map kName (find (variant_of s) (accepted ks));
  rep_moro : forall id, alist idEqb id (dMoro d)
    = filter (fun k => negb (fst (kMorohashi k) =? 0) && idEqb (kMorohashi k) id) (accepted ks);
  rep_nelson : forall id, alist N.eqb id (dNelson d)
    = flat_map (fun k => repeat k (count_occ N.eq_dec (kNelson k) id)) (accepted ks);
  rep_grade : forall g, alist N.eqb (gradeNumber g) (dGrades d)
    = filter (fun k => hasGrade k && (gradeNumber (kGrade k) =? gradeNumber g)) (accepted ks)
}.
Lemma find_name_None : forall s ks, find (fun k => beq (kName k) s) ks = None <-> ~ In s (names_of ks).
Proof.
  intros s ks. unfold names_of. induction ks as [|k ks IH]; cbn [find map].
  - split; auto.
  - destruct (beq (kName k) s) eqn:E.
    + apply beq_eq in E. split; [discriminate|]. intro H. exfalso. apply H. left. exact E.
    + apply beq_neq in E. rewrite IH. cbn [In]. split; intro H; [intros [K|K]; auto|auto].
Qed.
Lemma Rep_new : forall m, Rep [] (newData m).
Proof. intro m. split; try reflexivity; try apply msorted_nil. Qed.
Lemma Rep_insert : forall ks d k, Rep ks d -> exists d' b, checkInsert d k = Val (d', b)
  /\ Rep (ks ++ [k]) d' /\ (b = true <-> ~ In (kName k) (names_of ks)).
Proof.
  intros ks d k R. unfold checkInsert. rewrite (rep_names _ _ R).
  assert (Ha : accepted (ks ++ [k]) = accepted ks ++ (if existsb (beq (kName k)) (names_of ks) then [] else [k])).
  { unfold accepted. rewrite accepted_snoc. reflexivity. }
  destruct (find (fun x => beq (kName x) (kName k)) ks) as [x|] eqn:E.
  - exists d, false. split; [reflexivity|].
    assert (Hin : In (kName k) (names_of ks)).
    { destruct (in_dec bytes_eq_dec (kName k) (names_of ks)) as [H|H]; [exact H|].
      apply find_name_None in H. congruence. }
    split; [|split; [discriminate|contradiction]].
    replace (existsb (beq (kName k)) (names_of ks)) with true in Ha by (symmetry; apply existsb_In; exact Hin).
    rewrite app_nil_r in Ha.
    split; try rewrite Ha; try apply R. intro s. rewrite find_snoc, (rep_names _ _ R).
    destruct (find (fun k0 => beq (kName k0) s) ks) eqn:F; [reflexivity|].
    destruct (beq (kName k) s) eqn:G; [|reflexivity]. apply beq_eq in G. subst s. congruence.
  - apply find_name_None in E as Hn.
    replace (existsb (beq (kName k)) (names_of ks)) with false in Ha
      by (symmetry; apply not_true_is_false; rewrite existsb_In; exact Hn).
    rewrite variant_total. cbn [obind].
    eexists. exists true. split; [reflexivity|]. split; [|split; auto].
    split; cbn [dNames dCompat dMoro dNelson dGrades]; try rewrite Ha.
    + apply mupdate_sorted. apply R.
    + destruct (selected_name k); [|apply R]. destruct (mfind (compatibilityName k) (dCompat d)); [apply R|].
      apply mupdate_sorted. apply R.
    + intro s. rewrite find_snoc, madd_find by apply R. rewrite (rep_names _ _ R).
      destruct (beq (kName k) s) eqn:G; [|destruct (find (fun k0 => beq (kName k0) s) ks); reflexivity].
      apply beq_eq in G. subst s. rewrite E. reflexivity.
    + intro s. rewrite find_snoc. pose proof (rep_compat _ _ R) as C.
      unfold variant_of at 2. destruct (selected_name k) eqn:S; cbn [andb].
      * rewrite (C (compatibilityName k)).
        destruct (find (variant_of (compatibilityName k)) (accepted ks)) as [y|] eqn:F; cbn [option_map].
        -- rewrite C. destruct (find (variant_of s) (accepted ks)) eqn:G; [reflexivity|].
           destruct (beq (compatibilityName k) s) eqn:H; [|reflexivity]. apply beq_eq in H. subst s. congruence.
        -- rewrite madd_find by apply R. destruct (beq (compatibilityName k) s) eqn:H.
           ++ apply beq_eq in H. subst s. rewrite F. reflexivity.
           ++ rewrite C. destruct (find (variant_of s) (accepted ks)); reflexivity.
      * rewrite C. destruct (find (variant_of s) (accepted ks)); reflexivity.
    + intro id. rewrite filter_app. cbn [filter]. rewrite <- (rep_moro _ _ R id).
      destruct (fst (kMorohashi k) =? 0); cbn [negb andb]; [rewrite app_nil_r; reflexivity|].
      rewrite (alist_append idEqb idEqb_eq). destruct (idEqb (kMorohashi k) id); reflexivity.
    + intro id. rewrite nelson_fold, flat_map_app, (rep_nelson _ _ R). cbn [flat_map]. rewrite app_nil_r. reflexivity.
    + intro g. rewrite filter_app. cbn [filter]. rewrite <- (rep_grade _ _ R g).
      destruct (hasGrade k); cbn [negb andb]; [|rewrite app_nil_r; reflexivity].
      rewrite (alist_append N.eqb N.eqb_eq). destruct (gradeNumber (kGrade k) =? gradeNumber g); reflexivity.
Qed.
Lemma insertAll_app : forall a b d, insertAll d (a ++ b) = obind (insertAll d a) (fun x => insertAll x b).
Proof.
  induction a as [|k a IH]; intros b d; [reflexivity|]. cbn [app insertAll].
  destruct (checkInsert d k) as [[d' r]| | |]; cbn [obind]; try reflexivity. apply IH.
Qed.
Lemma insertAll_rep : forall m ks, exists d, insertAll (newData m) ks = Val d /\ Rep ks d.
Proof.
  intros m ks. induction ks as [|k ks IH] using rev_ind.
  - exists (newData m). split; [reflexivity|apply Rep_new].
  - destruct IH as [d [E R]]. destruct (Rep_insert ks d k R) as [d' [b [E2 [R2 _]]]].
    exists d'. split; [|exact R2]. rewrite insertAll_app, E. cbn [obind insertAll]. rewrite E2. reflexivity.
Qed.
Lemma insertAll_fun : forall m ks d, insertAll (newData m) ks = Val d -> Rep ks d.
Proof. intros m ks d H. destruct (insertAll_rep m ks) as [d' [E R]]. congruence. Qed.

(** an accepted Kanji is the first with its name *)
Lemma accepted_first : forall ks seen k, In k (accepted_from seen ks) -> find (fun x => beq (kName x) (kName k)) ks = Some k /\ ~ In (kName k) seen.
Proof.
  induction ks as [|x ks IH]; intros seen k H; [destruct H|]. cbn [accepted_from] in H. cbn [find].
  destruct (existsb (beq (kName x)) seen) eqn:E.
  - destruct (IH seen k H) as [F N]. split; [|exact N]. rewrite F.
    destruct (beq (kName x) (kName k)) eqn:G; [|reflexivity].
    apply beq_eq in G. apply existsb_In in E. congruence.
  - destruct H as [H|H].
    + subst x. rewrite beq_refl. split; [reflexivity|]. intro K. apply existsb_In in K. congruence.
    + destruct (IH _ k H) as [F N]. cbn [In] in N. split; [|tauto]. rewrite F.
      destruct (beq (kName x) (kName k)) eqn:G; [|reflexivity]. apply beq_eq in G. exfalso. apply N. left. exact G.
Qed.
Lemma findByName_spec : forall ks d, Rep ks d -> forall s,
  findByName d s = match find (variant_of s) (accepted ks) with
                   | Some v => Some v
                   | None => find (fun k => beq (kName k) s) ks
                   end.
Proof.
  intros ks d R s. unfold findByName. rewrite (rep_compat _ _ R s).
  destruct (find (variant_of s) (accepted ks)) as [v|] eqn:E; cbn [option_map]; rewrite (rep_names _ _ R); [|reflexivity].
  apply find_some in E. destruct E as [Hin _]. exact (proj1 (accepted_first ks [] v Hin)).
Qed.
