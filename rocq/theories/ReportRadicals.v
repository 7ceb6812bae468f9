(** Lemmas about the report on radicals. *)
From Verif Require Import BaseFacts MapProofs RadicalSpec RadicalProofs DataProofs StatsProofs LoadModel LoadSpec LoadProofs LoadAttr LoadPhases LoadLists LoadEnv LoadWhole LoadMade LoadFacts
  KanjiSpec KanjiProofs DetailsSpec DetailsReview DetailsFacts ReportModel ReportSpec ReportProofs.
Arguments N.mul : simpl never. Arguments N.add : simpl never. Arguments N.sub : simpl never.
Arguments N.div : simpl never.

(** * The Kanji of each radical *)

Definition has_number (n : N) (k : Kanji) : bool := kRadicalNumber k =? n.
Definition in_use (l : list Kanji) (r : Radical) : bool := existsb (has_number (radNumber r)) l.
Definition radical_entry (l : list Kanji) (r : Radical) : (N * bytes) * list Kanji :=
  ((radNumber r, radName r), filter (has_number (radNumber r)) l).
Definition radical_map (rl : list Radical) (l : list Kanji) : RadicalLists := map (radical_entry l) (filter (in_use l) rl).
Definition increasing (rl : list Radical) : Prop := StronglySorted (fun a b => radNumber a < radNumber b) rl.
Lemma filter_snoc : forall A (p : A -> bool) l x, filter p (l ++ [x]) = filter p l ++ (if p x then [x] else []).
Proof. intros A p l x. rewrite filter_app. cbn [filter]. destruct (p x); reflexivity. Qed.
Lemma in_use_snoc : forall l k r, in_use (l ++ [k]) r = in_use l r || has_number (radNumber r) k.
Proof. intros l k r. unfold in_use. rewrite existsb_app. cbn [existsb]. rewrite orb_false_r. reflexivity. Qed.
Lemma map_other : forall rl l k, Forall (fun r => radNumber r <> kRadicalNumber k) rl -> radical_map rl (l ++ [k]) = radical_map rl l.
Proof.
  intros rl l k H. unfold radical_map. induction H as [|r rl H _ IH]; [reflexivity|]. cbn [filter]. rewrite in_use_snoc.
  assert (E : has_number (radNumber r) k = false) by (unfold has_number; apply N.eqb_neq; congruence). rewrite E, orb_false_r.
  destruct (in_use l r); [|exact IH]. cbn [map]. f_equal; [|exact IH]. unfold radical_entry. rewrite filter_snoc, E, app_nil_r. reflexivity.
Qed.
Lemma absent_nil : forall A (p : A -> bool) l, existsb p l = false -> filter p l = [].
Proof. intros A p l H. rewrite existsb_filter in H. destruct (filter p l); [reflexivity|discriminate]. Qed.
Lemma add_below : forall m k, Forall (fun e => kRadicalNumber k < fst (fst e)) m ->
  addToRadical k m = ((kRadicalNumber k, kRadicalName k), [k]) :: m.
Proof. intros m k H. destruct H as [|[[n s] l] m H _]; [reflexivity|]. cbn [addToRadical fst] in *. replace (kRadicalNumber k <? n) with true by lia. reflexivity. Qed.
Lemma add_step : forall rl l k r, increasing rl -> In r rl -> radNumber r = kRadicalNumber k -> radName r = kRadicalName k ->
  addToRadical k (radical_map rl l) = radical_map rl (l ++ [k]).
Proof.
  intros rl l k r H. induction H as [|x rl S IH Hx]; intros Hr E1 E2; [destruct Hr|].
  unfold radical_map. cbn [filter]. rewrite in_use_snoc. destruct Hr as [->|Hr].
  - assert (N1 : has_number (radNumber r) k = true) by (unfold has_number; apply N.eqb_eq; congruence). rewrite N1, orb_true_r.
    assert (O : Forall (fun r => radNumber r <> kRadicalNumber k) rl) by (eapply Forall_impl; [|exact Hx]; cbn; intros; lia).
    pose proof (map_other rl l k O) as M. unfold radical_map in M. destruct (in_use l r) eqn:U; cbn [map].
    + unfold radical_entry at 1. cbn [addToRadical]. replace (kRadicalNumber k <? radNumber r) with false by lia.
      replace (kRadicalNumber k =? radNumber r) with true by lia. f_equal; [|symmetry; exact M].
      unfold radical_entry. rewrite filter_snoc, N1. reflexivity.
    + rewrite add_below.
      * f_equal; [|symmetry; exact M]. unfold radical_entry. rewrite filter_snoc, N1, (absent_nil _ _ _ U). cbn [app]. rewrite E1, E2. reflexivity.
      * apply Forall_forall. intros e He. apply in_map_iff in He. destruct He as [y [<- Hy]]. apply filter_In in Hy. destruct Hy as [Hy _].
        rewrite Forall_forall in Hx. specialize (Hx y Hy). cbn [radical_entry fst]. lia.
  - assert (L : radNumber x < kRadicalNumber k) by (rewrite Forall_forall in Hx; specialize (Hx r Hr); cbn in Hx; lia).
    assert (N1 : has_number (radNumber x) k = false) by (unfold has_number; apply N.eqb_neq; lia). rewrite N1, orb_false_r.
    specialize (IH Hr E1 E2). unfold radical_map in IH. destruct (in_use l x) eqn:U; [|exact IH]. cbn [map].
    unfold radical_entry at 1. cbn [addToRadical]. replace (kRadicalNumber k <? radNumber x) with false by lia.
    replace (kRadicalNumber k =? radNumber x) with false by lia. f_equal; [|exact IH]. unfold radical_entry. rewrite filter_snoc, N1, app_nil_r. reflexivity.
Qed.
Definition known_radical (rl : list Radical) (k : Kanji) : Prop := exists r, In r rl /\ radNumber r = kRadicalNumber k /\ radName r = kRadicalName k.
Definition common (k : Kanji) : bool := in_common_block (kName k).
Lemma collect_spec : forall rl, increasing rl -> forall ns l, Forall (fun e => bytes_ok (kName (snd e)) /\ known_radical rl (snd e)) ns ->
  collectRadicals ns (radical_map rl l) = Val (radical_map rl (l ++ filter common (map snd ns))).
Proof.
  intros rl S. induction ns as [|[n k] ns IH]; intros l H; [cbn; rewrite app_nil_r; reflexivity|]. inversion H as [|? ? [B [r [R1 [R2 R3]]]] H']; subst. cbn [snd] in *.
  cbn [collectRadicals map filter snd]. destruct (range_total (kName k) true [CommonKanjiBlocks] B) as [c E]. fold (isCommonKanji (kName k) true) in E.
  unfold common at 1, in_common_block. rewrite E. cbn [obind]. destruct c; [|apply IH; exact H'].
  rewrite (add_step rl l k r S R1 R2 R3), IH by exact H'. rewrite <- app_assoc. reflexivity.
Qed.
Lemma map_nil : forall rl, radical_map rl [] = [].
Proof. intro rl. unfold radical_map. replace (filter (in_use []) rl) with (@nil Radical); [reflexivity|]. induction rl; [reflexivity|exact IHrl]. Qed.

(** * Counting types *)

Lemma countOf_bump : forall t x c, countOf t (bump x c) = countOf t c + (if x =? t then 1 else 0).
Proof.
  intros t x. induction c as [|[y n] c IH]; cbn [bump countOf].
  - destruct (x =? t); reflexivity.
  - destruct (N.eqb_spec y x) as [->|Hy]; cbn [countOf].
    + destruct (x =? t); lia.
    + destruct (N.eqb_spec y t) as [->|Ht]; [|exact IH]. replace (x =? t) with false by lia. lia.
Qed.
Definition total_of (c : list (N * N)) : N := fold_right (fun y x => snd y + x) 0 c.
Lemma total_bump : forall x c, total_of (bump x c) = total_of c + 1.
Proof.
  intros x. induction c as [|[y n] c IH]; [reflexivity|]. cbn [bump]. destruct (y =? x); unfold total_of in *; cbn [fold_right snd] in *; lia.
Qed.
Lemma total_fold : forall c x, fold_left (fun x y => x + snd y) c x = x + total_of c.
Proof. induction c as [|[y n] c IH]; intro x; [cbn; lia|]. cbn [fold_left]. rewrite IH. unfold total_of. cbn [fold_right snd]. lia. Qed.
Definition tally (l : list Kanji) (c : list (N * N)) : list (N * N) := fold_left (fun c j => bump (kanjiTypeNumber (kType j)) c) l c.
Lemma countOf_tally : forall t l c, countOf (kanjiTypeNumber t) (tally l c) = countOf (kanjiTypeNumber t) c + count (type_is t) l.
Proof.
  intros t. induction l as [|k l IH]; intro c; [cbn; lia|]. unfold tally in *. cbn [fold_left]. rewrite IH, countOf_bump, count_cons. change (type_is t k) with (kanjiTypeNumber (kType k) =? kanjiTypeNumber t).
  destruct (kanjiTypeNumber (kType k) =? kanjiTypeNumber t); lia.
Qed.
Lemma total_tally : forall l c, total_of (tally l c) = total_of c + len l.
Proof. induction l as [|k l IH]; intro c; [change (total_of c = total_of c + 0); lia|]. unfold tally in *. cbn [fold_left]. rewrite IH, total_bump, len_cons. lia. Qed.
Lemma printCounts_spec : forall c n (f : KanjiTypes -> N) summary, total_of c = n -> (forall t, countOf (kanjiTypeNumber t) c = f t) ->
  printCounts c summary = column n ++ b_ " ("
    ++ (if summary : bool then separated (b_ " ") (map (fun t => to_string (f t)) real_types) ++ b_ ")" ++ [10]
        else flat_map (fun t => column (f t)) real_types ++ b_ ") :").
Proof.
  intros c n f summary H1 H2. unfold printCounts. rewrite total_fold, N.add_0_l, H1. unfold four at 1. fold (column n). f_equal. f_equal.
  unfold AllKanjiTypes. cbn [typeColumns]. rewrite !H2. unfold real_types. destruct summary; cbn [separated map flat_map]; unfold four, putSetw, column;
  rewrite <- ?app_assoc; reflexivity.
Qed.
Lemma count_perm : forall A (p : A -> bool) l m, Permutation l m -> count p l = count p m.
Proof. intros A p l m H. induction H; rewrite ?count_cons; try lia. Qed.
Lemma len_perm : forall A (l m : list A), Permutation l m -> len l = len m.
Proof. intros A l m H. unfold len. rewrite (Permutation_length H). reflexivity. Qed.

(** * The lines *)

Lemma names_map : forall l, names_of (map kName l) = flat_map (fun j => b_ " " ++ kName j) l.
Proof. intro l. unfold names_of. rewrite !flat_map_concat_map, map_map. reflexivity. Qed.
Section Lines.
  Variable sort : list Kanji -> list Kanji.
  Lemma radicalLine : forall r l, radicalText (radNumber r) (radName r) ++ b_ ":" ++ printCounts (tally l []) false
      ++ flat_map (fun j => b_ " " ++ kName j) (firstn MaxExamples l) ++ (if Nat.ltb MaxExamples (List.length l) then b_ " ..." else []) ++ [10]
    = radical_line r l.
  Proof.
    intros r l. rewrite (printCounts_spec (tally l []) (len l) (fun t => count (type_is t) l) false).
    - unfold radical_line, radicalText, radical_title, putSetw, MaxExamples. rewrite names_map, <- !app_assoc.
      replace (12 <? len l) with (Nat.ltb 12 (List.length l)) by (unfold len; destruct (Nat.ltb_spec 12 (List.length l)); symmetry; lia).
      reflexivity.
    - rewrite total_tally. reflexivity.
    - intro t. rewrite countOf_tally. reflexivity.
  Qed.
  Lemma radicalLines_spec : forall l rs c, exists c', radicalLines sort (map (radical_entry l) rs) c
      = (flat_map (fun '(r, l) => radical_line r l) (combine rs (map (fun r => sort (filter (has_number (radNumber r)) l)) rs)), c')
    /\ total_of c' = total_of c + sum (map (fun r => len (sort (filter (has_number (radNumber r)) l))) rs)
    /\ forall t, countOf (kanjiTypeNumber t) c' = countOf (kanjiTypeNumber t) c + sum (map (fun r => count (type_is t) (sort (filter (has_number (radNumber r)) l))) rs).
  Proof.
    intros l. induction rs as [|r rs IH]; intro c.
    - exists c. split; [reflexivity|]. cbn. split; [lia|intro t; lia].
    - cbn [map radicalLines radical_entry]. set (x := sort (filter (has_number (radNumber r)) l)).
      destruct (IH (tally x c)) as [c' [E [T C]]]. exists c'. unfold tally in E. rewrite E. split.
      + cbn [combine flat_map]. f_equal. rewrite <- radicalLine. unfold tally. rewrite <- !app_assoc. reflexivity.
      + rewrite !sum_cons. rewrite T, total_tally. split; [lia|]. intro t. rewrite C, countOf_tally, sum_cons. lia.
  Qed.
End Lines.
Lemma count_filter_comm : forall A (p q : A -> bool) l, count p (filter q l) = count q (filter p l).
Proof.
  intros A p q l. unfold count. rewrite !filter_filter. f_equal. apply filter_ext. intro x. apply andb_comm.
Qed.
Lemma one_radical : forall rl k, increasing rl -> known_radical rl k -> count (fun r => has_number (radNumber r) k) rl = 1.
Proof.
  intros rl k H [r [R1 [R2 _]]]. induction H as [|x rl S IH Hx]; [destruct R1|]. rewrite count_cons. unfold has_number at 1. rewrite Forall_forall in Hx.
  destruct R1 as [->|R1].
  - replace (kRadicalNumber k =? radNumber r) with true by lia.
    assert (Z : count (fun r => has_number (radNumber r) k) rl = 0); [|rewrite Z; reflexivity]. apply absent_zero.
    destruct (existsb _ rl) eqn:E; [|reflexivity]. apply existsb_exists in E. destruct E as [y [Hy E]]. specialize (Hx y Hy). unfold has_number in E. lia.
  - specialize (IH R1). specialize (Hx r R1). cbn in Hx. replace (kRadicalNumber k =? radNumber x) with false by lia. rewrite IH. reflexivity.
Qed.
Lemma radicals_part : forall rl l, increasing rl -> Forall (known_radical rl) l -> parts l (fun r => has_number (radNumber r)) rl.
Proof. intros rl l S H k Hk. rewrite Forall_forall in H. apply one_radical; auto. Qed.

Lemma print_radicals : forall sort rl d rd, radList rd = rl -> increasing rl ->
  (forall l, Forall kanji_ok l -> Permutation (sort l) l /\ in_order orderByStrokes (sort l)) ->
  Forall (fun e => bytes_ok (kName (snd e)) /\ kanji_ok (snd e) /\ known_radical rl (snd e)) (dNames d) ->
  exists t, printRadicals sort rd d = Val t /\ radicals_report rd d t.
Proof.
  intros sort rl d rd L S Hs H. unfold printRadicals. rewrite <- (map_nil rl), (collect_spec rl S).
  2:{ eapply Forall_impl; [|exact H]. cbn. tauto. }
  cbn [obind app]. change (filter common (map snd (dNames d))) with (common_loaded d). eexists. split; [reflexivity|].
  set (cl := common_loaded d). assert (K : Forall kanji_ok cl /\ Forall (known_radical rl) cl).
  { split; apply Forall_forall; intros k Hk; unfold cl, common_loaded in Hk; apply filter_In in Hk; destruct Hk as [Hk _]; apply in_map_iff in Hk; destruct Hk as [e [<- He]];
      rewrite Forall_forall in H; apply (H e He). }
  destruct K as [K1 K2]. unfold radical_map. set (rs := filter (in_use cl) rl).
  assert (Ks : forall n, Forall kanji_ok (filter (has_number n) cl)) by (intro n; apply Forall_forall; intros k Hk; apply filter_In in Hk; rewrite Forall_forall in K1; apply K1; apply Hk).
  unfold radicals_report. rewrite L. change (filter (used d) rl) with rs. exists (map (fun r => sort (filter (has_number (radNumber r)) cl)) rs). split.
  { clear - Hs Ks. induction rs as [|r rs IH]; constructor; [|exact IH]. apply Hs. apply Ks. }
  unfold printRadicalLists. destruct (radicalLines_spec sort cl rs []) as [c [E [T C]]]. rewrite E.
  rewrite (printCounts_spec c (len cl) (fun t => count (type_is t) cl) true).
  - unfold printMissingRadicals. rewrite L.
    replace (filter (fun i => negb (existsb (fun e => fst (fst e) =? radNumber i) (map (radical_entry cl) rs))) rl) with (filter (fun r => negb (used d r)) rl).
    + unfold line, logText. change (separated (b_ " ") (map typeToString real_types)) with (typeTitles AllKanjiTypes).
      replace (len (map (radical_entry cl) rs)) with (len rs) by (unfold len; rewrite map_length; reflexivity).
      assert (R : forall m, flat_map (fun i => b_ " " ++ radicalText (radNumber i) (radName i)) m = names_of (map radical_title m))
        by (intro m; unfold names_of; rewrite !flat_map_concat_map, map_map; f_equal; apply map_ext; intro r; unfold radicalText, radical_title, putSetw; rewrite <- !app_assoc; reflexivity).
      destruct (filter (fun r => negb (used d r)) rl) as [|x m].
      * rewrite <- !app_assoc. reflexivity.
      * rewrite R. rewrite len_cons. destruct m as [|y m]; [rewrite <- !app_assoc; reflexivity|].
        rewrite len_cons. replace (1 <? 1 + (1 + len m)) with true by lia. replace (1 + (1 + len m) =? 1) with false by lia. rewrite <- !app_assoc. reflexivity.
    + apply filter_ext_in. intros r Hr. f_equal. change (used d r) with (in_use cl r). destruct (in_use cl r) eqn:U.
      * symmetry. apply existsb_exists. exists (radical_entry cl r). split; [apply in_map; apply filter_In; auto|]. cbn [radical_entry fst]. apply N.eqb_refl.
      * symmetry. destruct (existsb _ _) eqn:X; [|reflexivity]. apply existsb_exists in X. destruct X as [e [He X]]. apply in_map_iff in He. destruct He as [y [<- Hy]].
        apply filter_In in Hy. destruct Hy as [Hy Hu]. cbn [radical_entry fst] in X. apply N.eqb_eq in X. unfold in_use in *. rewrite X in Hu. congruence.
  - rewrite T. cbn [total_of fold_right]. rewrite N.add_0_l.
    rewrite <- (parts_sum _ _ _ rl cl (radicals_part rl cl S K2)). unfold rs.
    rewrite <- (sum_present _ (fun r => count (has_number (radNumber r)) cl) (in_use cl)) by (intros r U; apply absent_zero; exact U).
    f_equal. apply map_ext. intro r. unfold count. apply len_perm. apply Hs. apply Ks.
  - intro t. rewrite C. cbn [countOf]. rewrite N.add_0_l.
    assert (K3 : Forall (known_radical rl) (filter (type_is t) cl)) by (apply Forall_forall; intros k Hk; apply filter_In in Hk; rewrite Forall_forall in K2; apply K2; apply Hk).
    change (count (type_is t) cl) with (len (filter (type_is t) cl)). rewrite <- (parts_sum _ _ _ rl _ (radicals_part rl _ S K3)). unfold rs.
    rewrite <- (sum_present _ (fun r => count (has_number (radNumber r)) (filter (type_is t) cl)) (in_use cl)).
    + f_equal. apply map_ext. intro r. rewrite (count_perm _ _ _ _ (proj1 (Hs _ (Ks (radNumber r))))). apply count_filter_comm.
    + intros r U. rewrite count_filter_comm. rewrite (absent_nil _ _ _ U). reflexivity.
Qed.

(** * Loaded data *)

Lemma mades_increasing : forall rows n, increasing (mades n rows).
Proof.
  induction rows as [|r rows IH]; intro n; [constructor|]. cbn [mades]. constructor; [apply IH|]. apply Forall_forall. intros x Hx.
  apply In_nth_error in Hx. destruct Hx as [i Hi]. rewrite mades_nth in Hi. destruct (nth_error rows i) as [row|]; [|discriminate]. cbn [option_map] in Hi.
  inversion Hi as [E]. unfold RadicalProofs.made. cbn [radNumber]. destruct (names_in r), (names_in row); cbn [radNumber]; lia.
Qed.
Lemma byName_in : forall rd s r, radicalByName rd s = Val r -> In r (radList rd).
Proof.
  intros rd s r H. unfold radicalByName in H. destruct (radList rd) eqn:E; [discriminate|]. rewrite <- E in *. destruct (mfind s (radMap rd)) as [i|]; [|discriminate].
  destruct (nth_error (radList rd) (N.to_nat i)) eqn:X; [|discriminate]. inversion H; subst. eapply nth_error_In; exact X.
Qed.
Lemma byNumber_in : forall rd n r, radicalByNumber rd n = Val r -> In r (radList rd).
Proof.
  intros rd n r H. unfold radicalByNumber in H. destruct (radList rd) eqn:E; [discriminate|]. rewrite <- E in *. destruct ((n =? 0) || (len (radList rd) <? n)); [discriminate|].
  destruct (nth_error (radList rd) (N.to_nat (n - 1))) eqn:X; [|discriminate]. inversion H; subst. eapply nth_error_In; exact X.
Qed.
Lemma new_known : forall e name u r s t f g q l nn on b x k, newKanji e name u r s t f g q l nn on b x = Val k -> In r (radList (envRadicals e)) ->
  known_radical (radList (envRadicals e)) k.
Proof. intros e name u r s t f g q l nn on b x k H R. unfold newKanji in H. peel H c E. inversion H; subst. exists r. auto. Qed.
Lemma other_known : forall e n u r t f q k, makeOther e n u r t f q = Val k -> known_radical (radList (envRadicals e)) k.
Proof.
  intros e n u r t f q k H. unfold makeOther in H. peel H a E1. peel H rad E2. peel H c E3.
  eapply new_known; [exact H|]. destruct u; [|discriminate]. eapply byNumber_in; exact E2.
Qed.
Lemma made_known : forall e k, made e k -> known_radical (radList (envRadicals e)) k.
Proof.
  intros e k H. destruct H as [r H|r H|r H|b link H|i H|v H|n u _ H].
  - unfold makeJouyou in H. peel H a E1. peel H u E2. peel H rad E3. peel H n E4. peel H y E5. peel H g E6.
    eapply new_known; [exact H|]. eapply byName_in; exact E3.
  - unfold makeJinmei in H. peel H a E1. peel H u E2. peel H rad E3. peel H n E4. peel H y E5. peel H g E6.
    eapply new_known; [exact H|]. eapply byName_in; exact E2.
  - unfold makeExtra in H. peel H a E1. peel H u E2. peel H rad E3. peel H n E4.
    eapply new_known; [exact H|]. eapply byName_in; exact E3.
  - unfold makeLinked in H. destruct (match kType link with Jouyou => false | Jinmei => b | _ => true end); [discriminate|]. peel H u E1. peel H rad E2. peel H s E3.
    eapply new_known; [exact H|]. destruct u; [|discriminate]. eapply byNumber_in; exact E2.
  - unfold makeFrequency in H. peel H u E. eapply other_known; exact H.
  - unfold makeKentei in H. peel H u E. eapply other_known; exact H.
  - unfold makeUcdKanji in H. eapply other_known; exact H.
Qed.
Lemma sorts_strokes : forall sort, sorts orderByStrokes sort -> forall l, Forall kanji_ok l -> Permutation (sort l) l /\ in_order orderByStrokes (sort l).
Proof.
  intros sort H l K. apply H. apply (strict_weak_sub _ _ kanji_ok); [|exact strokes_strict_weak]. apply Forall_forall. exact K.
Qed.
Lemma radicals_loaded : forall ltr f st m e d sort, files_ok f -> loadData ltr f st m = Val (e, d) ->
  (forall k, loaded_kanji d k -> bytes_ok (kName k) /\ kanji_ok k) -> sorts orderByStrokes sort ->
  exists t, printRadicals sort (envRadicals e) d = Val t /\ radicals_report (envRadicals e) d t.
Proof.
  intros ltr f st m e d sort Hf H Hb Hs. destruct (loadData_loaded ltr f st m e d Hf H) as [O [M [js [ms [xs [lss [kss L]]]]]]].
  assert (W : Wf d) by (apply L).
  eapply print_radicals; [reflexivity| |apply sorts_strokes; exact Hs|].
  - destruct (loaded _ _ (en_radicals f e O)) as [-> _]. apply mades_increasing.
  - apply Forall_forall. intros [n k] Hk. cbn [snd]. pose proof (wf_names d W) as Ws.
    assert (F : mfind n (dNames d) = Some k) by (apply mfind_In; assumption). pose proof (wf_own d W n k F) as E. subst n. destruct (Hb k Hk) as [B1 B2]. split; [exact B1|]. split; [exact B2|].
    apply made_known. eapply M. exact F.
Qed.
