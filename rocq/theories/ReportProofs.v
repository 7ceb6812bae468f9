(** Lemmas about the reports: counts, grades, levels, kyus and strokes. *)
From Verif Require Import BaseFacts DataProofs ReportModel ReportSpec.
Open Scope N_scope.
Arguments N.mul : simpl never. Arguments N.add : simpl never. Arguments N.sub : simpl never.
Arguments N.pow : simpl never. Arguments N.eqb : simpl never. Arguments N.ltb : simpl never. Arguments N.leb : simpl never.

(** * Lists *)

Lemma len_cons : forall A (x : A) l, len (x :: l) = 1 + len l.
Proof. intros. unfold len. cbn [List.length]. lia. Qed.
Lemma len_app : forall A (a b : list A), len (a ++ b) = len a + len b.
Proof. intros. unfold len. rewrite app_length. lia. Qed.
Lemma len_nil : forall A (l : list A), len l = 0 <-> l = [].
Proof. intros. unfold len. destruct l; cbn [List.length]; split; intro; try reflexivity; try discriminate; lia. Qed.
Lemma countIf_spec : forall A (p : A -> bool) l, countIf p l = count p l.
Proof.
  intros A p l. unfold count. induction l as [|x r IH]; [reflexivity|]. cbn [countIf filter]. rewrite IH.
  destruct (p x); [rewrite len_cons|]; lia.
Qed.
Lemma count_cons : forall A (p : A -> bool) x l, count p (x :: l) = (if p x then 1 else 0) + count p l.
Proof. intros. unfold count. cbn [filter]. destruct (p x); [rewrite len_cons|]; lia. Qed.
Lemma count_ext : forall A (p q : A -> bool) l, (forall x, p x = q x) -> count p l = count q l.
Proof. intros A p q l H. unfold count. rewrite (filter_ext p q H). reflexivity. Qed.
Lemma count_zero : forall A (p : A -> bool) l, (count p l =? 0) = negb (existsb p l).
Proof.
  intros A p l. induction l as [|x r IH]; [reflexivity|]. rewrite count_cons. cbn [existsb].
  destruct (p x); cbn [orb negb]; [apply N.eqb_neq; lia|]. replace (0 + count p r) with (count p r) by lia. exact IH.
Qed.
Lemma existsb_filter : forall A (p : A -> bool) l, existsb p l = match filter p l with [] => false | _ => true end.
Proof. intros A p l. induction l as [|x r IH]; [reflexivity|]. cbn [existsb filter]. destruct (p x); [reflexivity|exact IH]. Qed.
Lemma filter_filter : forall A (p q : A -> bool) l, filter p (filter q l) = filter (fun x => q x && p x) l.
Proof.
  intros A p q l. induction l as [|x r IH]; [reflexivity|]. cbn [filter]. destruct (q x); cbn [andb filter]; [|exact IH].
  destruct (p x); rewrite IH; reflexivity.
Qed.
Lemma flat_filter : forall A B (p : B -> bool) (f : A -> list B) l, filter p (flat_map f l) = flat_map (fun x => filter p (f x)) l.
Proof. intros A B p f l. induction l as [|x r IH]; [reflexivity|]. cbn [flat_map]. rewrite filter_app, IH. reflexivity. Qed.
Lemma len_flat : forall A B (f : A -> list B) l, len (flat_map f l) = fold_right (fun x n => len (f x) + n) 0 l.
Proof. intros A B f l. induction l as [|x r IH]; [reflexivity|]. cbn [flat_map fold_right]. rewrite len_app, IH. reflexivity. Qed.

(** * Numbers separated by commas while some are left *)

Fixpoint commaLoop (items : list (bytes * N)) (total : N) : bytes :=
  match items with
  | [] => []
  | (s, c) :: r => let total := sub64 total c in s ++ (if negb (total =? 0) then b_ ", " else []) ++ commaLoop r total
  end.
Definition sum (l : list N) : N := fold_right N.add 0 l.
Lemma sum_cons : forall x l, sum (x :: l) = x + sum l.
Proof. reflexivity. Qed.
Lemma sub64_le : forall a b, b <= a -> sub64 a b = a - b.
Proof. intros a b H. unfold sub64. replace (b <=? a) with true by lia. reflexivity. Qed.
Lemma commaLoop_spec : forall items, Forall (fun i => 0 < snd i) items ->
  commaLoop items (sum (map snd items)) = separated (b_ ", ") (map fst items).
Proof.
  induction items as [|[s c] r IH]; intro H; [reflexivity|]. inversion H as [|? ? H1 H2]; subst. cbn [snd] in H1.
  cbn [commaLoop map fst snd sum fold_right]. fold (sum (map snd r)). rewrite sub64_le by lia.
  replace (c + sum (map snd r) - c) with (sum (map snd r)) by lia. rewrite IH by exact H2.
  destruct r as [|[s' c'] r']; [cbn; rewrite app_nil_r; reflexivity|].
  inversion H2 as [|? ? H3 _]; subst. cbn [snd] in H3.
  replace (sum (map snd ((s', c') :: r')) =? 0) with false by (cbn [map snd sum fold_right]; lia). cbn [negb].
  reflexivity.
Qed.

(** * Type lists *)

Lemma lists_combined : forall d, combine AllKanjiTypes (typeLists d) = map (fun t => (t, type_list d t)) real_types.
Proof. intro d. reflexivity. Qed.
Lemma typeList_real : forall d t, In t real_types -> typeList d t = type_list d t.
Proof. intros d t H. cbn in H. repeat (destruct H as [<-|H]; [reflexivity|]). contradiction. Qed.

Lemma countIfOut_val : forall A (p : A -> out bool) q l, (forall x, p x = Val (q x)) -> countIfOut p l = Val (count q l).
Proof.
  intros A p q l H. induction l as [|x r IH]; [reflexivity|]. cbn [countIfOut]. rewrite H. cbn [obind]. rewrite IH. cbn [obind].
  rewrite count_cons. reflexivity.
Qed.
Lemma exampleLoop_spec : forall (p : Kanji -> out bool) q n, (forall x, p x = Val (q x)) -> forall l c names,
  exampleLoop p n l c names
  = Val (c + count q l, names ++ map kName (firstn (N.to_nat n - N.to_nat c) (filter q l))).
Proof.
  intros p q n H. induction l as [|x r IH]; intros c names.
  - cbn [exampleLoop filter]. rewrite firstn_nil. cbn [map]. rewrite app_nil_r. f_equal. f_equal. unfold count, len. cbn. lia.
  - cbn [exampleLoop filter]. rewrite H. cbn [obind]. rewrite count_cons. destruct (q x).
    + rewrite IH. f_equal. f_equal; [lia|]. destruct (c + 1 <=? n) eqn:E.
      * replace (N.to_nat n - N.to_nat c)%nat with (S (N.to_nat n - N.to_nat (c + 1))) by lia. cbn [firstn map].
        rewrite <- app_assoc. reflexivity.
      * replace (N.to_nat n - N.to_nat c)%nat with 0%nat by lia. replace (N.to_nat n - N.to_nat (c + 1))%nat with 0%nat by lia. reflexivity.
    + rewrite IH. reflexivity.
Qed.

Definition count_item (q : Kanji -> bool) (n : nat) (d : Data) (t : KanjiTypes) : KanjiTypes * N * list bytes :=
  (t, count q (type_list d t), map kName (firstn n (filter q (type_list d t)))).
Lemma countTypes_spec : forall d (p : Kanji -> out bool) q n, (forall x, p x = Val (q x)) -> forall ts counts total,
  countTypes p n (map (fun t => (t, type_list d t)) ts) counts total
  = Val (counts ++ map (count_item q (N.to_nat n) d) (filter (fun t => existsb q (type_list d t)) ts),
         total + sum (map (fun t => count q (type_list d t)) ts)).
Proof.
  intros d p q n H. induction ts as [|t r IH]; intros counts total.
  - cbn. rewrite app_nil_r. f_equal. f_equal. lia.
  - cbn [map countTypes].
    assert (E : (if negb (n =? 0) then exampleLoop p n (type_list d t) 0 [] else c <- countIfOut p (type_list d t) ;; Val (c, []))
                = Val (count q (type_list d t), map kName (firstn (N.to_nat n) (filter q (type_list d t))))).
    { destruct (n =? 0) eqn:En; cbn [negb].
      - apply N.eqb_eq in En. subst n. rewrite (countIfOut_val _ p q) by exact H. reflexivity.
      - rewrite (exampleLoop_spec p q n H). cbn [app]. replace (N.to_nat n - N.to_nat 0)%nat with (N.to_nat n) by lia. f_equal. }
    rewrite E. cbn [obind]. rewrite count_zero, negb_involutive. cbn [filter]. cbn [sum fold_right]. fold (sum (map (fun t => count q (type_list d t)) r)).
    destruct (existsb q (type_list d t)) eqn:Ex.
    + rewrite IH. cbn [map]. rewrite <- app_assoc. cbn [app]. f_equal. f_equal. lia.
    + rewrite IH. f_equal. f_equal. pose proof (count_zero _ q (type_list d t)) as Z. rewrite Ex in Z. cbn [negb] in Z. apply N.eqb_eq in Z. lia.
Qed.
Definition citem (x : KanjiTypes * N * list bytes) : bytes * N :=
  let '(t, c, names) := x in (entry (typeToString t) c ++ flat_map (fun j => b_ " " ++ j) names, c).
Lemma countItems_comma : forall l total, countItems l total = commaLoop (map citem l) total.
Proof.
  induction l as [|[[t c] names] r IH]; intro total; [reflexivity|]. cbn [countItems map commaLoop citem]. rewrite IH. unfold entry. rewrite <- !app_assoc. reflexivity.
Qed.
Lemma sum_present : forall A (f : A -> N) (p : A -> bool) l, (forall x, p x = false -> f x = 0) -> sum (map f (filter p l)) = sum (map f l).
Proof.
  intros A f p l H. induction l as [|x r IH]; [reflexivity|]. cbn [filter]. destruct (p x) eqn:E; cbn [map].
  - rewrite !sum_cons, IH. reflexivity.
  - rewrite sum_cons, (H x E), IH. reflexivity.
Qed.
Lemma absent_zero : forall A (p : A -> bool) l, existsb p l = false -> count p l = 0.
Proof. intros A p l H. pose proof (count_zero _ p l) as Z. rewrite H in Z. apply N.eqb_eq in Z. exact Z. Qed.
Lemma present_pos : forall A (p : A -> bool) l, existsb p l = true -> 0 < count p l.
Proof. intros A p l H. pose proof (count_zero _ p l) as Z. rewrite H in Z. cbn [negb] in Z. apply N.eqb_neq in Z. lia. Qed.
Lemma sum_counts : forall d q ts, sum (map (fun t => count q (type_list d t)) ts) = len (filter q (flat_map (type_list d) ts)).
Proof.
  intros d q ts. induction ts as [|t r IH]; [reflexivity|]. cbn [map flat_map]. rewrite sum_cons, IH, filter_app, len_app. reflexivity.
Qed.
Lemma len_zero_match : forall A B (l : list A) (x y : B), (if negb (len l =? 0) then x else y) = match l with [] => y | _ => x end.
Proof. intros A B l x y. destruct l; [reflexivity|]. replace (len (a :: l) =? 0) with false by (rewrite len_cons; lia). reflexivity. Qed.
Lemma flat_names : forall ks : list Kanji, flat_map (fun j => b_ " " ++ j) (map kName ks) = flat_map (fun k => b_ " " ++ kName k) ks.
Proof. intros ks. induction ks as [|k r IH]; [reflexivity|]. cbn [map flat_map]. rewrite IH. reflexivity. Qed.

Lemma printCount_spec : forall d (p : Kanji -> out bool) q name n, (forall x, p x = Val (q x)) ->
  printCount d p name n = Val (count_line d q name (N.to_nat n)).
Proof.
  intros d p q name n H. unfold printCount. rewrite lists_combined, (countTypes_spec d p q n H). cbn [obind app].
  f_equal. rewrite countItems_comma, map_map. set (ts := filter (fun t => existsb q (type_list d t)) real_types).
  assert (S : 0 + sum (map (fun t => count q (type_list d t)) real_types) = sum (map snd (map (fun t => (entry (typeToString t) (count q (type_list d t))
                ++ flat_map (fun k => b_ " " ++ kName k) (firstn (N.to_nat n) (filter q (type_list d t))), count q (type_list d t))) ts))).
  { rewrite map_map. cbn [snd]. unfold ts. rewrite sum_present; [lia|]. intros t E. apply absent_zero. exact E. }
  set (items := map (fun t => (entry (typeToString t) (count q (type_list d t))
                ++ flat_map (fun k => b_ " " ++ kName k) (firstn (N.to_nat n) (filter q (type_list d t))), count q (type_list d t))) ts) in *.
  assert (I : map (fun x => citem (count_item q (N.to_nat n) d x)) ts = items).
  { unfold items. apply map_ext. intro t. unfold count_item, citem. rewrite flat_names. reflexivity. }
  rewrite I, S. rewrite commaLoop_spec.
  2:{ unfold items. apply Forall_forall. intros i Hi. apply in_map_iff in Hi. destruct Hi as [t [<- Ht]]. cbn [snd]. unfold ts in Ht. apply filter_In in Ht. apply present_pos. apply Ht. }
  rewrite <- S. rewrite N.add_0_l, sum_counts. fold (all_kanji d). unfold count_line.
  rewrite len_zero_match. destruct (filter q (all_kanji d)) as [|k r] eqn:E; [reflexivity|].
  unfold line, entry, logText. unfold items. rewrite map_map. cbn [fst]. rewrite <- !app_assoc. reflexivity.
Qed.

(** * All counts *)

Lemma sizeItems_spec : forall d ts, sizeItems true (map (fun t => (t, type_list d t)) ts)
  = separated (b_ " ") (map (fun t => entry (typeToString t) (len (type_list d t))) ts).
Proof.
  intros d ts. destruct ts as [|t r]; [reflexivity|]. cbn [map sizeItems app]. revert t. induction r as [|t' r IH]; intro t.
  - cbn. rewrite app_nil_r. reflexivity.
  - cbn [map sizeItems]. specialize (IH t').
    change (separated (b_ " ") (entry (typeToString t) (len (type_list d t)) :: entry (typeToString t') (len (type_list d t')) :: map (fun t => entry (typeToString t) (len (type_list d t))) r))
      with (entry (typeToString t) (len (type_list d t)) ++ b_ " " ++ separated (b_ " ") (entry (typeToString t') (len (type_list d t')) :: map (fun t => entry (typeToString t) (len (type_list d t))) r)).
    cbn [map] in IH. rewrite <- IH. unfold entry. rewrite <- !app_assoc. reflexivity.
Qed.
Lemma not_zero : forall n, negb (n =? 0) = (0 <? n).
Proof. intro n. destruct (n =? 0) eqn:E; cbn [negb]; symmetry; [apply N.ltb_ge|apply N.ltb_lt]; lia. Qed.
Lemma isType_jouyou : forall k, isType Jouyou k = is_in_jouyou k.
Proof. intro k. unfold isType, is_in_jouyou. destruct (kType k); reflexivity. Qed.
Lemma isType_jinmei : forall k, isType Jinmei k = is_in_jinmei k.
Proof. intro k. unfold isType, is_in_jinmei. destruct (kType k); reflexivity. Qed.
Lemma counts_spec : forall d full, printCountsAndStats d full = Val (loaded_line d ++ if full : bool then counts_text d else []).
Proof.
  intros d full. unfold printCountsAndStats. rewrite lists_combined, sizeItems_spec.
  assert (L : forall x, logText false ++ b_ "Loaded " ++ to_string (len (dNames d)) ++ b_ " Kanji (" ++ separated (b_ " ") (map (fun t => entry (typeToString t) (len (type_list d t))) real_types) ++ b_ ")" ++ [10] = x -> x = loaded_line d).
  { intros x <-. unfold loaded_line, line, logText. rewrite <- !app_assoc. reflexivity. }
  destruct full; [|rewrite app_nil_r; f_equal; apply (L _ eq_refl)].
  rewrite (printCount_spec d _ hasLevel) by reflexivity. cbn [obind].
  rewrite (printCount_spec d _ (fun k => frequent k && negb (is_in_jouyou k || hasLevel k))).
  2:{ intro k. unfold hasFrequency, frequent. rewrite not_zero, isType_jouyou, negb_orb, andb_assoc. reflexivity. }
  cbn [obind]. rewrite (printCount_spec d _ (fun k => is_in_jinmei k && negb (frequent k || hasLevel k))).
  2:{ intro k. unfold hasFrequency, frequent. rewrite not_zero, isType_jinmei, negb_orb, andb_assoc. reflexivity. }
  cbn [obind]. rewrite (printCount_spec d _ (fun k => negb (frequent k))).
  2:{ intro k. unfold hasFrequency, frequent. rewrite not_zero. reflexivity. }
  cbn [obind]. rewrite (printCount_spec d _ (fun k => 0 <? snd (kStrokes k))).
  2:{ intro k. unfold hasVariantStrokes. rewrite not_zero. reflexivity. }
  cbn [obind]. rewrite (printCount_spec d variant selected_name) by apply variant_total.
  cbn [obind]. rewrite (printCount_spec d _ (fun k => match kOldNames k with [] => false | _ => true end)).
  2:{ intro k. destruct (kOldNames k); reflexivity. }
  cbn [obind]. f_equal. rewrite (L _ eq_refl) at 1. reflexivity.
Qed.

(** * Grades *)

Lemma count_and : forall A (p q : A -> bool) l, count (fun x => p x && q x) l = count q (filter p l).
Proof. intros A p q l. unfold count. rewrite filter_filter. reflexivity. Qed.
Lemma noFreq_brackets : forall n, noFreq n true = if 0 <? n then b_ " (nf " ++ to_string n ++ b_ ")" else [].
Proof. intro n. unfold noFreq. rewrite <- (not_zero n). destruct (n =? 0); reflexivity. Qed.
Lemma noFreq_plain : forall n, noFreq n false = if 0 <? n then b_ " nf " ++ to_string n else [].
Proof. intro n. unfold noFreq. rewrite <- (not_zero n), app_nil_r. destruct (n =? 0); reflexivity. Qed.
Definition level_pair (v : JlptLevels) : N * bytes := (levelNumber v, levelToString v).
Definition level_item (l : list Kanji) (v : JlptLevels) : bytes * N := (entry (levelToString v) (count (level_is v) l), count (level_is v) l).
Lemma gradeLevels_comma : forall jouyou g vs total,
  gradeLevels jouyou (gradeNumber g) (map level_pair vs) total
  = commaLoop (map (level_item (filter (grade_is g) jouyou)) (filter (fun v => existsb (level_is v) (filter (grade_is g) jouyou)) vs)) total.
Proof.
  intros jouyou g. induction vs as [|v r IH]; intro total; [reflexivity|]. cbn [map gradeLevels level_pair].
  rewrite countIf_spec. rewrite (count_and _ (grade_is g) (level_is v)). rewrite count_zero, negb_involutive. cbn [filter].
  destruct (existsb (level_is v) (filter (grade_is g) jouyou)).
  - cbn [map commaLoop level_item]. unfold entry. rewrite IH, <- !app_assoc. reflexivity.
  - apply IH.
Qed.
(** every Kanji has exactly one of the values *)
Definition parts {A B} (l : list A) (is : B -> A -> bool) (vs : list B) : Prop := forall x, In x l -> count (fun v => is v x) vs = 1.
Lemma parts_sum : forall A B (is : B -> A -> bool) vs l, parts l is vs -> sum (map (fun v => count (is v) l) vs) = len l.
Proof.
  intros A B is vs l. induction l as [|x r IH]; intro H.
  - clear H. induction vs as [|v r IH]; [reflexivity|]. cbn [map]. rewrite sum_cons, IH. reflexivity.
  - rewrite len_cons. rewrite <- (IH (fun y Hy => H y (or_intror Hy))). rewrite <- (H x (or_introl eq_refl)). clear.
    induction vs as [|v vs IH]; [reflexivity|]. cbn [map]. rewrite !sum_cons, count_cons, IH. rewrite (count_cons _ (fun v => is v x)). lia.
Qed.
Lemma levels_part : forall l, parts l level_is (AllLevels ++ [NoLevel]).
Proof. intros l k _. unfold level_is. destruct (kLevel k); vm_compute; reflexivity. Qed.
Lemma grades_part : forall l, parts l grade_is (AllGrades ++ [NoGrade]).
Proof. intros l k _. unfold grade_is. destruct (kGrade k); vm_compute; reflexivity. Qed.
Lemma kyus_part : forall l, parts l kyu_is (AllKyus ++ [NoKyu]).
Proof. intros l k _. unfold kyu_is. destruct (kKyu k); vm_compute; reflexivity. Qed.
Definition grade_pair (g : KanjiGrades) : N * bytes := (gradeNumber g, gradeToString g).
Lemma gradeLevels_spec : forall jouyou g, gradeLevels jouyou (gradeNumber g) AllJlptLevels (count (grade_is g) jouyou)
  = separated (b_ ", ") (map (fun v => entry (levelToString v) (count (level_is v) (filter (grade_is g) jouyou)))
                            (filter (fun v => existsb (level_is v) (filter (grade_is g) jouyou)) (AllLevels ++ [NoLevel]))).
Proof.
  intros jouyou g. change AllJlptLevels with (map level_pair (AllLevels ++ [NoLevel])). rewrite gradeLevels_comma.
  set (l := filter (grade_is g) jouyou).
  assert (S : count (grade_is g) jouyou = sum (map snd (map (level_item l) (filter (fun v => existsb (level_is v) l) (AllLevels ++ [NoLevel]))))).
  { rewrite map_map. unfold level_item. cbn [snd]. rewrite sum_present by (intros v E; apply absent_zero; exact E).
    rewrite parts_sum by apply levels_part. reflexivity. }
  rewrite S, commaLoop_spec; [rewrite map_map; reflexivity|].
  apply Forall_forall. intros i Hi. apply in_map_iff in Hi. destruct Hi as [v [<- Hv]]. cbn [level_item snd]. apply filter_In in Hv. apply present_pos. apply Hv.
Qed.
Lemma gradeLoop_spec : forall jouyou gs all, gradeLoop jouyou (map grade_pair gs) all
  = (flat_map (grade_line jouyou) gs, all + sum (map (fun g => count (grade_is g) jouyou) gs)).
Proof.
  intros jouyou. induction gs as [|g r IH]; intro all; [cbn; f_equal; lia|]. cbn [map gradeLoop grade_pair].
  rewrite countIf_spec. change (fun x => gradeNumber (kGrade x) =? gradeNumber g) with (grade_is g).
  rewrite count_zero, negb_involutive. rewrite sum_cons. cbn [flat_map].
  destruct (existsb (grade_is g) jouyou) eqn:Ex.
  - rewrite IH. f_equal; [|lia]. rewrite countIf_spec.
    rewrite (count_and _ (grade_is g) (fun x => negb (hasFrequency x))).
    rewrite (count_ext _ (fun k => negb (hasFrequency k)) (fun k => negb (frequent k))) by (intro k; unfold hasFrequency, frequent; rewrite not_zero; reflexivity).
    rewrite noFreq_brackets, gradeLevels_spec. unfold grade_line. rewrite existsb_filter in Ex.
    destruct (filter (grade_is g) jouyou) as [|k ks] eqn:E; [discriminate|]. rewrite <- E. unfold line, logText. unfold count at 1. rewrite <- !app_assoc. reflexivity.
  - rewrite IH. rewrite (absent_zero _ _ _ Ex). f_equal. unfold grade_line. rewrite existsb_filter in Ex. destruct (filter (grade_is g) jouyou); [reflexivity|discriminate].
Qed.
Lemma grades_spec : forall d, printGrades d = grades_text d.
Proof.
  intro d. unfold printGrades. change AllKanjiGrades with (map grade_pair (AllGrades ++ [NoGrade])). change (typeList d Jouyou) with (type_list d Jouyou).
  rewrite gradeLoop_spec. rewrite parts_sum by apply grades_part. unfold grades_text, line, logText. rewrite <- !app_assoc. reflexivity.
Qed.

(** * Levels and kyus *)

Section Stats.
  Context {A : Type} (number : A -> N) (text : A -> bytes) (F : Kanji -> A) (d : Data) (name : bytes) (show : bool).
  Definition has_value (v : A) (k : Kanji) : bool := number (F k) =? number v.
  Lemma statCounts_spec : forall v ts counts total, statCounts (fun k => number (F k)) (number v) (map (fun t => (t, type_list d t)) ts) counts total
    = (counts ++ map (fun t => (t, count (has_value v) (type_list d t))) (filter (fun t => existsb (has_value v) (type_list d t)) ts),
       total + sum (map (fun t => count (has_value v) (type_list d t)) ts)).
  Proof.
    intros v. induction ts as [|t r IH]; intros counts total; [cbn; rewrite app_nil_r; f_equal; lia|]. cbn [map statCounts].
    rewrite countIf_spec. change (fun x => number (F x) =? number v) with (has_value v). rewrite count_zero, negb_involutive, sum_cons. cbn [filter].
    destruct (existsb (has_value v) (type_list d t)) eqn:Ex.
    - rewrite IH. cbn [map]. rewrite <- app_assoc. cbn [app]. f_equal. lia.
    - rewrite IH, (absent_zero _ _ _ Ex). f_equal.
  Qed.
  Definition stat_item (v : A) (t : KanjiTypes) : bytes * N :=
    (let nf := count (fun k => negb (frequent k)) (filter (has_value v) (type_list d t)) in
     entry (typeToString t) (count (has_value v) (type_list d t)) ++ (if show && (0 <? nf) then b_ " nf " ++ to_string nf else []),
     count (has_value v) (type_list d t)).
  Lemma statItems_comma : forall v ts total, incl ts real_types ->
    statItems d (fun k => number (F k)) show (number v) (map (fun t => (t, count (has_value v) (type_list d t))) ts) total
    = commaLoop (map (stat_item v) ts) total.
  Proof.
    intros v. induction ts as [|t r IH]; intros total H; [reflexivity|]. cbn [map statItems commaLoop stat_item].
    rewrite IH by (intros x Hx; apply H; right; exact Hx). rewrite typeList_real by (apply H; left; reflexivity).
    rewrite countIf_spec. rewrite (count_and _ (has_value v) (fun x => negb (hasFrequency x))).
    rewrite (count_ext _ (fun k => negb (hasFrequency k)) (fun k => negb (frequent k))) by (intro k; unfold hasFrequency, frequent; rewrite not_zero; reflexivity).
    rewrite noFreq_plain. unfold entry. rewrite <- !app_assoc. destruct show; reflexivity.
  Qed.
  Definition value_pair (v : A) : N * bytes := (number v, text v).
  Lemma statLoop_spec : forall vs total, statLoop d (fun k => number (F k)) name show (map value_pair vs) total
    = (flat_map (fun v => stat_line d name (text v) (has_value v) show) vs, total + sum (map (fun v => count (has_value v) (all_kanji d)) vs)).
  Proof.
    induction vs as [|v r IH]; intro total; [cbn; f_equal; lia|]. cbn [map statLoop value_pair]. rewrite lists_combined, statCounts_spec. cbn [app].
    rewrite N.add_0_l, sum_counts, sum_cons. fold (all_kanji d). fold (count (has_value v) (all_kanji d)). cbn [flat_map].
    rewrite count_zero, negb_involutive. destruct (existsb (has_value v) (all_kanji d)) eqn:Ex.
    - rewrite IH. f_equal; [|lia]. rewrite statItems_comma by (intros x Hx; apply filter_In in Hx; apply Hx).
      set (ts := filter (fun t => existsb (has_value v) (type_list d t)) real_types).
      assert (S : count (has_value v) (all_kanji d) = sum (map snd (map (stat_item v) ts))).
      { rewrite map_map. unfold stat_item. cbn [snd]. unfold ts. rewrite sum_present by (intros t E; apply absent_zero; exact E).
        rewrite sum_counts. reflexivity. }
      rewrite S at 2. rewrite commaLoop_spec.
      2:{ apply Forall_forall. intros i Hi. apply in_map_iff in Hi. destruct Hi as [t [<- Ht]]. cbn [stat_item snd]. unfold ts in Ht. apply filter_In in Ht. apply present_pos. apply Ht. }
      unfold stat_line. rewrite existsb_filter in Ex. unfold count at 1. destruct (filter (has_value v) (all_kanji d)) as [|k ks] eqn:E; [discriminate|].
      rewrite map_map. unfold line, logText. rewrite <- !app_assoc. reflexivity.
    - rewrite IH, (absent_zero _ _ _ Ex). f_equal. unfold stat_line. rewrite existsb_filter in Ex. destruct (filter (has_value v) (all_kanji d)); [reflexivity|discriminate].
  Qed.
  Lemma stats_spec : forall vs, parts (all_kanji d) has_value vs ->
    printListStats d (fun k => number (F k)) (map value_pair vs) name show = stats_text d name vs text has_value show.
  Proof.
    intros vs H. unfold printListStats. rewrite statLoop_spec, parts_sum by exact H. unfold stats_text, line, logText. rewrite <- !app_assoc. reflexivity.
  Qed.
End Stats.
Lemma level_stats : forall d, printListStats d (fun k => levelNumber (kLevel k)) AllJlptLevels (b_ "Level") true
  = stats_text d (b_ "Level") (AllLevels ++ [NoLevel]) levelToString level_is true.
Proof.
  intro d. change AllJlptLevels with (map (value_pair levelNumber levelToString) (AllLevels ++ [NoLevel])).
  exact (stats_spec levelNumber levelToString kLevel d (b_ "Level") true _ (levels_part _)).
Qed.
Lemma kyu_stats : forall d, printListStats d (fun k => kyuNumber (kKyu k)) AllKenteiKyus (b_ "Kyu") false
  = stats_text d (b_ "Kyu") (AllKyus ++ [NoKyu]) kyuToString kyu_is false.
Proof.
  intro d. change AllKenteiKyus with (map (value_pair kyuNumber kyuToString) (AllKyus ++ [NoKyu])).
  exact (stats_spec kyuNumber kyuToString kKyu d (b_ "Kyu") false _ (kyus_part _)).
Qed.

(** * Strokes *)

Lemma ucdFind_total : forall ucd s, exists u, ucdFind ucd s = Val u.
Proof.
  intros ucd s. unfold ucdFind, noVariationSelector.
  assert (V : exists b, isCharWithVariationSelector s = Val b).
  { unfold isCharWithVariationSelector. destruct ((3 + 2 <=? len s) && (len s <=? 3 + 4)); [|eauto]. apply Utf8CharLemmas.vs_total. }
  destruct V as [b V]. rewrite V. cbn [obind]. destruct b; [|eauto]. cbn [obind].
  destruct (mfind (firstn (List.length s - 3) s) (linkedJinmei ucd)); eauto.
Qed.
Lemma strokeDiffs_spec : forall ucd l, strokeDiffs ucd l = Val (map kName (filter (differs ucd) l)).
Proof.
  intros ucd. induction l as [|k r IH]; [reflexivity|]. cbn [strokeDiffs filter]. destruct (ucdFind_total ucd (kName k)) as [u E].
  unfold differs at 1. rewrite E. cbn [obind]. rewrite IH. cbn [obind]. f_equal. destruct u as [u|]; [|reflexivity].
  destruct (negb (fst (kStrokes k) =? fst (ucdStrokes u))); reflexivity.
Qed.
Lemma strokesOf_spec : forall d ucd ts, strokesOf d ucd ts
  = Val (flat_map (fun t => match filter (differs ucd) (typeList d t) with
                            | [] => []
                            | l => line (b_ "Found " ++ to_string (len l) ++ b_ " " ++ typeToString t
                                         ++ b_ " Kanji with different strokes in _ucd:" ++ names_of (map kName l))
                            end) ts).
Proof.
  intros d ucd. induction ts as [|t r IH]; [reflexivity|]. cbn [strokesOf flat_map]. rewrite strokeDiffs_spec. cbn [obind]. rewrite IH. cbn [obind]. f_equal. f_equal.
  destruct (filter (differs ucd) (typeList d t)) as [|k ks]; [reflexivity|]. unfold printNames. cbn [map].
  unfold line, names_of. rewrite <- !app_assoc. cbn [map flat_map]. unfold len. cbn [List.length]. rewrite map_length. rewrite <- !app_assoc. reflexivity.
Qed.
Lemma strokes_spec : forall d ucd, checkStrokes d ucd = Val (strokes_text d ucd).
Proof.
  intros d ucd. unfold checkStrokes. rewrite strokesOf_spec. reflexivity.
Qed.
