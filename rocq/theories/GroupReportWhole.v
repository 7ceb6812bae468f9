(** Lemmas about the reports about groups: the whole text. *)
From Verif Require Import BaseFacts MapProofs DataProofs LoadModel LoadProofs LoadFacts LoadProps GroupLoadProofs ReportProofs ReportLoaded GroupReportModel GroupReportSpec GroupReportProofs
  GroupReportCounts.
Open Scope N_scope.
Arguments N.mul : simpl never. Arguments N.add : simpl never. Arguments N.sub : simpl never.
Arguments N.pow : simpl never. Arguments N.eqb : simpl never. Arguments N.ltb : simpl never. Arguments N.leb : simpl never.

(** * The maps *)

Lemma meaning_entries : forall find rows m l m' l', loadMeaning find rows m l = Val (m', l') -> rows_ok rows -> msorted m ->
  (forall n x, mfind n m = Some x -> x <> []) -> msorted m' /\ forall n x, mfind n m' = Some x -> x <> [].
Proof.
  intros find. induction rows as [|r rows IH]; intros m l m' l' H R S P; cbn [loadMeaning] in H.
  - inversion H; subst. auto.
  - inversion R as [|x y R1 R2]; subst. destruct (row_cases find MeaningType r R1) as [(g & E & G)|[E _]]; rewrite E in H; cbn [obind] in H; [|discriminate].
    assert (D : NoDup (map qName (gMembers g))) by (apply G). destruct (add_meaning g m [] S D) as [S' _].
    apply (IH _ _ _ _ H R2 S'). intros n x X. rewrite (proj2 (add_meaning g m n S D)) in X.
    destruct (has_member n g); [|exact (P n x X)]. inversion X; subst. destruct (mfind n m); [destruct l0|]; discriminate.
Qed.
Lemma loaded_maps : forall find mr pr gd, rows_ok mr -> rows_ok pr -> loadGroups find mr pr = Val gd ->
  msorted (meaningMap gd) /\ (forall n x, mfind n (meaningMap gd) = Some x -> x <> [] /\ x = filter (has_member n) (meaningGroups gd))
  /\ (forall n, mfind n (meaningMap gd) = None -> filter (has_member n) (meaningGroups gd) = [])
  /\ msorted (patternMap gd) /\ (forall n, mfind n (patternMap gd) = List.find (has_member n) (patternGroups gd)).
Proof.
  intros find mr pr gd H1 H2 H. destruct (load_groups_cases find mr pr H1 H2) as [(d' & E & _ & _ & A & B)|[E _]]; rewrite H in E; [|discriminate].
  inversion E; subst d'. unfold loadGroups in H.
  destruct (loadMeaning find mr [] []) as [[mm ml]| | |] eqn:L; cbn [obind] in H; try discriminate.
  destruct (loadPattern find pr [] []) as [[pm pl]| | |] eqn:L'; cbn [obind] in H; try discriminate. inversion H; subst gd. cbn [meaningMap meaningGroups patternMap patternGroups] in *.
  destruct (meaning_entries _ _ _ _ _ _ L H1 msorted_nil) as [S P]; [intros n x X; discriminate|].
  destruct (load_pattern_cases find pr [] [] H2 msorted_nil) as [(gs & m' & L2 & _ & S' & _)|[L2 _]]; rewrite L' in L2; [|discriminate]. inversion L2; subst.
  split; [exact S|]. unfold categories in A. cbn [meaningMap] in A.
  split; [intros n x X; split; [eapply P; exact X|]; specialize (A n); rewrite X in A; exact A|].
  split; [intros n X; specialize (A n); rewrite X in A; symmetry; exact A|]. split; [exact S'|exact B].
Qed.
Lemma meaning_members_of : forall find mr pr gd, rows_ok mr -> rows_ok pr -> loadGroups find mr pr = Val gd ->
  members_of (meaningGroups gd) (map fst (meaningMap gd))
  /\ meaningKeys gd = blocks (counted (meaningGroups gd) (map fst (meaningMap gd))).
Proof.
  intros find mr pr gd H1 H2 H. destruct (loaded_maps find mr pr gd H1 H2 H) as (S & P & Z & _). split; [split; [exact S|]|].
  - intro n. rewrite belongs_some. unfold belongs. split; intro X.
    + destruct (mfind_present (meaningMap gd) n X) as [x E]. destruct (P n x E) as [Q ->]. destruct (filter (has_member n) (meaningGroups gd)); [congruence|rewrite len_cons; lia].
    + destruct (mfind n (meaningMap gd)) as [x|] eqn:E; [eapply mfind_in_keys; exact E|]. rewrite (Z n E) in X. cbn in X. lia.
  - unfold meaningKeys, counted, blocks. 
    assert (G : forall n x, In (n, x) (meaningMap gd) -> List.length x = Datatypes.S (N.to_nat (belongs (meaningGroups gd) n - 1))).
    { intros n x I. destruct (P n x (mfind_In _ _ _ S I)) as [Q E]. unfold belongs. rewrite <- E. unfold len. destruct x; [congruence|]. cbn [List.length]. lia. }
    clear -G. induction (meaningMap gd) as [|[k x] m IH]; [reflexivity|]. cbn [flat_map map fst]. rewrite IH by (intros n y I; apply G; right; exact I). f_equal.
    rewrite <- (G k x (or_introl eq_refl)). clear. induction x as [|g x IH]; [reflexivity|]. cbn [map List.length repeat]. rewrite IH. reflexivity.
Qed.
Lemma pattern_members_of : forall find mr pr gd, rows_ok mr -> rows_ok pr -> loadGroups find mr pr = Val gd ->
  members_of (patternGroups gd) (patternKeys gd).
Proof.
  intros find mr pr gd H1 H2 H. destruct (loaded_maps find mr pr gd H1 H2 H) as (_ & _ & _ & S & P). split; [exact S|].
  intro n. unfold patternKeys. rewrite memberships_iff. split; intro X.
  - destruct (mfind_present (patternMap gd) n X) as [g E]. rewrite P in E. apply find_some in E. eauto.
  - destruct X as (g & I & M). destruct (mfind n (patternMap gd)) as [x|] eqn:E; [eapply mfind_in_keys; exact E|]. rewrite P in E.
    pose proof (find_none _ _ E g I) as Q. cbn beta in Q. congruence.
Qed.
Lemma members_fun : forall gs a b, members_of gs a -> members_of gs b -> a = b.
Proof.
  intros gs a b [S1 H1] [S2 H2]. assert (E : forall n, In n a <-> In n b) by (intro n; rewrite H1, H2; reflexivity). clear H1 H2.
  revert b S2 E. induction S1 as [|x a S1 IH F1]; intros b S2 E.
  - destruct b as [|y b]; [reflexivity|]. destruct (proj2 (E y) (or_introl eq_refl)).
  - destruct S2 as [|y b S2 F2]; [destruct (proj1 (E x) (or_introl eq_refl))|]. rewrite Forall_forall in F1, F2.
    assert (Q : x = y).
    { destruct (proj1 (E x) (or_introl eq_refl)) as [X|X]; [auto|]. destruct (proj2 (E y) (or_introl eq_refl)) as [Y|Y]; [auto|].
      pose proof (blt_asym _ _ (F2 x X)) as C. rewrite (F1 y Y) in C. discriminate. }
    subst y. f_equal. apply IH; [exact S2|]. intro n. split; intro I.
    + destruct (proj1 (E n) (or_intror I)) as [X|X]; [|exact X]. subst n. specialize (F1 x I). rewrite blt_irrefl in F1. discriminate.
    + destruct (proj2 (E n) (or_intror I)) as [X|X]; [|exact X]. subst n. specialize (F2 x I). rewrite blt_irrefl in F2. discriminate.
Qed.

(** * The groups *)

Lemma group_facts : forall find t rows gs, Forall2 (group_of find t) rows gs ->
  Forall (fun g => gType g = t) gs /\ Forall (fun g => NoDup (map qName (gMembers g))) gs
  /\ (forall k, In k (flat_map gMembers gs) -> exists n, find n = Some k) /\ (gs = [] <-> flat_map gMembers gs = []).
Proof.
  intros find t rows gs F. induction F as [|r g rows gs G F IH]; cbn [flat_map].
  - split; [constructor|]. split; [constructor|]. split; [intros k []|tauto].
  - destruct IH as (A & B & C & _). destruct G as (T & _ & _ & _ & _ & _ & (names & _ & M) & P & D).
    split; [constructor; assumption|]. split; [constructor; assumption|]. split.
    + intros k K. apply in_app_or in K. destruct K as [K|K]; [|apply C; exact K]. clear -M K. induction M as [|n x ns xs E M IH]; [destruct K|].
      destruct K as [<-|K]; [eauto|apply IH; exact K].
    + split; [discriminate|]. intro X. apply app_eq_nil in X. destruct X as [X _]. rewrite X in P. cbn in P. lia.
Qed.
Lemma memberships_map : forall gs, memberships gs = map qName (flat_map gMembers gs).
Proof. induction gs as [|g gs IH]; [reflexivity|]. cbn [memberships flat_map]. rewrite map_app, <- IH. reflexivity. Qed.
Lemma in_one_nodup : forall gs, Forall (fun g => NoDup (map qName (gMembers g))) gs -> in_one_group gs -> NoDup (memberships gs).
Proof.
  induction gs as [|g gs IH]; intros F O; [constructor|]. inversion F as [|x y F1 F2]; subst. cbn [memberships flat_map]. fold (memberships gs).
  assert (B : forall n, belongs (g :: gs) n = (if has_member n g then 1 else 0) + belongs gs n).
  { intro n. unfold belongs. cbn [filter]. destruct (has_member n g); [rewrite len_cons|]; lia. }
  assert (O' : in_one_group gs) by (intro n; specialize (O n); rewrite B in O; lia).
  assert (D : forall n, In n (map qName (gMembers g)) -> ~ In n (memberships gs)).
  { intros n X Y. apply belongs_some in Y. specialize (O n). rewrite B in O. replace (has_member n g) with true in O; [lia|].
    symmetry. apply has_member_iff. apply in_map_iff in X. destruct X as (k & E & K). eauto. }
  specialize (IH F2 O'). clear -F1 D IH. induction (map qName (gMembers g)) as [|n l IHl]; [exact IH|]. inversion F1 as [|x y A B]; subst. cbn [app]. constructor.
  - intro X. apply in_app_or in X. destruct X as [X|X]; [contradiction|]. exact (D n (or_introl eq_refl) X).
  - apply IHl; [exact B|]. intros m M. apply D. right. exact M.
Qed.

Section Whole.
  Variables (ltr : bool) (f : Files) (st : list_static) (m : N) (e : Env) (d : Data).
  Hypothesis Hf : files_ok f.
  Hypothesis H : loadData ltr f st m = Val (e, d).
  Variables (find : bytes -> option QKanji) (mr pr : list GroupRow) (gd : GroupData).
  Hypothesis Hfind : finds_in d find.
  Hypothesis Hempty : findByName d [] = None.
  Hypotheses (Hm : rows_ok mr) (Hp : rows_ok pr).
  Hypothesis Hg : loadGroups find mr pr = Val gd.
  Hypothesis Hsame : no_same_name d.
  Lemma known_members : forall k n, find n = Some k -> In (kType (qKanji k)) real_types /\ In (qName k) (map kName (type_list d (kType (qKanji k)))).
  Proof.
    intros k n E. pose proof (found_loaded d n _ (loaded_wf ltr f st m e d Hf H) (Hfind n k E)) as K.
    pose proof (real_type ltr f st m e d Hf H _ K) as T. split; [exact T|]. unfold qName. apply in_map.
    destruct (type_cases _ T) as [C|C].
    - destruct (C79_rows_partial ltr f st m e d Hf H) as (_ & _ & _ & R1 & _). apply R1; assumption.
    - apply (C79_made_singly ltr f st m e d (kType (qKanji k)) Hf H C). auto.
  Qed.
  Lemma nonempty : forall k n, find n = Some k -> qName k <> [].
  Proof.
    intros k n E X. pose proof (loaded_wf ltr f st m e d Hf H) as W. pose proof (found_loaded d n _ W (Hfind n k E)) as K.
    apply (loaded_iff d _ W) in K. apply (name_found d [] ); [|exact W|exact Hempty]. unfold qName in X. rewrite X in K. congruence.
  Qed.
  Lemma both_groups : Forall2 (group_of find MeaningType) mr (meaningGroups gd) /\ Forall2 (group_of find PatternGroupType) pr (patternGroups gd).
  Proof.
    destruct (load_groups_cases find mr pr Hm Hp) as [(d' & E & A & B & _)|[E _]]; rewrite Hg in E; [|discriminate]. inversion E; subst d'. auto.
  Qed.
  Let ms := map fst (meaningMap gd).
  Let mg := meaningGroups gd.
  Let pg := patternGroups gd.
  (** the text of the meaning groups after the lines of groups *)
  Lemma meaning_rest : forall types fl, holds_types types (firsts [] (flat_map gMembers mg)) ->
    let unique := map qName (firsts [] (flat_map gMembers mg)) in
    len (meaningKeys gd) = len (memberships mg)
    /\ printUnique (meaningKeys gd) unique = several_text mg ms
    /\ printTypeBreakdown fl d types = breakdown (sFill fl) d mg
    /\ afterBreakdown fl types = MkStream (match mg with [] => sLeft fl | _ => false end) (sFill fl).
  Proof.
    intros types fl T unique. destruct both_groups as [A _]. destruct (group_facts find MeaningType mr mg A) as (_ & D & K & Z).
    destruct (meaning_members_of find mr pr gd Hm Hp Hg) as [O Q]. fold ms mg in O, Q.
    assert (U : forall n, In n unique <-> In n (memberships mg)).
    { intro n. unfold unique. rewrite firsts_in, memberships_map. cbn [In]. tauto. }
    assert (ND : NoDup ms) by (apply msorted_nodup; apply O).
    assert (L : len unique = len ms).
    { unfold len. f_equal. apply Permutation_length. apply NoDup_Permutation; [apply firsts_nodup|exact ND|]. intro n. rewrite U. symmetry. apply O. }
    assert (P : forall n, In n ms -> 1 <= belongs mg n) by (intros n I; apply belongs_some; apply O; exact I).
    assert (S : sum (map (belongs mg) ms) = len (memberships mg)) by (apply sum_belongs; [exact ND|exact D|intros n I; apply O; exact I]).
    assert (B : len (meaningKeys gd) = sum (map (belongs mg) ms)).
    { rewrite Q. clear -P. unfold blocks, counted. induction ms as [|n l IH]; [reflexivity|]. cbn [map flat_map]. rewrite len_app, sum_cons, IH by (intros x I; apply P; right; exact I).
      pose proof (P n (or_introl eq_refl)). f_equal. unfold len. rewrite repeat_length. lia. }
    split; [rewrite B; exact S|]. split.
    - unfold printUnique. assert (C : match unique with [] => false | _ => len unique <? len (meaningKeys gd) end = existsb (fun n => 1 <? belongs mg n) ms).
      { rewrite <- (some_several mg ms P), <- B, <- L. destruct unique; [|reflexivity]. symmetry. apply N.ltb_ge.
        destruct ms; [|rewrite len_cons in L; cbn in L; lia]. rewrite B. reflexivity. }
      rewrite C. destruct (existsb (fun n => 1 <? belongs mg n) ms) eqn:X; [|unfold several_text; rewrite X; reflexivity].
      rewrite Q. apply unique_names; try assumption. intro I. apply O in I. rewrite memberships_map in I. apply in_map_iff in I. destruct I as (k & E & I).
      destruct (K k I) as [n N]. exact (nonempty k n N E).
    - assert (KN : forall k, In k (firsts [] (flat_map gMembers mg)) -> In (kType (qKanji k)) real_types /\ In (qName k) (map kName (type_list d (kType (qKanji k))))).
      { intros k I. apply firsts_sub in I. destruct (K k I) as [n N]. exact (known_members k n N). }
      split; [apply (type_breakdown d mg _ types Hsame KN (firsts_nodup _ _) U T)|].
      rewrite (after_breakdown d mg _ types KN (firsts_nodup _ _) U T). f_equal.
      destruct mg as [|g l]; [reflexivity|]. destruct (flat_map gMembers (g :: l)) as [|k r]; [exfalso; discriminate (proj2 Z eq_refl)|].
      reflexivity.
  Qed.
  Lemma pattern_rest : in_one_group pg -> forall types fl, holds_types types (flat_map gMembers pg) ->
    printTypeBreakdown fl d types = breakdown (sFill fl) d pg.
  Proof.
    intros O types fl T. destruct both_groups as [_ A]. destruct (group_facts find PatternGroupType pr pg A) as (_ & D & K & _).
    pose proof (in_one_nodup pg D O) as ND. rewrite memberships_map in ND. apply type_breakdown with (ks := flat_map gMembers pg); try assumption.
    - intros k I. destruct (K k I) as [n N]. exact (known_members k n N).
    - intro n. rewrite memberships_map. reflexivity.
  Qed.
  Lemma head_text : forall n gs, logText false ++ b_ "Loaded " ++ to_string n ++ b_ " kanji into " ++ to_string (len gs) ++ b_ " groups" ++ [10] = loaded_groups n gs.
  Proof. intros n gs. unfold loaded_groups, line. rewrite <- !app_assoc. reflexivity. Qed.
  Lemma width_nat : forall gs : list Group, numberWidth (len gs) = Z.of_nat (number_columns gs).
  Proof. intro gs. unfold numberWidth, number_columns. destruct (len gs <? 100); [reflexivity|]. destruct (len gs <? 1000); reflexivity. Qed.

  Lemma info_groups : in_one_group pg -> forall fl, exists t, printGroupData false fl d gd = Val t /\ groups_report [] (sFill fl) (sFill fl) d gd [] [] t.
  Proof.
    intros O fl. destruct both_groups as [A A']. destruct (group_facts find MeaningType mr mg A) as (T & _). destruct (group_facts find PatternGroupType pr pg A') as (T' & _).
    unfold printGroupData, printGroups. fold mg pg.
    destruct (meaning_plain (numberWidth (len mg)) mg fl [] [] [] holds_nil T) as (types & -> & HT). cbn [obind app] in *.
    destruct (meaning_rest types fl HT) as (L & U & B & AF). rewrite U, B, AF, L. cbn [obind].
    destruct (pattern_plain (numberWidth (len pg)) pg (MkStream (match mg with [] => sLeft fl | _ => false end) (sFill fl)) [] [] [] holds_nil T') as (types' & -> & HT'). cbn [obind app] in *.
    change (printUnique (patternKeys gd) []) with ([] : bytes). rewrite (pattern_rest O types' _ HT'). eexists. split; [reflexivity|]. exists ms, (patternKeys gd).
    split; [apply (meaning_members_of find mr pr gd Hm Hp Hg)|]. split; [apply (pattern_members_of find mr pr gd Hm Hp Hg)|].
    cbn [sFill]. unfold loaded_groups, line, legend. repeat (progress (rewrite <- ?app_assoc; cbn [app])). reflexivity.
  Qed.
  Lemma full_groups : in_one_group pg -> names_are_text mg -> names_are_text pg -> Forall (fun g => len (gName g) < 2^30) pg -> forall fl,
    let left := match mg with [] => sLeft fl | _ => false end in
    let fill := match mg with [] => sFill fl | _ => 32 end in
    exists mt pt t, printGroupData true fl d gd = Val t
      /\ meaning_lines (sLeft fl) (number_columns mg) (sFill fl) mg mt /\ pattern_lines left fill (number_columns pg) pg pt
      /\ groups_report legend fill fill d gd mt pt t.
  Proof.
    intros O N N' LN fl left fill. destruct both_groups as [A A']. destruct (group_facts find MeaningType mr mg A) as (T & _). destruct (group_facts find PatternGroupType pr pg A') as (T' & _).
    unfold printGroupData, printGroups. fold mg pg. rewrite !width_nat.
    destruct (meaning_full (number_columns mg) mg fl [] [] [] holds_nil T N) as (types & mt & -> & HT & ML). cbn [obind app] in *.
    destruct (meaning_rest types (MkStream (sLeft fl) (match mg with [] => sFill fl | _ => 32 end)) HT) as (L & U & B & AF). rewrite U, B, AF, L. cbn [obind sLeft sFill].
    destruct (pattern_full (number_columns pg) pg (MkStream left fill) [] [] [] holds_nil T' N' LN) as (types' & pt & E & HT' & PL). fold left fill. rewrite E. cbn [obind app] in *.
    change (printUnique (patternKeys gd) []) with ([] : bytes). rewrite (pattern_rest O types' _ HT'). exists mt, pt. eexists. split; [reflexivity|]. split; [exact ML|]. split; [exact PL|]. exists ms, (patternKeys gd).
    split; [apply (meaning_members_of find mr pr gd Hm Hp Hg)|]. split; [apply (pattern_members_of find mr pr gd Hm Hp Hg)|].
    cbn [sFill]. unfold loaded_groups, line, legend. repeat (progress (rewrite <- ?app_assoc; cbn [app])). reflexivity.
  Qed.
End Whole.

(** * Totals *)

Lemma types_total : forall d gs ns, no_same_name d -> members_of gs ns ->
  (forall n, In n (memberships gs) -> In n (map kName (all_kanji d))) ->
  sum (map (fun t => count (in_group gs) (type_list d t)) real_types) = len ns.
Proof.
  intros d gs ns D [S M] K. rewrite sum_counts. fold (all_kanji d).
  transitivity (len (map kName (filter (in_group gs) (all_kanji d)))); [unfold len; rewrite map_length; reflexivity|].
  unfold len. f_equal. apply Permutation_length. apply NoDup_Permutation.
  - unfold no_same_name in D. clear -D. induction (all_kanji d) as [|k r IH]; [constructor|]. cbn [filter map] in *. inversion D as [|x y A B]; subst.
    destruct (in_group gs k); [|apply IH; exact B]. cbn [map]. constructor; [|apply IH; exact B]. intro X. apply A.
    apply in_map_iff in X. destruct X as (z & E & Z). apply filter_In in Z. rewrite <- E. apply in_map. apply Z.
  - clear -S. induction S as [|a l Hs IH Hf]; constructor; [|exact IH]. intro Hin. rewrite Forall_forall in Hf. specialize (Hf a Hin).
    rewrite blt_irrefl in Hf. discriminate.
  - intro n. rewrite M. split; intro I.
    + apply in_map_iff in I. destruct I as (k & <- & I). apply filter_In in I. apply in_group_iff. apply I.
    + pose proof (K n I) as J. apply in_map_iff in J. destruct J as (k & E & J). apply in_map_iff. exists k. split; [exact E|]. apply filter_In.
      split; [exact J|]. apply in_group_iff. rewrite E. exact I.
Qed.
Lemma all_known : forall ltr f st m e d find mr pr gd, files_ok f -> loadData ltr f st m = Val (e, d) -> finds_in d find -> rows_ok mr -> rows_ok pr ->
  loadGroups find mr pr = Val gd ->
  forall gs, gs = meaningGroups gd \/ gs = patternGroups gd -> forall n, In n (memberships gs) -> In n (map kName (all_kanji d)).
Proof.
  intros ltr f st m e d find mr pr gd Hf H Hfind Hm Hp Hg gs C n I.
  assert (K : exists k x, find x = Some k /\ qName k = n).
  { rewrite memberships_map in I. apply in_map_iff in I. destruct I as (k & E & I).
    destruct (both_groups find mr pr gd Hm Hp Hg) as [A B].
    destruct C as [->| ->]; [destruct (group_facts _ _ _ _ A) as (_ & _ & K & _)|destruct (group_facts _ _ _ _ B) as (_ & _ & K & _)];
      destruct (K k I) as [x X]; eauto. }
  destruct K as (k & x & X & <-). destruct (known_members ltr f st m e d Hf H find Hfind k x X) as [T L].
  apply in_map_iff in L. destruct L as (z & E & Z). apply in_map_iff. exists z. split; [exact E|]. apply in_flat_map. eauto.
Qed.
Lemma most_ge : forall gs ns n, In n ns -> belongs gs n <= most gs ns.
Proof.
  intros gs ns n I. unfold most. induction ns as [|x ns IH]; [destruct I|]. cbn [map fold_right]. destruct I as [->|I]; [lia|]. specialize (IH I). lia.
Qed.
Lemma upto_iff : forall a b i, In i (upto a b) <-> a <= i <= b.
Proof.
  intros a b i. unfold upto. rewrite in_map_iff. split.
  - intros (j & <- & J). apply in_seq in J. lia.
  - intro X. exists (N.to_nat i). split; [lia|]. apply in_seq. lia.
Qed.
Lemma once_or_several : forall gs ns, members_of gs ns ->
  count (fun n => belongs gs n =? 1) ns + count (fun n => 1 <? belongs gs n) ns = len ns
  /\ (forall n, In n ns -> 1 < belongs gs n -> In (belongs gs n) (upto 2 (most gs ns)))
  /\ (forall i, In i (upto 2 (most gs ns)) -> 2 <= i <= most gs ns)
  /\ (1 < most gs ns -> exists n, In n ns /\ belongs gs n = most gs ns).
Proof.
  intros gs ns [S M]. split; [|split; [|split]].
  - assert (P : forall n, In n ns -> 1 <= belongs gs n) by (intros n I; apply belongs_some; apply M; exact I). clear -P.
    induction ns as [|n ns IH]; [reflexivity|]. rewrite !count_cons, len_cons. rewrite <- IH by (intros x I; apply P; right; exact I).
    pose proof (P n (or_introl eq_refl)). destruct (N.eqb_spec (belongs gs n) 1); destruct (N.ltb_spec 1 (belongs gs n)); lia.
  - intros n I L. apply upto_iff. pose proof (most_ge gs ns n I). lia.
  - intros i I. apply upto_iff. exact I.
  - clear. unfold most. induction ns as [|n ns IH]; intro L; [cbn in L; lia|]. cbn [map fold_right] in *.
    destruct (N.le_gt_cases (fold_right N.max 0 (map (belongs gs) ns)) (belongs gs n)) as [G|G].
    + exists n. split; [left; reflexivity|lia].
    + destruct IH as (x & I & E); [lia|]. exists x. split; [right; exact I|lia].
Qed.
Lemma memberships_total : forall find mr pr gd, rows_ok mr -> rows_ok pr -> loadGroups find mr pr = Val gd ->
  forall ns, members_of (meaningGroups gd) ns -> sum (map (belongs (meaningGroups gd)) ns) = len (memberships (meaningGroups gd)).
Proof.
  intros find mr pr gd Hm Hp Hg ns [S M]. destruct (both_groups find mr pr gd Hm Hp Hg) as [A _]. destruct (group_facts _ _ _ _ A) as (_ & D & _).
  apply sum_belongs; [|exact D|intros n I; apply M; exact I].
  clear -S. induction S as [|a l Hs IH Hf]; constructor; [|exact IH]. intro Hin. rewrite Forall_forall in Hf. specialize (Hf a Hin).
  rewrite blt_irrefl in Hf. discriminate.
Qed.
