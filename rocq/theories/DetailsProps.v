(** Properties of the Kanji argument of the quiz program and of what is shown about a Kanji. *)
From Verif Require ListProofs KanjiProofs.
From Verif Require Import BaseFacts QuizSample JukugoSample TextSpec TextProofs GroupLoadProofs GroupLoadProps.
From Verif Require Import DetailsModel DetailsSpec DetailsArg DetailsReview DetailsFacts.
Open Scope N_scope.

(** C87: an argument of a documented form shows what it stands for *)
Theorem C87_shown : forall sort d ucd gd jd a x, stands_for d a x ->
  processKanjiArg sort d ucd gd jd a
  = match x with
    | One n => printDetails sort d ucd gd jd n true
    | Several w i ks => printList sort d ucd gd jd ks w i
    end.
Proof. intros sort d ucd gd jd a x H. rewrite (arg_shown sort d ucd gd jd a x H). destruct x; reflexivity. Qed.
Print Assumptions C87_shown.
(** C87: an id that belongs to one Kanji shows it as its name does; an id of several shows the legend once, the number of matches
    and then every Kanji without the legend *)
Theorem C87_matches : forall sort d ucd gd jd ks ts w i,
  Forall2 (fun k t => printDetails sort d ucd gd jd (kName k) true = Val (fst t) /\ printDetails sort d ucd gd jd (kName k) false = Val (snd t)) ks ts ->
  printList sort d ucd gd jd ks w i = Val (matches_text w i ts).
Proof.
  intros sort d ucd gd jd ks ts w i H.
  assert (L : len ks = len ts) by (clear -H; induction H; [reflexivity|unfold len in *; cbn [length]; lia]).
  assert (A : printAll sort d ucd gd jd ks false = Val (concat (map snd ts))).
  { clear L. induction H as [|k t ks ts [_ H] R IH]; [reflexivity|]. cbn [printAll]. rewrite H, IH. reflexivity. }
  destruct H as [|k [t0 t1] ks ts [H1 H2] R]; [unfold printList, matches_text; cbn [printAll obind]; rewrite app_nil_r; reflexivity|]. destruct R as [|k' [t0' t1'] ks ts X R].
  - unfold printList. change (len [k] =? 1) with true. cbv iota. cbn [printAll]. rewrite H1. cbn [obind app fst]. rewrite app_nil_r. reflexivity.
  - unfold printList. assert (L2 : 1 < len (k :: k' :: ks)) by (unfold len; cbn [length]; lia).
    replace (len (k :: k' :: ks) =? 1) with false by lia. replace (1 <? len (k :: k' :: ks)) with true by lia. rewrite A. cbn [obind].
    unfold matches_text. rewrite L. change (legendText Info_All) with legend. f_equal. rewrite <- !app_assoc. reflexivity.
Qed.
Print Assumptions C87_matches.
(** C87: no argument stands for two things *)
Theorem C87_one_meaning : forall d a x y, stands_for d a x -> stands_for d a y -> x = y.
Proof. exact one_meaning. Qed.
Print Assumptions C87_one_meaning.
(** C87: every other argument is refused, except for the numbers for which findByFrequency is undefined (see C34) *)
Theorem C87_refused : forall sort d ucd gd jd a, bytes_ok a -> no_nul a -> (forall x, ~ stands_for d a x) ->
  processKanjiArg sort d ucd gd jd a = Throw DomainError
  \/ (numeral a /\ decimal a <= 65535 /\ (forall k, findByFrequency d (decimal a) <> Val k)
      /\ processKanjiArg sort d ucd gd jd a = Ub).
Proof.
  intros sort d ucd gd jd a H1 H2 H3. destruct (arg_refused sort d ucd gd jd a H1 H2) as [[x X]|[_ X]]; [exfalso; exact (H3 x X)|exact X].
Qed.
Print Assumptions C87_refused.
(** C87: the name, the frequency, the Morohashi id, the Nelson id and the Unicode code of a Kanji all
    show the same text, when the ids belong to no other Kanji *)
Theorem C87_same_text : forall sort d ucd gd jd k c f r i t n h,
  kanji c -> kName k = enc c ->
  numeral f -> decimal f <= 65535 -> findByFrequency d (decimal f) = Val (Some k) ->
  morohashi r i t -> findByMorohashiId d (i, t) = [k] ->
  numeral n -> decimal n <= 65535 -> findByNelsonId d (decimal n) = [k] ->
  denotes 16 h c -> len h = 4 \/ (len h = 5 /\ 0x10000 <= c < 0x30000) ->
  forall a, In a [f; b_ "m" ++ r; b_ "n" ++ n; b_ "u" ++ h] ->
  processKanjiArg sort d ucd gd jd a = processKanjiArg sort d ucd gd jd (kName k).
Proof.
  intros sort d ucd gd jd k c f r i t n h Hk Ek Hf1 Hf2 Hf3 Hm1 Hm2 Hn1 Hn2 Hn3 Hh1 Hh2 a Ha.
  destruct (kanji_range c Hk) as [_ [_ Hs]].
  assert (K : stands_for d (kName k) (One (kName k))).
  { assert (T : kName k = text [c]) by (rewrite Ek; unfold text; cbn [flat_map]; rewrite app_nil_r; reflexivity). rewrite T. apply sf_kanji. exists c. auto. }
  rewrite (C87_shown sort d ucd gd jd _ _ K).
  assert (L : forall w id, printList sort d ucd gd jd [k] w id = printDetails sort d ucd gd jd (kName k) true).
  { intros w id. unfold printList. change (len [k] =? 1) with true. cbv iota. cbn [printAll].
    destruct (printDetails sort d ucd gd jd (kName k) true) as [x|e| |]; cbn [obind app]; try reflexivity. rewrite app_nil_r. reflexivity. }
  destruct Ha as [<-|[<-|[<-|[<-|[]]]]].
  - exact (C87_shown sort d ucd gd jd _ _ (sf_frequency d f k Hf1 Hf2 Hf3)).
  - rewrite (C87_shown sort d ucd gd jd _ _ (sf_morohashi d r i t Hm1)), Hm2. apply L.
  - rewrite (C87_shown sort d ucd gd jd _ _ (sf_nelson d n Hn1 Hn2)), Hn3. apply L.
  - rewrite Ek. exact (C87_shown sort d ucd gd jd _ _ (sf_unicode d h c Hh1 Hh2 Hs)).
Qed.
Print Assumptions C87_same_text.

Definition bySuffix := insertionSort orderByQualifiedName.
Definition k1 : Kanji := sample (b_ "一") 1 1.
Definition data1 : Data := MkData [(b_ "一", k1)] [] [] [] [] [] ([k1] :: repeat [] 9) [((1, Plain), [k1])] [(1, [k1])] 2.
Definition ucd1 : UcdData :=
  MkUcdData [(b_ "一", MkUcd (b_ "一") (b_ "CJK") (b_ "1.1") (b_ "yi") 0 0 1 (1, 0) (1, Plain) [] [] (b_ "J0-306C") [] [] [])] [] [].
Definition group1 (t : GroupType) (p : PatternType) (name : bytes) (ms : list QKanji) : Group := MkGroup t 1 name ms p.
Definition groups1 : GroupData :=
  match loadGroups sampleFind sampleMeaning samplePattern with Val g => g | _ => MkGroupData [] [] [] [] end.
Definition jukugo1 : JukugoData :=
  MkJData [] [(b_ "一", [MkJukugo (b_ "一日") (b_ "いちにち") 1; MkJukugo (b_ "一本") (b_ "いっぽん") 2;
                         MkJukugo (b_ "一人") (b_ "ひとり") 1; MkJukugo (b_ "一年生") (b_ "いちねんせい") 1;
                         MkJukugo (b_ "一見") (b_ "いっけん") 1; MkJukugo (b_ "一気") (b_ "いっき") 1])].
Notation arg1 := (processKanjiArg bySuffix data1 ucd1 groups1 jukugo1).
Example C87_cases : (exists t, arg1 (b_ "一") = Val t /\ arg1 (b_ "1") = Val t /\ arg1 (b_ "m1") = Val t /\ arg1 (b_ "n1") = Val t /\ arg1 (b_ "u4e00") = Val t)
  /\ arg1 (b_ "2") = Throw DomainError /\ arg1 (b_ "あ") = Throw DomainError /\ arg1 (b_ "一一") = Throw DomainError
  /\ arg1 (b_ "u4E0") = Throw DomainError /\ arg1 (b_ "u30000") = Throw DomainError /\ arg1 (b_ "n") = Throw DomainError /\ arg1 (b_ "x1") = Throw DomainError
  /\ arg1 (b_ "m") = Val (b_ "Found 0 matches for Morohashi ID " ++ [10]).
Proof. split; [exists (match arg1 (b_ "一") with Val t => t | _ => [] end)|]; repeat split; vm_compute; reflexivity. Qed.
Definition data2 : Data := MkData [(b_ "一", k1)] [] [] [] [] [] ([k1] :: repeat [] 9) [] [(9, [sample (b_ "二") 2 9; sample (b_ "三") 3 9])] 2.
Example C87_matches_case : exists u v, processKanjiArg bySuffix data2 ucd1 groups1 jukugo1 (b_ "n9")
  = Val (legend ++ b_ "
Found 2 matches for Nelson ID 9:

" ++ u ++ v) /\ u = b_ "二 [4E8C] --- Not found in 'ucd.txt'
" /\ v = b_ "三 [4E09] --- Not found in 'ucd.txt'
".
Proof. eexists. eexists. split; [|split; reflexivity]. vm_compute. reflexivity. Qed.
(** C87: the documented "u" argument is a Kanji, but any code is accepted *)
Theorem C87_unicode_refuted : exists sort d ucd gd jd c h t, ~ kanji c /\ denotes 16 h c
  /\ processKanjiArg sort d ucd gd jd (b_ "u" ++ h) = Val t.
Proof.
  exists bySuffix, data1, ucd1, groups1, jukugo1, 0x41, (b_ "0041"), (match arg1 (b_ "u0041") with Val t => t | _ => [] end). split; [|split; [apply (hex_denotes (b_ "0041")); [discriminate|reflexivity]|]].
  - intro H. destruct (kanji_range _ H) as [X _]. lia.
  - vm_compute. reflexivity.
Qed.
Print Assumptions C87_unicode_refuted.

(** C88: the review details of a Kanji are its reading, the other members of its first pattern group in
    order of their qualified names (none for a reading group), its ids, its meaning groups and its Jukugo *)
Theorem C88_review : forall sort find mr pr gd jd k,
  sorts orderByQualifiedName sort -> rows_ok mr -> rows_ok pr -> loadGroups find mr pr = Val gd ->
  (forall n q, find n = Some q -> kanji_ok (qKanji q)) -> Forall entry_ok (jFind jd (kName k)) ->
  exists t, reviewText sort gd jd k = Val t
    /\ review_lines (dReading (kDetails k)) k (meaningGroups gd) (patternGroups gd) (jFind jd (kName k)) t.
Proof.
  intros sort find mr pr gd jd k Hs Hm Hp E Hf Hj. destruct (C86_maps find mr pr gd Hm Hp E (kName k)) as [M1 M2].
  exact (review_text sort gd jd _ _ k Hs (loaded_members find mr pr gd Hm Hp E Hf) M1 M2 Hj).
Qed.
Print Assumptions C88_review.
(** C88: the line of similar Kanji is determined, whichever way std::sort works, when no two members
    of the group have the same place in the order *)
Theorem C88_similar_unique : forall k groups s t, members_ok groups ->
  (forall g a b, In g groups -> In a (map qKanji (gMembers g)) -> In b (map qKanji (gMembers g)) ->
     orderByQualifiedName a b = Val false -> orderByQualifiedName b a = Val false -> a = b) ->
  similar_line k groups s -> similar_line k groups t -> s = t.
Proof.
  intros k groups s t Hm Ht H1 H2. unfold similar_line in H1, H2. destruct (find (has_member (kName k)) groups) as [g|] eqn:F; [|congruence].
  apply find_some in F. destruct F as [I _].
  destruct H1 as [[P1 ->]|[P1 (a & -> & A1 & A2)]]; destruct H2 as [[P2 ->]|[P2 (b & -> & B1 & B2)]]; try congruence.
  assert (Sub : forall x, In x a -> In x (map qKanji (gMembers g))).
  { intros x Hx. apply (Permutation_in _ A1) in Hx. apply filter_In in Hx. exact (proj1 Hx). }
  assert (X : a = b); [|rewrite X; reflexivity].
  apply (in_order_unique orderByQualifiedName); [| |exact (Permutation_trans A1 (Permutation_sym B1))|exact A2|exact B2].
  - apply (strict_weak_sub _ _ kanji_ok); [|exact KanjiProofs.qualified_strict_weak]. intros x Hx. apply Sub in Hx. apply in_map_iff in Hx. destruct Hx as [q [<- Hq]].
    unfold members_ok in Hm. rewrite Forall_forall in Hm. specialize (Hm g I). rewrite Forall_forall in Hm. exact (Hm q Hq).
  - intros x y Hx Hy. apply (Ht g); auto.
Qed.
Print Assumptions C88_similar_unique.
(** C88: there is a sort as in C88_review *)
Theorem C88_sort_exists : sorts orderByQualifiedName bySuffix.
Proof. exact (insertion_sorts orderByQualifiedName). Qed.
Print Assumptions C88_sort_exists.
Example C88_review_case : reviewText bySuffix groups1 jukugo1 (sample (b_ "三") 3 14)
  = Val (b_ "    Reading: イチ
    Similar: 一.
  Morohashi: 1
  Nelson ID: 1
 Categories: [数字], [奇数]

").
Proof. vm_compute. reflexivity. Qed.

(** C88: all that is shown of a Kanji *)
Theorem C88_details : forall sort d ucd gd jd cs (showLegend : bool), chars cs ->
  exists codes, Forall2 shown_code codes cs /\
  let head := (if showLegend then legend ++ sources_legend else []) ++ text cs ++ b_ " [" ++ join 32 codes ++ b_ "]" in
  (ucdFind ucd (text cs) = Val None ->
     printDetails sort d ucd gd jd (text cs) showLegend = Val (head ++ b_ " --- Not found in 'ucd.txt'
"))
  /\ (forall u, ucdFind ucd (text cs) = Val (Some u) ->
     let src := match sources u with
                | [] => []
                | l => b_ ", Sources " ++ l ++ match ucdJSource u with [] => [] | j => b_ " (" ++ j ++ b_ ")" end
                end in
     let found := head ++ b_ ", Blk " ++ ucdBlock u ++ b_ ", Ver " ++ ucdVersion u ++ src in
     (findByName d (text cs) = None ->
        printDetails sort d ucd gd jd (text cs) showLegend = Val (found ++ b_ " --- Kanji not loaded'
"))
     /\ (forall k r, findByName d (text cs) = Some k -> Forall (fun n : bytes => n <> []) (kOldNames k) -> reviewText sort gd jd k = Val r ->
        printDetails sort d ucd gd jd (text cs) showLegend
        = Val (found ++ b_ ", " ++ type_text k ++ [10] ++ sep_by (b_ ", ") (map snd (fields_of k))
               ++ (match dMeaning (kDetails k) with [] => [] | m => [10] ++ b_ "    Meaning: " ++ m end) ++ [10] ++ r))).
Proof.
  intros sort d ucd gd jd cs b Hc. destruct (unicode_text cs Square Hc) as [us [U1 U2]]. exists us. split; [exact U1|]. cbv zeta.
  assert (A : addBrackets (join 32 us) Square = b_ "[" ++ join 32 us ++ b_ "]") by reflexivity. rewrite A in U2.
  assert (H0 : forall x r : bytes, x ++ text cs ++ [32] ++ (b_ "[" ++ join 32 us ++ b_ "]") ++ r = (x ++ text cs ++ b_ " [" ++ join 32 us ++ b_ "]") ++ r).
  { intros x r. rewrite <- !app_assoc. reflexivity. }
  split; [|intros u Hu; split].
  - intro Hu. unfold printDetails. rewrite U2. cbn [obind]. rewrite Hu. cbn [obind]. rewrite H0. reflexivity.
  - intro Hn. unfold printDetails. rewrite U2. cbn [obind]. rewrite Hu. cbn [obind]. rewrite Hn. cbn [obind]. cbv zeta. rewrite H0. f_equal. rewrite <- !app_assoc. reflexivity.
  - intros k r Hk Ho Hr. assert (T : extraTypeText k (kDetails k) = b_ ", " ++ type_text k).
    { unfold extraTypeText, extraTypeInfo, type_text, year_text. destruct (kType k); try reflexivity.
      - f_equal. destruct (dYear (kDetails k)) as [|y]; cbn [N.eqb N.ltb N.compare]; rewrite <- ?app_assoc, ?app_nil_r; reflexivity.
      - assert (R : (match dReason (kDetails k) with Some r => nth (N.to_nat r) ReasonNames [] | None => b_ "None" end) = reason_text (dReason (kDetails k))).
        { destruct (dReason (kDetails k)) as [n|]; [|reflexivity]. unfold reason_text.
          destruct (n =? 0) eqn:E0; [apply N.eqb_eq in E0; subst n; reflexivity|]. destruct (n =? 1) eqn:E1; [apply N.eqb_eq in E1; subst n; reflexivity|].
          destruct (n =? 2) eqn:E2; [apply N.eqb_eq in E2; subst n; reflexivity|]. destruct (n =? 3) eqn:E3; [apply N.eqb_eq in E3; subst n; reflexivity|].
          destruct (n =? 4) eqn:E4; [apply N.eqb_eq in E4; subst n; reflexivity|]. destruct (n =? 5) eqn:E5; [apply N.eqb_eq in E5; subst n; reflexivity|].
          apply nth_overflow. unfold ReasonNames. cbn [length]. apply N.eqb_neq in E0, E1, E2, E3, E4, E5. lia. }
        rewrite <- R. f_equal. destruct (dYear (kDetails k)) as [|y]; cbn [N.eqb N.ltb N.compare]; rewrite <- ?app_assoc, ?app_nil_r; reflexivity. }
    assert (I : info k Info_All = sep_by (b_ ", ") (map snd (fields_of k))).
    { rewrite (KanjiProofs.info_spec k Info_All Ho). f_equal. f_equal. apply ListProofs.filter_all.
      assert (F : forallb (fun p => N.testbit Info_All (fst p)) (fields_of k) = true).
      { unfold fields_of. rewrite !forallb_app. rewrite !andb_true_iff. repeat split.
        - destruct (kPinyin k); reflexivity.
        - destruct (kGrade k); reflexivity.
        - destruct (kLevel k); reflexivity.
        - destruct (0 <? kFrequency k); reflexivity.
        - destruct (kNewName k); [reflexivity|]. destruct (kOldNames k); reflexivity.
        - destruct (kKyu k); reflexivity. }
      intros x Hx. rewrite forallb_forall in F. exact (F x Hx). }
    rewrite <- I, (app_assoc (b_ ", ")), <- T. unfold printDetails. rewrite U2. cbn [obind]. rewrite Hu. cbn [obind]. rewrite Hk, Hr. cbn [obind]. cbv zeta. rewrite H0. f_equal.
    rewrite <- !app_assoc. do 13 f_equal. unfold meaningText. destruct (dMeaning (kDetails k)) as [|x m]; [reflexivity|]. cbn [nonEmpty]. rewrite <- !app_assoc. reflexivity.
Qed.
Print Assumptions C88_details.
Example C88_details_case : printDetails bySuffix data1 ucd1 groups1 jukugo1 (b_ "一") false
  = Val (b_ "一 [4E00], Blk CJK, Ver 1.1, Jouyou (#7)
Rad 一(1), Strokes 1, yi, G1, N5, Frq 1, K10
    Meaning: one
    Reading: イチ
    Similar: 二.
  Morohashi: 1
  Nelson ID: 1
 Categories: [数字], [奇数]
    Same Grade Jukugo: 5
一日（いちにち）  一人（ひとり）  一年生（いちねんせい）  
一見（いっけん）  一気（いっき）  
    Other Grade Jukugo: 一本（いっぽん）

").
Proof. vm_compute. reflexivity. Qed.

(** C89: the Jukugo of a Kanji: in one list, or those of its grade first when there are more than three and some have
    another grade; up to three on the line of the label, otherwise three to a line in columns *)
Theorem C89_jukugo : forall jd k, Forall entry_ok (jFind jd (kName k)) ->
  exists t, jukugoText jd k = Val t /\ jukugo_part k (jFind jd (kName k)) t.
Proof. exact jukugo_text. Qed.
Print Assumptions C89_jukugo.
(** C89: the lines have every entry once, in order, and are the only such lines *)
Theorem C89_lines : forall (es : list bytes) ls, by_three es ls ->
  concat ls = es /\ Forall (fun l => (1 <= length l <= 3)%nat) ls /\ forall ls', by_three es ls' -> ls' = ls.
Proof.
  intros es ls H. split; [exact (by_three_concat _ _ _ H)|]. split.
  - induction H as [|l L|a b c r ls R H IH]; [constructor|constructor; [exact L|constructor]|constructor; [cbn; lia|exact IH]].
  - intros ls' H'. rewrite (by_three_unique _ _ _ H), (by_three_unique _ _ _ H'). reflexivity.
Qed.
Print Assumptions C89_lines.
(** C89: the entries of a column start at the same place on every line, when none needs more than 28 places *)
Theorem C89_aligned : forall es ls l c, Forall shown_ok es -> (forall e, In e es -> size_of e <= 28) -> by_three es ls -> In l ls ->
  (c <= length l)%nat -> displaySize (before ls l c) = Val (sum (map (fun i => width (column i ls)) (seq 0 c))).
Proof. intros es ls l c H1 H2 H3 H4 H5. exact (proj2 (proj2 (columns_aligned es ls l c H1 H2 H3 H4 H5))). Qed.
Print Assumptions C89_aligned.
(** C89: ... and are two or more spaces apart *)
Theorem C89_apart : forall ls l c e, In l ls -> nth_error l c = Some e -> size_of e <= 28 ->
  exists n, padded (width (column c ls)) e = e ++ b_ "  " ++ repeat 32 n.
Proof.
  intros ls l c e H1 H2 H3. pose proof (column_width ls l c e H1 H2 H3) as W. unfold padded.
  exists (N.to_nat (width (column c ls) - size_of e - 2)). f_equal.
  replace (N.to_nat (width (column c ls) - size_of e)) with (S (S (N.to_nat (width (column c ls) - size_of e - 2)))) by lia. reflexivity.
Qed.
Print Assumptions C89_apart.
(** C89: longer entries run into each other *)
Definition longWord (n : bytes) : Jukugo := MkJukugo n (b_ "ああああああああああああああああああああ") 1.
Theorem C89_apart_refuted : exists jd k a b u v, Forall entry_ok (jFind jd (kName k)) /\ In a (jFind jd (kName k)) /\ In b (jFind jd (kName k))
  /\ jukugoText jd k = Val (u ++ nameAndReading a ++ nameAndReading b ++ v).
Proof.
  exists (MkJData [] [(b_ "一", [longWord (b_ "一日"); longWord (b_ "一年"); longWord (b_ "一人"); longWord (b_ "一本")])]), k1, (longWord (b_ "一日")), (longWord (b_ "一年")).
  exists (b_ "     Jukugo: 4
"), (b_ "一人（ああああああああああああああああああああ）
一本（ああああああああああああああああああああ）

"). split; [|split; [left; reflexivity|split; [right; left; reflexivity|vm_compute; reflexivity]]].
  assert (K : forall j, forallb (fun b => b <? 256) (nameAndReading j) && forallb (fun b => 0 <? b) (nameAndReading j) && (len (nameAndReading j) <? 1000)
      && match nameAndReading j with [] => true | b :: _ => 191 <? b end = true -> entry_ok j).
  { intros j H. rewrite !andb_true_iff in H. destruct H as [[[A B] C] D]. split; [apply sample_ok; exact A|]. split; [|split].
    - apply Forall_forall. intros x Hx. rewrite forallb_forall in B. specialize (B x Hx). lia.
    - unfold boundary. destruct (nameAndReading j); [exact Logic.I|lia].
    - change (2 ^ 30) with 1073741824. lia. }
  apply Forall_forall. intros j Hj. apply K. revert j Hj. apply forallb_forall. vm_compute. reflexivity.
Qed.
Print Assumptions C89_apart_refuted.
