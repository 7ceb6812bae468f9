(** Proofs about the text of the rows of the statistics. *)
From Verif Require Import BaseFacts Utf8Proofs Utf8CharProofs Utf8CharLemmas BlockProofs StringProofs KanjiProofs MapProofs CountFile CountProofs StatsProofs StatsReportSpec StatsReportCount.
Open Scope N_scope.
Arguments N.mul : simpl never.
Arguments N.add : simpl never.
Arguments N.sub : simpl never.

(** ** Lists of examples, types *)
Lemma examples_ok : forall l, putExamples true l = separated (b_ ", ") (map (fun c => kName c ++ b_ " " ++ to_string (kCount c)) l).
Proof.
  assert (H : forall l x, x ++ putExamples false l = separated (b_ ", ") (x :: map (fun c => kName c ++ b_ " " ++ to_string (kCount c)) l)).
  { induction l as [|c l IH]; intro x; [cbn [putExamples map separated]; apply app_nil_r|].
    cbn [putExamples map]. 
    change (separated (b_ ", ") (x :: (kName c ++ b_ " " ++ to_string (kCount c)) :: map (fun c => kName c ++ b_ " " ++ to_string (kCount c)) l))
      with (x ++ b_ ", " ++ separated (b_ ", ") ((kName c ++ b_ " " ++ to_string (kCount c)) :: map (fun c => kName c ++ b_ " " ++ to_string (kCount c)) l)).
    rewrite <- IH. rewrite <- !app_assoc. reflexivity. }
  intros [|c l]; [reflexivity|]. cbn [putExamples map]. rewrite <- H. rewrite <- !app_assoc. reflexivity.
Qed.
Lemma total_filter : forall t l, total (map (fun c => if type c =? t then kCount c else 0) l) = total (map kCount (filter (fun c => type c =? t) l)).
Proof.
  intros t. induction l as [|c l IH]; [reflexivity|]. cbn [map filter total fold_right]. unfold total in IH. destruct (type c =? t); cbn [map fold_right]; lia.
Qed.
Lemma typeLine_ok : forall n l t, typeLine n l (fst t) = typeLine n l (fst t) -> typeName (fst t) = snd t ->
  typeLine n l (fst t) = type_text n l t.
Proof.
  intros n l [t title] _ H. cbn [fst snd] in *. unfold typeLine, type_text, of_type. cbn [fst snd].
  rewrite typeTotal_sum, total_filter, typeUnique_sum, typeExamples_first, H. unfold count.
  destruct (filter (fun c => type c =? t) l) as [|c r] eqn:E.
  - replace (existsb (fun c => type c =? t) l) with false; [reflexivity|]. symmetry.
    destruct (existsb (fun c => type c =? t) l) eqn:X; [|reflexivity]. apply existsb_exists in X. destruct X as [x [X1 X2]].
    assert (F : In x (filter (fun c => type c =? t) l)) by (apply filter_In; auto). rewrite E in F. destruct F.
  - replace (existsb (fun c => type c =? t) l) with true.
    + rewrite examples_ok. unfold row_line, examples, percent, printTotalAndUnique.
      repeat (progress (rewrite <- ?app_assoc; cbn [app])). reflexivity.
    + symmetry. apply existsb_exists. exists c. assert (F : In c (filter (fun c => type c =? t) l)) by (rewrite E; left; reflexivity).
      apply filter_In in F. exact F.
Qed.
Lemma types_ok : forall n l, printKanjiTypeCounts n l = flat_map (type_text n l) type_titles.
Proof.
  intros n l. unfold printKanjiTypeCounts, type_titles. cbn [flat_map].
  repeat match goal with |- context [type_text n l (?a, ?b)] => rewrite <- (typeLine_ok n l (a, b) eq_refl eq_refl) end. reflexivity.
Qed.

(** ** The characters of a row *)
Lemma tally_perm : forall cs, Permutation (incs cs []) (tally cs).
Proof.
  intro cs. pose proof (incs_sorted cs [] msorted_nil) as Hs.
  assert (V : forall k n, mfind k (incs cs []) = Some n -> n = occurs k cs).
  { intros k n E. pose proof (incs_val cs [] k msorted_nil) as K. rewrite E in K. cbn [val mfind] in K. lia. }
  apply NoDup_Permutation.
  - apply (NoDup_map_inv fst). exact (msorted_nodup _ Hs).
  - apply (NoDup_map_inv fst). unfold tally. rewrite map_map. cbn [fst]. rewrite map_id. apply NoDup_nodup.
  - intros [k n]. unfold tally. rewrite in_map_iff. split.
    + intro H. exists k. apply (mfind_In _ _ _ Hs) in H. rewrite <- (V _ _ H). split; [reflexivity|].
      apply nodup_In. apply mfind_in_keys in H. apply incs_keys in H. destruct H as [H|[]]. exact H.
    + intros [x [E H]]. inversion E; subst. apply nodup_In in H.
      assert (K : In k (keys (incs cs []))) by (apply incs_keys; left; exact H).
      unfold keys in K. apply in_map_iff in K. destruct K as [[k' v] [Ek K]]. cbn [fst] in Ek. subst k'.
      rewrite <- (V k v (mfind_In _ _ _ Hs K)). exact K.
Qed.
Lemma tally_len : forall cs, len (tally cs) = len (nodup bytes_eq_dec cs).
Proof. intro cs. unfold tally, len. rewrite map_length. reflexivity. Qed.
Lemma rowTotal_ok : forall m, rowTotal m = map_total m.
Proof.
  intro m. unfold rowTotal, map_total.
  assert (H : forall n, fold_left (fun t (e : bytes * N) => t + snd e) m n = n + total (map snd m)); [|rewrite H; lia].
  induction m as [|e m IH]; intro n; [cbn; lia|]. cbn [fold_left map total fold_right]. rewrite IH. unfold total. lia.
Qed.

(** ** The names of the rows *)
Lemma names_ok : forall ucd row, In row (rows ucd) ->
  isKanjiRow (fst row) = about_kanji (row_name row)
  /\ isKanjiRow (fst row) && BlockModel.startsWith (fst row) (b_ "Common") = is_row (b_ "Common Kanji") row
  /\ beq (fst row) (b_ "Hiragana") || beq (fst row) (b_ "Katakana") || beq (fst row) (b_ "MB-Letter") = without_furigana (row_name row)
  /\ isKanjiRow (fst row) && negb (BlockModel.startsWith (fst row) (b_ "Non-UCD")) = is_row (b_ "Common Kanji") row || is_row (b_ "Rare Kanji") row.
Proof.
  intros ucd row H. unfold is_row, row_name. unfold rows in H.
  repeat (destruct H as [<-|H]; [cbn [fst]; repeat split; vm_compute; reflexivity|]). destruct H.
Qed.

(** ** Tags *)
Lemma texts_tagged : forall find k n, (node_size n <= k)%nat -> forall name fileNames recurse,
  Forall (fun t => tagged t = true) (node_texts (file_strings find) n name true fileNames recurse).
Proof.
  intros find. induction k as [|k IH]; intros n Hk name fileNames recurse; [destruct n as [| |[|]|]; cbn in Hk; lia|].
  assert (Hown : Forall (fun t : bytes * option bytes => tagged t = true) (if fileNames then [(name, Some name)] else [])).
  { destruct fileNames; [constructor; [reflexivity|constructor]|constructor]. }
  destruct n as [c|es|t|]; [| |constructor|constructor].
  - cbn [node_texts]. apply Forall_app. split; [|exact Hown]. apply Forall_map. apply Forall_forall. reflexivity.
  - change (node_texts (file_strings find) (Dir es) name true fileNames recurse)
      with (flat_map (entry_texts find true fileNames recurse) es ++ (if fileNames then [(name, Some name)] else [])).
    apply Forall_app. split; [|exact Hown]. apply Forall_flat_map. apply Forall_forall. intros e He.
    assert (A : (node_size (snd e) <= k)%nat).
    { cbn [node_size] in Hk. clear - Hk He.
      assert (Hk' : (fold_right (fun e k => node_size (snd e) + k) 0 es <= k)%nat) by lia. clear Hk.
      induction es as [|x es IHe]; [destruct He|]. cbn [fold_right] in *.
      destruct He as [->|He]; [lia|]. apply IHe; [exact He|lia]. }
    unfold entry_texts. pose proof (IH (snd e) A) as IHe. destruct (snd e) as [cc|ee|tt|]; try constructor.
    + apply IHe.
    + destruct recurse; [apply IHe|constructor].
Qed.
Lemma filter_all : forall (A : Type) (f : A -> bool) l, Forall (fun x => f x = true) l -> filter f l = l.
Proof. intros A f l H. induction H as [|x l Hx H IH]; [reflexivity|]. cbn [filter]. rewrite Hx, IH. reflexivity. Qed.

Definition tpositive (m : smap (smap N)) : Prop := Forall (fun e => Forall (fun x => 0 < snd x) (snd e)) m.
Lemma update_positive : forall k (m : smap N), Forall (fun x => 0 < snd x) m -> Forall (fun x => 0 < snd x) (increment k m).
Proof.
  intros k m H. unfold increment. induction H as [|[x v] m Hv H IH]; cbn [mupdate]; [constructor; [cbn; lia|constructor]|].
  destruct (beq x k); [constructor; [cbn [snd plus1] in *; lia|exact H]|].
  destruct (blt k x); (constructor; [cbn [snd plus1] in *; lia|]); [constructor; assumption|assumption].
Qed.
Lemma tag_positive : forall k g m, tpositive m -> tpositive (incrementTag k g m).
Proof.
  intros k g m H. unfold incrementTag, tpositive in *. induction H as [|[x v] m Hv H IH]; cbn [mupdate].
  - constructor; [|constructor]. cbn [snd]. apply update_positive. constructor.
  - destruct (beq x k); [constructor; [cbn [snd] in *; apply update_positive; exact Hv|exact H]|].
    destruct (blt k x); (constructor; [cbn [snd] in *|]); [apply update_positive; constructor|constructor; assumption|exact Hv|exact IH].
Qed.
Lemma tincs_positive : forall l m, tpositive m -> tpositive (tincs l m).
Proof. induction l as [|[k g] l IH]; intros m H; [exact H|]. apply IH, tag_positive, H. Qed.

Lemma sorted_split : forall (a b : smap N) k n, msorted (a ++ (k, n) :: b) ->
  forall g v, In (g, v) a -> blt g k = true.
Proof.
  induction a as [|[x w] a IH]; intros b k n H g v Hin; [destruct Hin|].
  unfold msorted, keys in H. cbn [app map fst] in H. inversion H as [|? ? H1 H2]; subst. destruct Hin as [E|Hin].
  - inversion E; subst. rewrite map_app in H2. apply Forall_app in H2. destruct H2 as [_ H2]. inversion H2. assumption.
  - exact (IH b k n H1 g v Hin).
Qed.

Section Tags.
  Variable find : option (list N -> list N).
  Variable p : bytes -> bool.
  Variable I : bytes -> list item.
  Notation toks := (counted find p I).
  (** the file that is shown has the most, and is the first of those *)
  Lemma highest_most : forall ts nf nd c k, Grown find p I newCounter ts nf nd c -> Forall (fun t => tagged t = true) ts ->
    In k (flat_map toks ts) ->
    exists tags, tagsOf k c = Some tags
      /\ (let number g := occurs k (flat_map toks (filter (has_tag g) ts)) in
          0 < number (highestFile tags)
          /\ forall g, number g <= number (highestFile tags) /\ (blt g (highestFile tags) = true -> number g < number (highestFile tags))).
  Proof.
    intros ts nf nd c k G Ht Hk. destruct (grown_counts find p I ts nf nd c G) as (_ & T1 & T2 & _).
    specialize (T1 k). specialize (T2 k). rewrite (filter_all _ tagged ts Ht) in T2.
    assert (P : 0 < occurs k (flat_map toks ts)).
    { unfold occurs, count. clear - Hk. assert (F : In k (filter (beq k) (flat_map toks ts))) by (apply filter_In; rewrite beq_refl; auto).
      destruct (filter (beq k) (flat_map toks ts)); [destruct F|]. rewrite len_cons. lia. }
    destruct (tagsOf k c) as [tags|] eqn:E; [|lia]. exists tags. split; [reflexivity|]. cbv zeta.
    assert (S1 : msorted tags /\ Forall (fun e => 0 < snd e) tags).
    { unfold tagsOf in E. rewrite (g_tags _ _ _ _ _ _ _ _ G) in E. cbn [newCounter cTags] in E. split.
      - eapply tsorted_find; [|exact E]. apply tincs_sorted. apply tsorted_nil.
      - assert (Q := tincs_positive (flat_map (ttoks find p I) ts) [] (Forall_nil _)). unfold tpositive in Q. rewrite Forall_forall in Q.
        exact (Q (k, tags) (In_mfind _ _ _ E)). }
    destruct S1 as [S1 S2].
    destruct (highest_spec tags) as (a & n & b & Et & Ha & Hb); [intro Z; rewrite Z in T2; cbn in T2; lia|exact S2|].
    set (h := highestFile tags) in *.
    assert (Fh : mfind h tags = Some n) by (apply mfind_In; [exact S1|]; rewrite Et; apply in_app_iff; right; left; reflexivity).
    assert (Nh : occurs k (flat_map toks (filter (has_tag h) ts)) = n) by (rewrite <- T1, Fh; reflexivity).
    rewrite Nh. assert (Pn : 0 < n).
    { rewrite Forall_forall in S2. apply (S2 (h, n)). rewrite Et. apply in_app_iff. right. left. reflexivity. }
    split; [exact Pn|]. intro g. rewrite <- T1. destruct (mfind g tags) as [v|] eqn:Eg; [|split; lia].
    apply In_mfind in Eg. rewrite Et in Eg. apply in_app_iff in Eg. rewrite Forall_forall in Ha, Hb. destruct Eg as [Eg|[Eg|Eg]].
    - specialize (Ha _ Eg). cbn [snd] in Ha. lia.
    - assert (X : g = h /\ v = n) by (injection Eg; intros; split; congruence). destruct X as [-> ->]. split; [lia|]. rewrite blt_irrefl. discriminate.
    - pose proof (Hb _ Eg) as Hv. cbn [snd] in Hv. split; [lia|]. intro L. exfalso.
      rewrite Et in S1. unfold msorted, keys in S1. rewrite map_app in S1. cbn [map fst] in S1.
      assert (R : StronglySorted (fun a b => blt a b = true) (h :: map fst b)).
      { clear - S1. induction (map fst a) as [|x l IH]; [exact S1|]. cbn [app] in S1. inversion S1. apply IH. assumption. }
      inversion R as [|? ? _ R2]. rewrite Forall_forall in R2. specialize (R2 g). rewrite (blt_asym _ _ L) in R2.
      assert (false = true); [|discriminate]. apply R2. apply in_map_iff. exists (g, v). auto.
  Qed.
End Tags.

(** ** Hexadecimal numbers *)
Lemma join_separated : forall l, ColumnFileSpec.join 32 l = separated (b_ " ") l.
Proof. induction l as [|x l IH]; [reflexivity|]. destruct l as [|y l]; [reflexivity|]. change (x ++ [32] ++ ColumnFileSpec.join 32 (y :: l) = x ++ b_ " " ++ separated (b_ " ") (y :: l)). rewrite IH. reflexivity. Qed.
Lemma hexOf_size : forall x, denotes 16 (hexOf x) x /\ Forall is_upper_hex (hexOf x) /\ min_size (hexOf x) 4.
Proof.
  intro x. unfold hexOf, toUnicode. destruct (to_hex_spec 4 x Upper 4) as [s (H1 & H2 & H3 & H4)]. rewrite H1. cbn [addBrackets]. auto.
Qed.
Lemma unicode_text : forall cs, chars cs -> exists hex, toUnicode_string (text cs) NoBrackets = Val (separated (b_ " ") hex)
  /\ Forall2 (fun x h => denotes 16 h x /\ Forall is_upper_hex h /\ min_size h 4) cs hex.
Proof.
  intros cs H. exists (map hexOf cs). destruct (unicode_ok (text cs) (text_ok _ H)) as [ds [E1 E2]].
  rewrite (text_decode cs 0 H) in E1. cbn in E1. inversion E1; subst ds. rewrite E2, join_separated. split; [reflexivity|].
  clear. induction cs as [|c cs IH]; constructor; [apply hexOf_size|exact IH].
Qed.

(** ** A row *)
Lemma level_ok : forall v, (if v <? 5 then nth (N.to_nat v) levelNames [] else b_ "--") = level_title v.
Proof.
  intro v. unfold level_title. destruct (v <? 5) eqn:E.
  - assert (H : (N.to_nat v < 5)%nat) by lia. unfold levelNames. apply nth_indep. exact H.
  - symmetry. apply nth_overflow. cbn [List.length]. lia.
Qed.
Section Row.
  Variable mf : N.
  Hypothesis Hmf : mf < 65535.
  Variable ucd : bytes -> bool.
  Variable findByName : bytes -> option Entry.
  Variable order : list SCount -> list SCount.
  Hypothesis Horder : forall l, exists t, built (less mf) l t /\ order l = inorder t.
  Variable fs : bytes -> option node.
  Variable I : bytes -> list item.
  Hypothesis HI : reader I.
  Variables breakdown verbose : bool.

  Lemma lines_ok : forall top name row c l i,
    (forall x, In x l -> kEntry x = None -> (exists cs, kName x = text cs /\ chars cs)
      /\ exists tags, tagsOf (kName x) c = Some tags /\ most_in I top name verbose row (kName x) (highestFile tags)) ->
    exists s, breakdownLines breakdown c i l = Val s /\ breakdown_lines I top name breakdown verbose row (i + 1) l s.
  Proof.
    intros top name row c. induction l as [|x l IH]; intros i H; [exists []; split; [reflexivity|constructor]|].
    destruct (IH (i + 1) (fun y Hy => H y (or_intror Hy))) as [r [E R]]. cbn [breakdownLines].
    specialize (H x (or_introl eq_refl)). unfold putCount. destruct (kEntry x) as [e|] eqn:Ee.
    - cbn [obind]. rewrite E. cbn [obind]. eexists. split; [reflexivity|].
      match goal with |- breakdown_lines _ _ _ _ _ _ _ _ ?s => 
        replace s with ((b_ "  " ++ (if breakdown then to_left 5 (to_string (i + 1)) ++ b_ " " else [])
          ++ b_ "[" ++ kName x ++ b_ " " ++ to_right 4 (to_string (kCount x)) ++ b_ "]"
          ++ (to_right 5 (to_string (eFrequency e)) ++ b_ ", " ++ level_title (eLevel e) ++ b_ ", "
                            ++ nth (N.to_nat (eType e)) (map snd type_titles) []) ++ [10]) ++ r) end.
      + constructor; [|exact R]. unfold breakdown_line. rewrite Ee. eexists. split; [reflexivity|]. reflexivity.
      + rewrite level_ok. replace (frequencyOrDefault e 0) with (eFrequency e) by (unfold frequencyOrDefault; destruct (eFrequency e =? 0) eqn:Z; lia).
        destruct breakdown; repeat (progress (rewrite <- ?app_assoc; cbn [app])); reflexivity.
    - destruct (H eq_refl) as [[cs [Ex Hc]] [tags [Et Hm]]]. destruct (unicode_text cs Hc) as [hex [Eu Hh]].
      replace (toUnicode_string (kName x) NoBrackets) with (Val (separated (b_ " ") hex)) by (rewrite Ex; symmetry; exact Eu). cbn [obind]. rewrite E. cbn [obind]. rewrite Et. eexists. split; [reflexivity|].
      match goal with |- breakdown_lines _ _ _ _ _ _ _ _ ?s => 
        replace s with ((b_ "  " ++ (if breakdown then to_left 5 (to_string (i + 1)) ++ b_ " " else [])
          ++ b_ "[" ++ kName x ++ b_ " " ++ to_right 4 (to_string (kCount x)) ++ b_ "]"
          ++ (b_ ", " ++ to_right 7 (b_ "U+" ++ separated (b_ " ") hex) ++ b_ ", " ++ highestFile tags) ++ [10]) ++ r) end.
      + constructor; [|exact R]. unfold breakdown_line. rewrite Ee. eexists. split; [reflexivity|].
        exists cs, hex, (highestFile tags). auto.
      + destruct breakdown; repeat (progress (rewrite <- ?app_assoc; cbn [app])); reflexivity.
  Qed.

  (** the name that is shown *)
  Definition shownOf (top : bytes) : bytes := match filename top with [] => parentName top | f => f end.
  (** the text before the row *)
  Definition replaced (t : node) (name : bytes) (row : bytes * (bytes -> out bool)) : bytes :=
    if is_row (b_ "Hiragana") row && verbose then
      b_ ">>> Showing all Furigana replacements:" ++ [10]
      ++ replacements_text (regex (without_furigana (row_name row))) [] 0 (row_texts t name verbose row)
    else [].
  Lemma run_ok : forall row first top n t, In row (rows ucd) -> fs top = Some n -> resolve n = Some t -> node_ok n -> bytes_ok (filename top) ->
    exists s, run findByName order fs breakdown verbose first top row
        = Val (len (row_chars I t (filename top) verbose row),
               replaced t (filename top) row ++ (if first then header I t (filename top) (shownOf top) verbose row else []) ++ s)
      /\ row_text mf findByName I t (filename top) breakdown verbose row s.
  Proof.
    intros row first top n t Hin Hf Hr Hn Hb. destruct (names_ok ucd row Hin) as (N1 & N2 & N3 & N4). unfold run. cbv zeta.
    rewrite N2, N3, N1, Hf. fold (regex (without_furigana (row_name row))).
    set (os := if beq (fst row) (b_ "Hiragana") && verbose then _ else _).
    pose proof (fun t Ht => rows_total ucd row t Hin Ht) as Htot.
    change (beq (fst row) (b_ "Unrecognized")) with (is_row (b_ "Unrecognized") row) in *.
    change (beq (fst row) (b_ "Hiragana")) with (is_row (b_ "Hiragana") row) in *.
    fold (tags_row verbose row).
    destruct (addFileV_spec (regex (without_furigana (row_name row))) (takes row) I HI (snd row) Htot (is_row (b_ "Hiragana") row && verbose)
                n t (filename top) (tags_row verbose row) (newCounter, os) Hr Hb Hn) as [[c os'] [E [G _ X]]].
    rewrite E. cbn [obind]. clear E. cbn [fst snd] in *.
    change (node_texts (file_strings (regex (without_furigana (row_name row)))) t (filename top) (tags_row verbose row) true true)
      with (row_texts t (filename top) verbose row) in *.
    set (ts := row_texts t (filename top) verbose row) in *.
    assert (Hcs : flat_map (counted (regex (without_furigana (row_name row))) (takes row) I) ts = row_chars I t (filename top) verbose row) by reflexivity.
    set (cs := row_chars I t (filename top) verbose row) in *.
    assert (Hos : os' = replaced t (filename top) row).
    { rewrite X. unfold replaced. fold ts. unfold os. destruct (is_row (b_ "Hiragana") row && verbose); [|reflexivity].
      cbn [newCounter cLastReplaceTag cReplacements]. rewrite <- app_assoc. reflexivity. }
    assert (Hhd : printHeaderInfo top c = header I t (filename top) (shownOf top) verbose row).
    { unfold printHeaderInfo, header. cbv zeta. fold (shownOf top).
      destruct G. cbn [newCounter cFiles cDirectories cErrors cVariants cMarks cReplacements] in *. rewrite ?N.add_0_l in *.
      change (events_of I t (filename top) verbose row) with (fun f => CountProofs.events (regex (without_furigana (row_name row))) I f ts).
      change (changed_in t (filename top) verbose row) with (count (changed (regex (without_furigana (row_name row)))) ts).
      cbv beta. rewrite g_files, g_dirs, g_errors, g_variants, g_marks, g_repl.
      cbn [forallb]. rewrite andb_true_r.
      set (a := node_files t true). set (b := node_dirs t true).
      set (r := count (changed (regex (without_furigana (row_name row)))) ts).
      set (m := CountProofs.events (regex (without_furigana (row_name row))) I is_combined ts).
      set (v := CountProofs.events (regex (without_furigana (row_name row))) I is_variant ts).
      set (x := CountProofs.events (regex (without_furigana (row_name row))) I is_error ts).
      replace (negb (r =? 0) || negb (m =? 0) || negb (v =? 0)) with (negb ((0 =? r) && ((0 =? m) && (0 =? v)))) by
        (rewrite (N.eqb_sym 0 r), (N.eqb_sym 0 m), (N.eqb_sym 0 v); destruct (r =? 0), (m =? 0), (v =? 0); reflexivity).
      replace (1 <? a) with (negb (a <=? 1)) by (rewrite N.leb_antisym, negb_involutive; reflexivity).
      replace (1 <? b) with (negb (b <=? 1)) by (rewrite N.leb_antisym, negb_involutive; reflexivity).
      change (to_string (N.of_nat MaxExamples)) with (b_ "5").
      destruct (a <=? 1), (b <=? 1), ((0 =? r) && ((0 =? m) && (0 =? v))), (x =? 0); cbn [negb];
        repeat (progress (rewrite <- ?app_assoc; cbn [app])); reflexivity. }
    rewrite Hhd. clear Hhd X. rewrite Hos. clear Hos.
    destruct (grown_counts _ _ _ _ _ _ _ G) as (_ & _ & _ & T1 & _). rewrite Hcs in T1. rewrite rowTotal_ok, T1.
    pose proof (g_map _ _ _ _ _ _ _ _ G) as Gm. cbn [newCounter cMap] in Gm. rewrite Hcs in Gm. rewrite Gm.
    pose proof (row_ascending findByName (about_kanji (row_name row)) _ (incs_sorted cs [] msorted_nil)) as Ha.
    destruct (Horder (rowCounts findByName (about_kanji (row_name row)) (incs cs []))) as [tr [B Eo]].
    pose proof (built_perm mf Hmf _ _ B Ha) as Bp. rewrite <- Eo in Bp.
    set (l := order (rowCounts findByName (about_kanji (row_name row)) (incs cs []))) in *.
    assert (Hl : listing mf findByName I t (filename top) verbose row l).
    { split; [|split].
      - fold cs. etransitivity; [apply Permutation_map; exact Bp|]. unfold rowCounts. rewrite map_map. cbn [kName kCount].
        etransitivity; [|apply tally_perm]. rewrite (map_ext _ (fun e => e)); [rewrite map_id; reflexivity|]. intros [k v]. reflexivity.
      - eapply Permutation_Forall; [symmetry; exact Bp|]. unfold rowCounts. apply Forall_map. apply Forall_forall. intros e _. cbn [kEntry kName]. reflexivity.
      - intro O. rewrite Eo. apply (built_sorted mf Hmf _ _ B Ha). intros x y Hx Hy. apply O; eapply Permutation_in; try (symmetry; exact Bp); assumption. }
    assert (Ln : len l = len (nodup bytes_eq_dec cs)).
    { rewrite <- tally_len. unfold len. f_equal. rewrite <- (Permutation_length (tally_perm cs)).
      rewrite (Permutation_length Bp). unfold rowCounts. apply map_length. }
    unfold row_text. fold cs. destruct (len cs =? 0) eqn:Z; cbn [negb].
    - exists []. rewrite app_nil_r. split; reflexivity.
    - assert (K : exists b, (if is_row (b_ "Unrecognized") row || about_kanji (row_name row) && breakdown
                             then printBreakdown (fst row) breakdown c l else Val []) = Val b
         /\ (if is_row (b_ "Unrecognized") row || about_kanji (row_name row) && breakdown
             then breakdown_text I t (filename top) breakdown verbose row l b else b = [])).
      { destruct (is_row (b_ "Unrecognized") row || about_kanji (row_name row) && breakdown) eqn:Sh; [|exists []; split; reflexivity].
        destruct (lines_ok t (filename top) row c l 0) as [s [Es Hs]].
        - intros x Hx _.
          assert (Hxc : In (kName x) cs).
          { apply (Permutation_in _ Bp) in Hx. unfold rowCounts in Hx. apply in_map_iff in Hx. destruct Hx as [[k v] [<- Hk]]. cbn [kName fst].
            apply (in_map fst) in Hk. cbn [fst] in Hk. apply incs_keys in Hk. destruct Hk as [Hk|[]]. exact Hk. }
          split.
          + unfold cs, row_chars in Hxc. apply in_flat_map in Hxc. destruct Hxc as [u [Hu Hx2]]. unfold counted in Hx2. apply filter_In in Hx2.
            destruct Hx2 as [Hx2 _]. 
            assert (Hub : bytes_ok (fst u)).
            { pose proof (node_texts_ok (regex (without_furigana (row_name row))) _ t (Nat.le_refl _) (filename top) (tags_row verbose row) true true Hb
                (resolve_ok (takes row) (snd row) Htot _ _ _ (le_n _) Hr Hn)) as F. rewrite Forall_forall in F. exact (F u Hu). }
            destruct (ctext_value (regex (without_furigana (row_name row))) (fst u) Hub) as [w [Hw [Ew _]]]. rewrite Ew in Hx2.
            destruct (HI w Hw) as [es [Pe Ei]]. rewrite Ei in Hx2.
            destruct (tokens_form _ es (le_n _) (parse_scalars _ es Pe) _ Hx2) as [ds [E1 E2]]. exists ds. split; [exact E1|apply token_chars; exact E2].
          + assert (Tg : Forall (fun t => tagged t = true) ts).
            { unfold ts, row_texts. replace (tags_row verbose row) with true; [apply (texts_tagged _ _ _ (le_n _))|].
              symmetry. unfold tags_row. destruct (is_row (b_ "Unrecognized") row); [rewrite orb_true_r; reflexivity|].
              cbn [orb] in Sh. apply andb_true_iff in Sh. destruct Sh as [-> _]. reflexivity. }
            destruct (highest_most _ _ _ ts _ _ c (kName x) G Tg) as [tags [E1 E2]]; [rewrite Hcs; exact Hxc|].
            exists tags. split; [exact E1|exact E2].
        - unfold printBreakdown. rewrite Es. cbn [obind]. eexists. split; [reflexivity|]. exists s. split; [exact Hs|].
          rewrite N4. reflexivity. }
      destruct K as [b [Eb Hb2]]. rewrite Eb. cbn [obind]. rewrite Ln.
      eexists. split.
      + f_equal. f_equal. rewrite <- app_assoc. reflexivity.
      + exists l, b. split; [exact Hl|]. split; [exact Hb2|]. unfold printTotalAndUnique, row_line. rewrite types_ok.
        change (fst row) with (row_name row).
        destruct (is_row (b_ "Common Kanji") row); [|destruct (about_kanji (row_name row)); [unfold printRareExamples; rewrite examples_ok; unfold examples|]];
          repeat (progress (rewrite <- ?app_assoc; cbn [app])); reflexivity.
  Qed.
End Row.
