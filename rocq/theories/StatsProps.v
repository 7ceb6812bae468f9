(** Property theorems about the statistics. *)
From Verif Require Import BaseFacts Utf8Proofs Utf8CharProofs Utf8CharLemmas BlockProofs MapProofs CountProofs StatsSpec StatsProofs.
Open Scope N_scope.

(** C36: the order is no order: a Kanji without frequency can both precede and follow another
    one of a different type, whatever the lowest frequency is *)
Theorem C36_order_refuted : forall mf, exists a b,
  kCount b < kCount a /\ less mf a b = true /\ less mf b a = true.
Proof.
  intro mf. exists {| kCount := 10; kName := b_ "乃"; kEntry := Some {| eFrequency := 0; eType := 1; eLevel := 5 |} |},
    {| kCount := 1; kName := b_ "僅"; kEntry := Some {| eFrequency := 0; eType := 0; eLevel := 5 |} |}.
  split; [cbn; lia|]. unfold less, frequency, frequencyOrDefault. cbn [kCount kName kEntry eFrequency type eType].
  rewrite !N.eqb_refl. split; reflexivity.
Qed.
Print Assumptions C36_order_refuted.

(** C36: so a listing can show a Kanji seen once before one seen ten times *)
Theorem C36_listing_refuted : forall mf, exists x y t,
  ascending [x; y] /\ built (less mf) [x; y] t /\ inorder t = [y; x] /\ kCount y < kCount x.
Proof.
  intro mf. pose (x := {| kCount := 10; kName := b_ "乃"; kEntry := Some {| eFrequency := 0; eType := 1; eLevel := 5 |} |}).
  pose (y := {| kCount := 1; kName := b_ "僅"; kEntry := Some {| eFrequency := 0; eType := 0; eLevel := 5 |} |}).
  exists x, y, (Node Leaf y (Node Leaf x Leaf)).
  split; [repeat constructor|]. split; [|split; [reflexivity|cbn; lia]].
  assert (L : less mf y x = true).
  { unfold less, frequency, frequencyOrDefault, x, y. cbn [kCount kName kEntry eFrequency type eType].
    rewrite !N.eqb_refl. reflexivity. }
  change [x; y] with (([] ++ [x]) ++ [y]).
  apply built_add with (t := Node Leaf x Leaf).
  - apply built_add with (t := Leaf); [constructor|reflexivity].
  - unfold insertPos. cbn [descend inorder]. rewrite L. reflexivity.
Qed.
Print Assumptions C36_listing_refuted.

(** C36: but however the tree is balanced, a listing contains every character of its row with
    its count, once *)
Theorem C36_nothing_is_lost : forall mf find isKanji m t, mf < 65535 -> msorted m ->
  built (less mf) (rowCounts find isKanji m) t ->
  Permutation (map (fun c => (kName c, kCount c)) (inorder t)) m.
Proof.
  intros mf find isKanji m t Hmf Hm H.
  pose proof (row_ascending find isKanji m Hm) as Ha.
  pose proof (Permutation_map (fun c => (kName c, kCount c)) (built_perm mf Hmf _ _ H Ha)) as P.
  replace (map (fun c => (kName c, kCount c)) (rowCounts find isKanji m)) with m in P; [exact P|].
  unfold rowCounts. rewrite map_map. cbn [kName kCount]. clear. induction m as [|[k v] m IH]; [reflexivity|]. cbn [map fst snd]. f_equal. exact IH.
Qed.
Print Assumptions C36_nothing_is_lost.

(** C36, for rows in which characters of equal frequency have the same type: the listing is
    ordered by count, then frequency, then name.  Missing: the rows of Kanji in which this
    fails, where the claim is false (see above). *)
Theorem C36_sorted_listing_partial : forall mf ks t, mf < 65535 -> ascending ks -> one_type_per_rank mf ks ->
  built (less mf) ks t -> StronglySorted (before mf) (inorder t).
Proof. intros mf ks t Hmf Ha Ht H. exact (built_sorted mf Hmf ks t H Ha Ht). Qed.
Print Assumptions C36_sorted_listing_partial.

(** C36: all rows that are not about Kanji are such rows *)
Theorem C36_other_rows_are_sorted : forall mf find m t, mf < 65535 -> msorted m ->
  built (less mf) (rowCounts find false m) t ->
  StronglySorted (fun a b => kCount b < kCount a \/ kCount a = kCount b /\ blt (kName a) (kName b) = true) (inorder t).
Proof.
  intros mf find m t Hmf Hm H.
  assert (Hn : forall c, In c (rowCounts find false m) -> kEntry c = None).
  { intros c Hc. unfold rowCounts in Hc. apply in_map_iff in Hc. destruct Hc as [e [<- _]]. reflexivity. }
  pose proof (row_ascending find false m Hm) as Ha.
  assert (Ht : one_type_per_rank mf (rowCounts find false m)).
  { intros a b H1 H2 _. unfold type. rewrite (Hn a H1), (Hn b H2). reflexivity. }
  pose proof (built_sorted mf Hmf _ _ H Ha Ht) as S.
  assert (Hi : forall c, In c (inorder t) -> kEntry c = None).
  { intros c Hc. apply Hn. exact (Permutation_in _ (built_perm mf Hmf _ _ H Ha) Hc). }
  clear - S Hi. induction S as [|a l S IH F]; [constructor|].
  constructor; [apply IH; intros c Hc; apply Hi; right; exact Hc|].
  rewrite Forall_forall in *. intros b Hb. specialize (F b Hb). unfold before, rank in F.
  rewrite (Hi a (or_introl eq_refl)), (Hi b (or_intror Hb)) in F. destruct F as [F|[F [F'|[_ F']]]]; [left; exact F|lia|right; auto].
Qed.
Print Assumptions C36_other_rows_are_sorted.

(** three characters of a row in two trees *)
Example C36_case :
  let m := [(b_ "、", 3); (b_ "。", 7); (b_ "「", 3)] in
  msorted m /\ exists t, built (less 2501) (rowCounts (fun _ => None) false m) t
    /\ map kName (inorder t) = [b_ "。"; b_ "、"; b_ "「"].
Proof.
  cbv zeta. split; [repeat constructor|].
  pose (c := fun n k => {| kCount := k; kName := n; kEntry := None |}).
  exists (Node (Node Leaf (c (b_ "。") 7) Leaf) (c (b_ "、") 3) (Node Leaf (c (b_ "「") 3) Leaf)). split; [|vm_compute; reflexivity].
  change (rowCounts _ _ _) with ((([] ++ [c (b_ "、") 3]) ++ [c (b_ "。") 7]) ++ [c (b_ "「") 3]).
  apply built_add with (t := Node Leaf (c (b_ "。") 7) (Node Leaf (c (b_ "、") 3) Leaf)); [|vm_compute; reflexivity].
  apply built_add with (t := Node Leaf (c (b_ "、") 3) Leaf); [|vm_compute; reflexivity].
  apply built_add with (t := Leaf); [constructor|vm_compute; reflexivity].
Qed.

(** C54: each row takes what it is named after.  [t] is a character found in a string, [cs] the
    character and perhaps a variation selector, [c] the character. *)
Theorem C54_rows_mean_their_names : forall ucd s es t,
  parse s es -> In t (yields true (items es)) ->
  exists c r, t = text (c :: r) /\
    forall j row, nth_error (rows ucd) j = Some row ->
      exists P, nth_error (row_content (ucd t) c) j = Some P /\ (snd row t = Val true <-> P)
        /\ (snd row t = Val false <-> ~ P).
Proof.
  intros ucd s es t Hp Ht. destruct (tokens_form _ es (le_n _) (parse_scalars s es Hp) t Ht) as [cs [-> Hc]].
  destruct (token_head cs Hc) as [c [r E]]. exists c, r. split; [rewrite E; reflexivity|].
  intros j row Hj. destruct (rows_mean ucd cs c r Hc E j row Hj) as [P [HP Hi]]. exists P. split; [exact HP|].
  split; [exact Hi|]. pose proof (rows_total ucd row (text cs) (nth_error_In _ _ Hj) (text_ok _ (token_chars _ Hc))) as V.
  rewrite V in *. rewrite <- Hi. destruct (takes row (text cs)); split; intro X; try discriminate; try congruence.
Qed.
Print Assumptions C54_rows_mean_their_names.

(** C54: every character other than a wide space is in exactly one row; the wide space is in
    none *)
Theorem C54_exactly_one_row_partial : forall ucd s es t,
  parse s es -> In t (yields true (items es)) ->
  if is_wide_space t then forall row, In row (rows ucd) -> snd row t = Val false
  else exists i, (i < 9)%nat /\ forall j row, nth_error (rows ucd) j = Some row -> snd row t = Val (j =? i)%nat.
Proof.
  intros ucd s es t Hp Ht. destruct (tokens_form _ es (le_n _) (parse_scalars s es Hp) t Ht) as [cs [E Hc]].
  pose proof (rows_takes ucd t cs E Hc) as R.
  assert (Ho : bytes_ok t) by (rewrite E; apply text_ok, token_chars, Hc).
  destruct (is_wide_space t).
  - intros row Hr. destruct (In_nth_error _ _ Hr) as [j Hj]. rewrite (rows_total ucd row t Hr Ho), (R j row Hj). reflexivity.
  - destruct R as [i [Hi R]]. exists i. split; [exact Hi|]. intros j row Hj.
    rewrite (rows_total ucd row t (nth_error_In _ _ Hj) Ho), (R j row Hj). reflexivity.
Qed.
Print Assumptions C54_exactly_one_row_partial.

(** C54: over any history of strings and files, each row counting on its own, the totals of the
    rows and the wide spaces add up to the number of characters *)
Theorem C54_totals_add_up : forall find ucd I rs, reader I -> Forall request_ok rs ->
  let found := flat_map (counted find (fun _ => true) I) (flat_map (request_texts (file_strings find)) rs) in
  exists cs, Forall2 (fun row c => exists ns, serveAll find (snd row) rs newCounter = Val (ns, c)) (rows ucd) cs
    /\ total (map (fun c => map_total (cMap c)) cs) + count is_wide_space found = len found.
Proof.
  intros find ucd I rs HI Hok found.
  set (ts := flat_map (request_texts (file_strings find)) rs) in *.
  assert (A : forall row, In row (rows ucd) -> exists c, (exists ns, serveAll find (snd row) rs newCounter = Val (ns, c))
     /\ map_total (cMap c) = len (filter (takes row) found)).
  { intros row Hr. destruct (serveAll_spec find (takes row) I HI (snd row) (fun t Ht => rows_total ucd row t Hr Ht) rs newCounter Hok) as [c [E G]].
    exists c. split; [eauto|]. destruct (grown_counts find (takes row) I _ _ _ _ G) as (_ & _ & _ & -> & _).
    fold ts. f_equal. unfold found. clear. induction ts as [|t l IH]; [reflexivity|]. cbn [flat_map]. rewrite filter_app, IH. f_equal.
    unfold counted. clear. induction (yields true (I (counted_text find (fst t)))) as [|x l IH]; [reflexivity|].
    cbn [filter]. destruct (takes row x); rewrite <- ?IH; reflexivity. }
  assert (F : forall t, In t found -> exists cs, t = text cs /\ token_of cs).
  { intros t Ht. unfold found in Ht. apply in_flat_map in Ht. destruct Ht as [[s g] [H1 H2]]. unfold counted in H2.
    apply filter_In in H2. destruct H2 as [H2 _]. cbn [fst] in H2.
    assert (Hs : bytes_ok s). { exact (request_texts_ok find rs Hok s g H1). }
    destruct (ctext_value find s Hs) as [n [Hn [E _]]]. rewrite E in H2. destruct (HI n Hn) as [es [Hp Hes]]. rewrite Hes in H2.
    exact (tokens_form _ es (le_n _) (parse_scalars _ es Hp) t H2). }
  rewrite <- (rows_sum ucd found F). revert A. generalize (rows ucd). intros l A.
  assert (X : exists cs, Forall2 (fun row c => exists ns, serveAll find (snd row) rs newCounter = Val (ns, c)) l cs
     /\ total (map (fun c => map_total (cMap c)) cs) = total (map (fun row => len (filter (takes row) found)) l)).
  { induction l as [|row l IH]; [exists []; split; [constructor|reflexivity]|].
    destruct (A row (or_introl eq_refl)) as [c [A1 A2]]. destruct IH as [cs [B1 B2]]; [intros; apply A; right; assumption|].
    exists (c :: cs). split; [constructor; assumption|]. cbn [map total fold_right]. unfold total in B2. rewrite A2, B2. reflexivity. }
  destruct X as [cs [X1 X2]]. exists cs. split; [exact X1|]. rewrite X2. reflexivity.
Qed.
Print Assumptions C54_totals_add_up.

(** C54 as stated is false: the wide space is in no row *)
Theorem C54_exactly_one_row_refuted : ~ forall ucd s es t, parse s es -> In t (yields true (items es)) -> exists row, In row (rows ucd) /\ snd row t = Val true.
Proof.
  intro H. assert (S0 : scalar 0x3000) by (unfold scalar; lia).
  assert (I : In (enc 0x3000) (yields true (items [Good 0x3000]))) by (vm_compute; left; reflexivity).
  destruct (H (fun _ => true) (enc 0x3000 ++ []) [Good 0x3000] (enc 0x3000) (parse_good 0x3000 [] [] S0 parse_nil) I) as (row & R & V).
  pose proof (C54_exactly_one_row_partial (fun _ => true) _ _ _ (parse_good 0x3000 [] [] S0 parse_nil) I) as P.
  replace (is_wide_space (enc 0x3000)) with true in P by (vm_compute; reflexivity). rewrite (P row R) in V. discriminate V.
Qed.
Print Assumptions C54_exactly_one_row_refuted.

(** a name with all kinds of characters, a wide space among them *)
Example C54_case :
  let rs := [RAdd (b_ "漢Aか　、→Ａ⺟ハ゜") None] in
  Forall request_ok rs
  /\ map (fun row => match serveAll None (snd row) rs newCounter with Val (_, c) => map_total (cMap c) | _ => 99 end)
       (rows (fun _ => true)) = [2; 1; 1; 1; 0; 1; 1; 1; 0]
  /\ match serveAll None (fun _ => Val true) rs newCounter with Val (_, c) => map_total (cMap c) | _ => 99 end = 9.
Proof.
  cbv zeta. split; [|vm_compute; split; reflexivity]. constructor; [|constructor]. cbn. repeat constructor.
Qed.

(** C55: the text without Furigana is what is left when, from left to right, each group of
    bracketed Kana after a Kanji or a wide letter is taken out; there is only one such text *)
Theorem C55_furigana_is_removed : forall cs ds, stripped cs ds <-> ds = removeFurigana cs.
Proof.
  intros cs ds. pose proof (remove_stripped _ cs (le_n _)) as H. split.
  - intro K. exact (stripped_unique cs ds K _ H).
  - intros ->. exact H.
Qed.
Print Assumptions C55_furigana_is_removed.

(** C55: only Kana and wide brackets are ever removed *)
Theorem C55_all_else_is_kept : forall cs, filter not_kana (removeFurigana cs) = filter not_kana cs.
Proof. intro cs. exact (stripped_filter _ _ (remove_stripped _ cs (le_n _))). Qed.
Print Assumptions C55_all_else_is_kept.

(** C55: a text without Furigana is not changed *)
Theorem C55_no_furigana_no_change : forall cs,
  (forall a b u r, base b -> furigana u -> cs <> a ++ b :: u ++ r) -> removeFurigana cs = cs.
Proof. intros cs H. exact (stripped_same _ _ (remove_stripped _ cs (le_n _)) H). Qed.
Print Assumptions C55_no_furigana_no_change.

(** C55: but the result can contain Furigana again, and the brackets themselves count as wide
    letters, so that the Kana of a nested bracket is taken out although no letter or Kanji is
    before it *)
Theorem C55_no_furigana_is_left_refuted :
  (exists cs, removeFurigana (removeFurigana cs) <> removeFurigana cs)
  /\ (exists cs, Forall (fun c => kana c \/ c = 0xFF08 \/ c = 0xFF09) cs /\ removeFurigana cs <> cs).
Proof.
  split.
  - exists [0x6F22; 0xFF08; 0x304B; 0xFF09; 0xFF08; 0x304B; 0xFF09]. vm_compute. discriminate.
  - exists [0xFF08; 0xFF08; 0x304B; 0xFF09]. split; [|vm_compute; discriminate].
    unfold kana, hiragana, katakana, within. repeat (apply Forall_cons; [lia|]). apply Forall_nil.
Qed.
Print Assumptions C55_no_furigana_is_left_refuted.

Example C55_case : removeFurigana (decode (b_ "護謨製（ゴムせい）と（か）漢[x]（かん）")) = decode (b_ "護謨製と（か）漢[x]（かん）").
Proof. vm_compute. reflexivity. Qed.

(** C56: the breakdown by type adds up to the row: totals, numbers of characters; the examples
    are the first five of their type *)
Theorem C56_types_add_up : forall l, Forall (fun c => type c < TypeNone) l ->
  total (map (fun t => typeTotal t l) [0; 1; 2; 3; 4; 5; 6; 7]) = total (map kCount l)
  /\ total (map (fun t => typeUnique t l) [0; 1; 2; 3; 4; 5; 6; 7]) = len l
  /\ forall t, typeExamples t l = firstn 5 (filter (fun c => type c =? t) l).
Proof.
  intros l H. assert (N0 : NoDup [0; 1; 2; 3; 4; 5; 6; 7]).
  { repeat (constructor; [cbn; lia|]). constructor. }
  assert (Hin : forall c, In c l -> In (type c) [0; 1; 2; 3; 4; 5; 6; 7]).
  { intros c Hc. rewrite Forall_forall in H. specialize (H c Hc). unfold TypeNone in H. cbn. lia. }
  split; [|split; [|intro t; apply typeExamples_first]].
  - rewrite <- (types_partition kCount l _ N0 Hin). f_equal. apply map_ext. intro t. apply typeTotal_sum.
  - pose proof (types_partition (fun _ => 1) l _ N0 Hin) as P.
    assert (L : forall k : list SCount, total (map (fun _ => 1) k) = len k).
    { induction k as [|x k IH]; [reflexivity|]. cbn [map total fold_right]. unfold total in IH. rewrite IH, len_cons. lia. }
    rewrite L in P. rewrite <- P. f_equal. apply map_ext. intro t. rewrite typeUnique_sum. clear.
    induction l as [|c l IH]; [reflexivity|]. rewrite count_cons, IH. cbn [map total fold_right]. reflexivity.
Qed.
Print Assumptions C56_types_add_up.

(** C56: the total of a row is the sum of the counts of its characters *)
Theorem C56_row_total : forall (m : smap N) find isKanji,
  rowTotal m = total (map snd m) /\ map kCount (rowCounts find isKanji m) = map snd m.
Proof.
  intros m find isKanji. split.
  - unfold rowTotal. enough (H : forall a, fold_left (fun t (e : bytes * N) => t + snd e) m a = a + total (map snd m)).
    { rewrite H. lia. }
    induction m as [|e m IH]; intro a; cbn [fold_left map]; [unfold total; cbn [fold_right]; lia|].
    rewrite IH. unfold total. cbn [fold_right]. lia.
  - unfold rowCounts. rewrite map_map. reflexivity.
Qed.
Print Assumptions C56_row_total.

(** C56: the file shown for a character is the first one, in the order of names, with the most
    of it *)
Theorem C56_highest_file : forall tags : smap N, tags <> [] -> Forall (fun e => 0 < snd e) tags ->
  exists a n b, tags = a ++ (highestFile tags, n) :: b
    /\ Forall (fun e => snd e < n) a /\ Forall (fun e => snd e <= n) b.
Proof. exact highest_spec. Qed.
Print Assumptions C56_highest_file.

Example C56_total_case : rowTotal [(b_ "あ", 2); (b_ "い", 5)] = 7.
Proof. reflexivity. Qed.
Example C56_case : highestFile [(b_ "a", 2); (b_ "b", 5); (b_ "c", 5)] = b_ "b"
  /\ typeTotal 1 [{| kCount := 4; kName := b_ "乃"; kEntry := Some {| eFrequency := 0; eType := 1; eLevel := 5 |} |};
                  {| kCount := 3; kName := b_ "漢"; kEntry := Some {| eFrequency := 9; eType := 0; eLevel := 5 |} |}] = 4.
Proof. vm_compute. auto. Qed.
