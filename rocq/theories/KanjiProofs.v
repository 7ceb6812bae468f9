(** Lemmas about Kanji. *)
From Verif Require Import BaseFacts MapProofs ColumnFileProofs ColumnFileSpec StringProofs StringSpec Utf8Proofs Utf8Lemmas KanjiModel KanjiSpec.
Arguments N.mul : simpl never. Arguments N.add : simpl never. Arguments N.sub : simpl never.

(** ** Unicode text *)
Lemma toUnicode_one : forall c, exists s, toUnicode c NoBrackets = Val s /\ denotes 16 s c /\ Forall is_upper_hex s /\ s <> [].
Proof.
  intro c. unfold toUnicode. destruct (to_hex_spec 4 c Upper 4) as [s [H1 [H2 [H3 H4]]]].
  exists s. split; [rewrite H1; reflexivity|]. split; [exact H2|]. split; [exact H4|].
  destruct H2 as [ds [_ [_ [H _]]]]. exact H.
Qed.
Definition hexOf (c : N) : bytes := match toUnicode c NoBrackets with Val s => s | _ => [] end.
Lemma hexOf_spec : forall c, toUnicode c NoBrackets = Val (hexOf c) /\ denotes 16 (hexOf c) c
  /\ Forall is_upper_hex (hexOf c) /\ hexOf c <> [].
Proof. intro c. destruct (toUnicode_one c) as [s [H1 [H2 [H3 H4]]]]. unfold hexOf. rewrite H1. auto. Qed.
Lemma hexOf_free : forall cs, free_of 32 (map hexOf cs).
Proof.
  intro cs. apply Forall_map. apply Forall_forall. intros c _ Hin.
  destruct (hexOf_spec c) as [_ [_ [H _]]]. rewrite Forall_forall in H. specialize (H 32 Hin).
  unfold is_upper_hex, is_digit in H. lia.
Qed.
Lemma loop_join : forall cs result, toUnicode_loop cs result =
  Val (match result with [] => join 32 (map hexOf cs) | _ => join 32 (result :: map hexOf cs) end).
Proof.
  induction cs as [|c cs IH]; intro result.
  - destruct result; reflexivity.
  - cbn [toUnicode_loop]. destruct (hexOf_spec c) as [-> [_ [_ Hne]]]. cbn [obind]. rewrite IH.
    destruct result as [|b result].
    + cbn [app map]. destruct (hexOf c) as [|h t] eqn:E; [contradiction|]. reflexivity.
    + destruct (((b :: result) ++ [32]) ++ hexOf c) as [|h t] eqn:E; [discriminate|]. rewrite <- E.
      cbn [map]. destruct cs; cbn [map]; rewrite !join_cons; cbn [join]; rewrite <- !app_assoc; reflexivity.
Qed.
Lemma strip_none : forall fs, Forall (fun f : bytes => f <> []) fs -> strip_trailing_empty fs = fs.
Proof.
  intros fs H. induction H as [|f fs Hf H IH]; [reflexivity|]. destruct fs as [|g fs].
  - cbn. destruct f; [contradiction|reflexivity].
  - change (strip_trailing_empty (f :: g :: fs)) with (f :: strip_trailing_empty (g :: fs)). rewrite IH. reflexivity.
Qed.
Lemma join_hex_inj : forall a b, join 32 (map hexOf a) = join 32 (map hexOf b) -> a = b.
Proof.
  intros a b H.
  assert (Hn : forall l, Forall (fun f : bytes => f <> []) (map hexOf l)).
  { intro l. apply Forall_map. apply Forall_forall. intros c _. apply (hexOf_spec c). }
  assert (Hd : forall l, l <> [] -> map hexOf l = ColumnFileModel.getlines 32 (join 32 (map hexOf l))).
  { intros l Hl. rewrite getlines_join; [symmetry; apply strip_none; apply Hn|destruct l; [congruence|discriminate]|apply hexOf_free]. }
  assert (Hjne : forall l, l <> [] -> join 32 (map hexOf l) <> []).
  { intros [|c l] Hl; [congruence|]. cbn [map]. destruct (hexOf_spec c) as [_ [_ [_ Hc]]].
    destruct l; cbn [map]; [exact Hc|]. rewrite join_cons. destruct (hexOf c); [contradiction|discriminate]. }
  assert (Hmap : map hexOf a = map hexOf b).
  { destruct a as [|x a]; destruct b as [|y b]; try reflexivity.
    - exfalso. apply (Hjne (y :: b)); [discriminate|]. rewrite <- H. reflexivity.
    - exfalso. apply (Hjne (x :: a)); [discriminate|]. rewrite H. reflexivity.
    - rewrite (Hd (x :: a)) by discriminate. rewrite (Hd (y :: b)) by discriminate. rewrite H. reflexivity. }
  clear -Hmap. revert b Hmap. induction a as [|x a IH]; intros [|y b] H; try discriminate; [reflexivity|].
  cbn [map] in H. inversion H as [[H1 H2]]. f_equal; [|apply IH; exact H2].
  destruct (hexOf_spec x) as [_ [Hx _]]. destruct (hexOf_spec y) as [_ [Hy _]]. rewrite H1 in Hx.
  eapply denotes_fun; eassumption.
Qed.
Lemma unicode_ok : forall s, bytes_ok s -> exists cs, fromUtf8 s 0 = Val cs
  /\ toUnicode_string s NoBrackets = Val (join 32 (map hexOf cs)).
Proof.
  intros s H. destruct (decoder_total s 0 H) as [cs [E _]]. exists cs. split; [exact E|].
  unfold toUnicode_string, toUnicode_codes. rewrite E. cbn [obind]. rewrite loop_join. reflexivity.
Qed.

(** the order of numerals of the same size is the order of the numbers *)
Lemma fold_shift : forall ds a, fold_left (fun a d => a * 16 + d) ds a
  = a * 16 ^ len ds + fold_left (fun a d => a * 16 + d) ds 0.
Proof.
  induction ds as [|d ds IH]; intro a; cbn [fold_left].
  - rewrite len_nil. change (16 ^ 0) with 1. lia.
  - rewrite (IH (a * 16 + d)), (IH (0 * 16 + d)), len_cons.
    rewrite N.pow_add_r. change (16 ^ 1) with 16. lia.
Qed.
Lemma positional_bound : forall ds, Forall (fun d => d < 16) ds -> positional 16 ds < 16 ^ len ds.
Proof.
  intros ds H. induction H as [|d ds Hd H IH].
  - cbn. lia.
  - unfold positional in *. cbn [fold_left]. rewrite fold_shift, len_cons, N.pow_add_r. change (16 ^ 1) with 16. nia.
Qed.
Lemma upper_value_lt : forall x y u v, is_upper_hex x -> is_upper_hex y ->
  digit_value x = Some u -> digit_value y = Some v -> (x < y <-> u < v).
Proof.
  intros x y u v Hx Hy. unfold digit_value, is_upper_hex, is_digit in *.
  destruct ((48 <=? x) && (x <=? 57)) eqn:E1; destruct ((48 <=? y) && (y <=? 57)) eqn:E2;
  destruct ((65 <=? x) && (x <=? 70)) eqn:E3; destruct ((65 <=? y) && (y <=? 70)) eqn:E4;
  intros H1 H2; try (inversion H1; inversion H2; subst; lia); lia.
Qed.
Lemma numeral_order : forall s t ds es, Forall is_upper_hex s -> Forall is_upper_hex t ->
  map digit_value s = map Some ds -> map digit_value t = map Some es ->
  Forall (fun d => d < 16) ds -> Forall (fun d => d < 16) es ->
  List.length s = List.length t -> blt s t = (positional 16 ds <? positional 16 es).
Proof.
  induction s as [|x s IH]; intros t ds es Hs Ht Es Et Hd He Hl.
  - destruct t; [|discriminate]. destruct ds; [|discriminate]. destruct es; [|discriminate]. reflexivity.
  - destruct t as [|y t]; [discriminate|]. destruct ds as [|u ds]; [discriminate|]. destruct es as [|v es]; [discriminate|].
    cbn [map] in *. inversion Hs as [|? ? Hx Hs']; subst. inversion Ht as [|? ? Hy Ht']; subst.
    injection Es as Eu Es. injection Et as Ev Et.
    inversion Hd as [|? ? Hu Hd']; subst. inversion He as [|? ? Hv He']; subst.
    cbn [List.length] in Hl. injection Hl as Hl.
    assert (Hlen : len ds = len es).
    { unfold len. rewrite <- (map_length Some ds), <- (map_length Some es), <- Es, <- Et, !map_length, Hl. reflexivity. }
    cbn [blt]. rewrite (IH t ds es Hs' Ht' Es Et Hd' He' Hl).
    pose proof (upper_value_lt x y u v Hx Hy Eu Ev) as Hxy.
    pose proof (upper_value_lt y x v u Hy Hx Ev Eu) as Hyx.
    pose proof (positional_bound ds Hd') as B1. pose proof (positional_bound es He') as B2.
    unfold positional in *. cbn [fold_left]. rewrite (fold_shift ds (0 * 16 + u)), (fold_shift es (0 * 16 + v)).
    rewrite <- Hlen in *.
    destruct (N.lt_trichotomy u v) as [K|[K|K]].
    + replace (x <? y) with true by lia. symmetry. apply N.ltb_lt. nia.
    + subst v. replace (x <? y) with false by lia. replace (x =? y) with true by lia. cbn [orb andb].
      match goal with |- (?a <? ?b) = (?c <? ?d) => destruct (N.ltb_spec a b); destruct (N.ltb_spec c d); try reflexivity; lia end.
    + replace (x <? y) with false by lia. replace (x =? y) with false by lia. cbn [orb andb]. symmetry. apply N.ltb_ge. nia.
Qed.
Lemma hexOf_len4 : forall c, c < 0x10000 -> List.length (hexOf c) = 4%nat.
Proof.
  intros c Hc. unfold hexOf, toUnicode. destruct (to_hex_spec 4 c Upper 4) as [s [H1 [H2 [H3 H4]]]].
  rewrite H1. cbn [addBrackets]. change (if 4 =? 0 then 4 * 2 else 4) with 4 in H3. destruct H3 as [H3 H5].
  destruct (N.eq_dec (len s) 4) as [E|E]; [unfold len in E; lia|].
  destruct H5 as [H5|H5]; [unfold len in *; lia|]. exfalso.
  destruct H2 as [ds [E2 [Hd [_ E3]]]]. destruct s as [|x s]; [contradiction|]. destruct ds as [|d ds]; [discriminate|].
  cbn [map] in E2. injection E2 as Ed Es.
  assert (d <> 0).
  { intros ->. inversion H4 as [|? ? Hx _]; subst. unfold digit_value, is_upper_hex, is_digit in *.
    destruct ((48 <=? x) && (x <=? 57)) eqn:E1; destruct ((65 <=? x) && (x <=? 70)) eqn:E3'; inversion Ed; lia. }
  unfold positional in E3. cbn [fold_left] in E3. rewrite fold_shift in E3.
  assert (Hl : len ds = len s).
  { unfold len. rewrite <- (map_length Some ds), <- Es, map_length. reflexivity. }
  assert (4 <= len ds) by (rewrite Hl; rewrite len_cons in *; lia).
  assert (16 ^ 4 <= 16 ^ len ds) by (apply N.pow_le_mono_r; lia).
  change (16 ^ 4) with 0x10000 in *. nia.
Qed.
Lemma hexOf_order : forall c d, c < 0x10000 -> d < 0x10000 -> blt (hexOf c) (hexOf d) = (c <? d).
Proof.
  intros c d Hc Hd. destruct (hexOf_spec c) as [_ [[ds [E1 [H1 [_ P1]]]] [U1 _]]].
  destruct (hexOf_spec d) as [_ [[es [E2 [H2 [_ P2]]]] [U2 _]]].
  rewrite <- P1 at 2. rewrite <- P2 at 2. apply numeral_order; try assumption.
  rewrite !hexOf_len4 by assumption. reflexivity.
Qed.

(** ** Orders: both are the order of lists of numbers *)
Definition hexName (k : Kanji) : bytes :=
  match toUnicode_string (compatibilityName k) NoBrackets with Val s => s | _ => [] end.
Definition strokesKey (k : Kanji) : list N :=
  fst (kStrokes k) :: snd (kStrokes k) :: frequencyOrMax k :: hexName k.
Definition qualifiedKey (k : Kanji) : list N := qualifiedNameRank k :: strokesKey k.

Lemma hexName_ok : forall k, kanji_ok k -> toUnicode_string (compatibilityName k) NoBrackets = Val (hexName k).
Proof.
  intros k H. destruct (unicode_ok _ H) as [cs [_ E]]. unfold hexName. rewrite E. reflexivity.
Qed.
Lemma orderByStrokes_key : forall a b, kanji_ok a -> kanji_ok b ->
  orderByStrokes a b = Val (blt (strokesKey a) (strokesKey b)).
Proof.
  intros a b Ha Hb. unfold orderByStrokes, strokesCompare, strokesKey.
  rewrite (hexName_ok a Ha), (hexName_ok b Hb). cbn [obind blt].
  destruct (N.compare_spec (fst (kStrokes a)) (fst (kStrokes b))) as [E|E|E].
  - rewrite E, N.ltb_irrefl, N.eqb_refl. cbn [orb andb].
    destruct (N.compare_spec (snd (kStrokes a)) (snd (kStrokes b))) as [F|F|F].
    + rewrite F, N.ltb_irrefl, N.eqb_refl. cbn [orb andb].
      destruct (frequencyOrMax a <? frequencyOrMax b); [reflexivity|]. cbn [orb].
      destruct (frequencyOrMax a =? frequencyOrMax b); reflexivity.
    + replace (snd (kStrokes a) <? snd (kStrokes b)) with true by lia. reflexivity.
    + replace (snd (kStrokes a) <? snd (kStrokes b)) with false by lia.
      replace (snd (kStrokes a) =? snd (kStrokes b)) with false by lia. reflexivity.
  - replace (fst (kStrokes a) <? fst (kStrokes b)) with true by lia. reflexivity.
  - replace (fst (kStrokes a) <? fst (kStrokes b)) with false by lia.
    replace (fst (kStrokes a) =? fst (kStrokes b)) with false by lia. reflexivity.
Qed.
Lemma orderByQualifiedName_key : forall a b, kanji_ok a -> kanji_ok b ->
  orderByQualifiedName a b = Val (blt (qualifiedKey a) (qualifiedKey b)).
Proof.
  intros a b Ha Hb. unfold orderByQualifiedName, qualifiedKey. rewrite (orderByStrokes_key a b Ha Hb). cbn [blt].
  destruct (qualifiedNameRank a <? qualifiedNameRank b); [reflexivity|]. cbn [orb].
  destruct (qualifiedNameRank a =? qualifiedNameRank b); reflexivity.
Qed.
Lemma blt_false_eq : forall x y, blt x y = false -> blt y x = false -> x = y.
Proof.
  intros x y H1 H2. destruct (bytes_eq_dec x y) as [E|E]; [exact E|].
  rewrite (blt_total _ _ H1 E) in H2. discriminate.
Qed.
Lemma key_strict_weak : forall (P : Kanji -> Prop) lt key,
  (forall a b, P a -> P b -> lt a b = Val (blt (key a) (key b))) -> strict_weak P lt.
Proof.
  intros P lt key H. split; [|split; [|split]].
  - intros a b Ha Hb. eexists. apply H; assumption.
  - intros a Ha. rewrite H, blt_irrefl by assumption. reflexivity.
  - intros a b c Ha Hb Hc. rewrite !H by assumption. intros E1 E2. injection E1 as E1. injection E2 as E2.
    rewrite (blt_trans _ _ _ E1 E2). reflexivity.
  - intros a b c Ha Hb Hc. rewrite !H by assumption. intros E1 E2 E3 E4.
    injection E1 as E1. injection E2 as E2. injection E3 as E3. injection E4 as E4.
    rewrite <- (blt_false_eq _ _ E3 E4), (blt_false_eq _ _ E1 E2), blt_irrefl. auto.
Qed.
Lemma strokes_strict_weak : strict_weak kanji_ok orderByStrokes.
Proof. exact (key_strict_weak _ _ _ orderByStrokes_key). Qed.
Lemma qualified_strict_weak : strict_weak kanji_ok orderByQualifiedName.
Proof. exact (key_strict_weak _ _ _ orderByQualifiedName_key). Qed.

Lemma Val_inj : forall A (x y : A), Val x = Val y -> x = y.
Proof. intros A x y H. injection H. auto. Qed.
Lemma kanji_text_ok : forall k cs, kanji_text k cs -> kanji_ok k.
Proof.
  intros k cs [H E]. unfold kanji_ok. rewrite E. apply encs_bytes.
  eapply Forall_impl; [|exact H]. intros c [Hc _]. exact Hc.
Qed.
Lemma hexName_text : forall k cs, kanji_text k cs -> hexName k = join 32 (map hexOf cs).
Proof.
  intros k cs [H E]. unfold hexName. rewrite E. unfold toUnicode_string, toUnicode_codes.
  destruct (utf32_roundtrip cs H) as [_ ->]. cbn [obind]. rewrite loop_join. reflexivity.
Qed.
Lemma order_incomparable : forall a b cs ds, kanji_text a cs -> kanji_text b ds ->
  (orderByStrokes a b = Val false /\ orderByStrokes b a = Val false <->
   kStrokes a = kStrokes b /\ frequencyOrMax a = frequencyOrMax b /\ cs = ds).
Proof.
  intros a b cs ds Ha Hb. pose proof (kanji_text_ok _ _ Ha) as Oa. pose proof (kanji_text_ok _ _ Hb) as Ob.
  rewrite !orderByStrokes_key by assumption. unfold strokesKey.
  rewrite (hexName_text _ _ Ha), (hexName_text _ _ Hb). split.
  - intros [H1 H2]. apply Val_inj in H1. apply Val_inj in H2. pose proof (blt_false_eq _ _ H1 H2) as E.
    injection E as E1 E2 E3 E4. split; [|split; [exact E3|apply join_hex_inj; exact E4]].
    destruct (kStrokes a); destruct (kStrokes b); cbn [fst snd] in *; subst; reflexivity.
  - intros [E1 [E2 ->]]. rewrite E1, E2, blt_irrefl. auto.
Qed.
Lemma order_bmp : forall a b c d, kanji_text a [c] -> kanji_text b [d] -> c < 0x10000 -> d < 0x10000 ->
  orderByStrokes a b = Val (blt [fst (kStrokes a); snd (kStrokes a); frequencyOrMax a; c]
                                [fst (kStrokes b); snd (kStrokes b); frequencyOrMax b; d]).
Proof.
  intros a b c d Ha Hb Hc Hd. pose proof (kanji_text_ok _ _ Ha) as Oa. pose proof (kanji_text_ok _ _ Hb) as Ob.
  rewrite orderByStrokes_key by assumption. unfold strokesKey.
  rewrite (hexName_text _ _ Ha), (hexName_text _ _ Hb). cbn [map join].
  cbn [blt]. rewrite (hexOf_order c d Hc Hd). rewrite andb_false_r, orb_false_r. reflexivity.
Qed.

(** ** Qualified names *)
Lemma qualifiedName_spec : forall k, exists c, group k = Some c /\ qualifiedName k = Val (kName k ++ [c]).
Proof.
  intro k. unfold group, qualifiedName, qualifiedNameRank, QualifiedNames.
  destruct (N.eq_dec (kFrequency k) 0) as [E|E].
  - rewrite E. change (negb (0 =? 0)) with false. change (0 <? 0) with false.
    destruct (kType k); destruct (hasLevel k); destruct (kKyu k); eexists; split; reflexivity.
  - replace (kFrequency k =? 0) with false by lia. replace (0 <? kFrequency k) with true by lia. cbn [negb].
    destruct (kType k); destruct (hasLevel k); destruct (kKyu k); eexists; split; reflexivity.
Qed.
(** the rank is the position of the suffix in the list of suffixes *)
Lemma rank_position : forall k, exists c, group k = Some c
  /\ nth_error (b_ ".'""^~%+@#*") (N.to_nat (qualifiedNameRank k)) = Some c.
Proof.
  intro k. destruct (qualifiedName_spec k) as [c [H1 H2]]. exists c. split; [exact H1|].
  unfold qualifiedName, QualifiedNames in H2.
  destruct (nth_error (b_ ".'""^~%+@#*") (N.to_nat (qualifiedNameRank k))) as [x|]; [|discriminate].
  injection H2 as H2. apply app_inv_head in H2. congruence.
Qed.
Lemma suffixes_NoDup : NoDup (b_ ".'""^~%+@#*").
Proof. repeat constructor; cbn; intuition discriminate. Qed.
Lemma position_unique : forall i j c, nth_error (b_ ".'""^~%+@#*") i = Some c ->
  nth_error (b_ ".'""^~%+@#*") j = Some c -> i = j.
Proof.
  intros i j c Hi Hj. pose proof (proj1 (NoDup_nth_error _) suffixes_NoDup i j) as K. apply K.
  - apply nth_error_Some. congruence.
  - congruence.
Qed.
Lemma qualified_groups : forall a b c d i j, kanji_ok a -> kanji_ok b -> group a = Some c -> group b = Some d ->
  nth_error (b_ ".'""^~%+@#*") i = Some c -> nth_error (b_ ".'""^~%+@#*") j = Some d ->
  (((i < j)%nat -> orderByQualifiedName a b = Val true)
   /\ ((j < i)%nat -> orderByQualifiedName a b = Val false)
   /\ (c = d -> orderByQualifiedName a b = orderByStrokes a b)).
Proof.
  intros a b c d i j Ha Hb Ga Gb Hi Hj.
  destruct (rank_position a) as [c' [E1 P1]]. rewrite Ga in E1. injection E1 as <-.
  destruct (rank_position b) as [d' [E2 P2]]. rewrite Gb in E2. injection E2 as <-.
  pose proof (position_unique _ _ _ Hi P1) as Ei. pose proof (position_unique _ _ _ Hj P2) as Ej.
  unfold orderByQualifiedName. split; [|split].
  - intro H. replace (qualifiedNameRank a <? qualifiedNameRank b) with true by lia. reflexivity.
  - intro H. replace (qualifiedNameRank a <? qualifiedNameRank b) with false by lia.
    replace (qualifiedNameRank a =? qualifiedNameRank b) with false by lia. reflexivity.
  - intros ->. pose proof (position_unique _ _ _ Hi Hj) as Eij.
    replace (qualifiedNameRank a <? qualifiedNameRank b) with false by lia.
    replace (qualifiedNameRank a =? qualifiedNameRank b) with true by lia. reflexivity.
Qed.

(** ** Info *)
Lemma hasField_bit : forall f i, hasField f (2 ^ i) = N.testbit f i.
Proof.
  intros f i. unfold hasField. destruct (N.testbit f i) eqn:E.
  - destruct (N.eqb_spec (N.land f (2 ^ i)) 0) as [H|H]; [|reflexivity].
    assert (K : N.testbit (N.land f (2 ^ i)) i = true) by (rewrite N.land_spec, E, N.pow2_bits_true; reflexivity).
    rewrite H, N.bits_0 in K. discriminate.
  - replace (N.land f (2 ^ i)) with 0; [reflexivity|]. symmetry. apply N.bits_inj. intro j.
    rewrite N.land_spec, N.bits_0. destruct (N.eq_dec i j) as [->|Hne]; [rewrite E; reflexivity|].
    rewrite (N.pow2_bits_false _ _ Hne), andb_false_r. reflexivity.
Qed.
Lemma sep_by_snoc : forall sep l x, l <> [] -> sep_by sep (l ++ [x]) = sep_by sep l ++ sep ++ x.
Proof.
  intros sep l x H. induction l as [|a l IH]; [congruence|]. destruct l as [|b l].
  - reflexivity.
  - change (a ++ sep ++ sep_by sep ((b :: l) ++ [x]) = (a ++ sep ++ sep_by sep (b :: l)) ++ sep ++ x).
    rewrite IH by discriminate. rewrite <- !app_assoc. reflexivity.
Qed.
Lemma sep_by_nonempty : forall sep l, l <> [] -> Forall (fun x : bytes => x <> []) l -> sep_by sep l <> [].
Proof.
  intros sep [|a l] H F; [congruence|]. inversion F as [|? ? Ha _]; subst.
  destruct l; cbn [sep_by]; [exact Ha|]. destruct a; [contradiction|discriminate].
Qed.
Lemma infoIf_sep : forall c x l, Forall (fun y : bytes => y <> []) l -> (c = true -> x <> []) ->
  infoIf c x (sep_by (b_ ", ") l) = sep_by (b_ ", ") (l ++ if c then [x] else [])
  /\ Forall (fun y : bytes => y <> []) (l ++ if c then [x] else []).
Proof.
  intros c x l F Hx. destruct c; unfold infoIf.
  - split; [|apply Forall_app; split; [exact F|constructor; auto]]. unfold infoAdd.
    destruct l as [|a l]; [reflexivity|]. rewrite sep_by_snoc by discriminate.
    pose proof (sep_by_nonempty (b_ ", ") (a :: l) ltac:(discriminate) F) as N.
    destruct (sep_by (b_ ", ") (a :: l)); [congruence|]. rewrite <- !app_assoc. reflexivity.
  - rewrite app_nil_r. auto.
Qed.
Lemma oldNamesText_spec : forall linked l s, s <> [] ->
  oldNamesText linked l s = sep_by (b_ "／") (s :: l).
Proof.
  induction l as [|i l IH]; intros s Hs; [reflexivity|]. cbn [oldNamesText].
  destruct s as [|c s]; [contradiction|].
  rewrite IH by discriminate. destruct l as [|j l].
  - reflexivity.
  - change (((c :: s) ++ b_ "／" ++ i) ++ b_ "／" ++ sep_by (b_ "／") (j :: l)
       = (c :: s) ++ b_ "／" ++ i ++ b_ "／" ++ sep_by (b_ "／") (j :: l)).
    rewrite <- !app_assoc. reflexivity.
Qed.
Definition selected (f : N) (l : list (N * bytes)) : list bytes := map snd (filter (fun p => N.testbit f (fst p)) l).
Lemma selected_app : forall f a b, selected f (a ++ b) = selected f a ++ selected f b.
Proof. intros. unfold selected. rewrite filter_app, map_app. reflexivity. Qed.
Lemma selected_one : forall f i x, selected f [(i, x)] = if hasField f (2 ^ i) then [x] else [].
Proof. intros. unfold selected. cbn [filter fst]. rewrite hasField_bit. destruct (N.testbit f i); reflexivity. Qed.
Lemma info_spec : forall k f, Forall (fun n : bytes => n <> []) (kOldNames k) ->
  info k f = sep_by (b_ ", ") (map snd (filter (fun p => N.testbit f (fst p)) (fields_of k))).
Proof.
  intros k f Hold. change (info k f = sep_by (b_ ", ") (selected f (fields_of k))).
  unfold fields_of. change ([(0, b_ "Rad " ++ kRadicalName k ++ b_ "(" ++ to_string (kRadicalNumber k) ++ b_ ")");
   (1, b_ "Strokes " ++ strokesToString (kStrokes k) false)]) with
   ([(0, b_ "Rad " ++ kRadicalName k ++ b_ "(" ++ to_string (kRadicalNumber k) ++ b_ ")")]
    ++ [(1, b_ "Strokes " ++ strokesToString (kStrokes k) false)]).
  rewrite !selected_app, !selected_one. unfold info. cbv zeta.
  match goal with |- context [infoIf ?c ?x []] => change (infoIf c x []) with (infoIf c x (sep_by (b_ ", ") [])) end.
  change Info_Radical with (2 ^ 0). change Info_Strokes with (2 ^ 1). change Info_Pinyin with (2 ^ 2).
  change Info_Grade with (2 ^ 3). change Info_Level with (2 ^ 4). change Info_Freq with (2 ^ 5).
  change Info_New with (2 ^ 6). change Info_Old with (2 ^ 7). change Info_Kyu with (2 ^ 8).
  match goal with |- context [infoIf ?c ?x (sep_by ?s ?l)] =>
    destruct (infoIf_sep c x l) as [-> F0]; [constructor|discriminate|] end.
  match goal with |- context [infoIf ?c ?x (sep_by ?s ?l)] =>
    destruct (infoIf_sep c x l F0) as [-> F1]; [discriminate|] end.
  match goal with |- context [infoIf ?c ?x (sep_by ?s ?l)] =>
    destruct (infoIf_sep c x l F1) as [-> F2];
    [intro E; apply andb_true_iff in E; destruct E as [_ E]; destruct (kPinyin k); discriminate|] end.
  match goal with |- context [infoIf ?c ?x (sep_by ?s ?l)] =>
    destruct (infoIf_sep c x l F2) as [-> F3]; [intros _; destruct (kGrade k); discriminate|] end.
  match goal with |- context [infoIf ?c ?x (sep_by ?s ?l)] =>
    destruct (infoIf_sep c x l F3) as [-> F4]; [intros _; destruct (kLevel k); discriminate|] end.
  match goal with |- context [infoIf ?c ?x (sep_by ?s ?l)] =>
    destruct (infoIf_sep c x l F4) as [-> F5]; [discriminate|] end.
  set (L := match kNewName k, kOldNames k with
     | Some n, _ => [(6, b_ "New " ++ n ++ (if kLinkedReadings k then b_ "*" else []))]
     | None, [] => []
     | None, o :: os => [(7, b_ "Old " ++ sep_by (b_ "／") ((o ++ (if kLinkedReadings k then b_ "*" else [])) :: os))]
     end).
  match type of F5 with Forall _ ?l => set (l5 := l) in * end.
  match goal with |- infoIf _ _ ?m = _ =>
    assert (E6 : m = sep_by (b_ ", ") (l5 ++ selected f L) /\ Forall (fun y : bytes => y <> []) (l5 ++ selected f L)) end.
  { unfold L. destruct (kNewName k) as [n|].
    - destruct (infoIf_sep (hasField f (2 ^ 6)) (b_ "New " ++ n ++ (if kLinkedReadings k then b_ "*" else [])) l5 F5) as [-> F6]; [discriminate|].
      rewrite selected_one. auto.
    - destruct (kOldNames k) as [|o os] eqn:Eo.
      + cbn [nonEmpty]. rewrite andb_false_r. unfold infoIf, selected. cbn [filter map]. rewrite app_nil_r. auto.
      + cbn [nonEmpty oldNamesText]. rewrite andb_true_r. inversion Hold as [|? ? Ho _]; subst.
        rewrite oldNamesText_spec by (destruct o; [contradiction|discriminate]).
        match goal with |- infoIf ?c ?x _ = _ /\ _ => destruct (infoIf_sep c x l5 F5) as [-> F6]; [discriminate|] end.
        rewrite selected_one. auto. }
  destruct E6 as [-> F6].
  match goal with |- infoIf ?c ?x (sep_by ?s ?l) = _ =>
    destruct (infoIf_sep c x l F6) as [-> _]; [intros _; destruct (kKyu k); discriminate|] end.
  f_equal. unfold l5. rewrite <- !app_assoc. cbn [app].
  assert (Ek : (if hasField f (2 ^ 8) && hasKyu k then [kyuToString (kKyu k)] else [])
    = selected f (match kKyu k with NoKyu => [] | y => [(8, kyuToString y)] end)).
  { unfold hasKyu. destruct (kKyu k); rewrite ?selected_one, ?andb_true_r, ?andb_false_r; reflexivity. }
  assert (El : (if hasField f (2 ^ 4) && hasLevel k then [levelToString (kLevel k)] else [])
    = selected f (match kLevel k with NoLevel => [] | y => [(4, levelToString y)] end)).
  { unfold hasLevel. destruct (kLevel k); rewrite ?selected_one, ?andb_true_r, ?andb_false_r; reflexivity. }
  assert (Eg : (if hasField f (2 ^ 3) && hasGrade k then [gradeToString (kGrade k)] else [])
    = selected f (match kGrade k with NoGrade => [] | y => [(3, gradeToString y)] end)).
  { unfold hasGrade. destruct (kGrade k); rewrite ?selected_one, ?andb_true_r, ?andb_false_r; reflexivity. }
  assert (Ep : (if hasField f (2 ^ 2) && nonEmpty (kPinyin k) then [kPinyin k] else [])
    = selected f (match kPinyin k with [] => [] | p => [(2, p)] end)).
  { destruct (kPinyin k); cbn [nonEmpty]; rewrite ?selected_one, ?andb_true_r, ?andb_false_r; reflexivity. }
  assert (Ef : (if hasField f (2 ^ 5) && negb (kFrequency k =? 0) then [b_ "Frq " ++ to_string (kFrequency k)] else [])
    = selected f (if 0 <? kFrequency k then [(5, b_ "Frq " ++ to_string (kFrequency k))] else [])).
  { destruct (N.eq_dec (kFrequency k) 0) as [E|E].
    - replace (kFrequency k =? 0) with true by lia. replace (0 <? kFrequency k) with false by lia. cbn [negb]. rewrite andb_false_r. reflexivity.
    - replace (kFrequency k =? 0) with false by lia. replace (0 <? kFrequency k) with true by lia. cbn [negb]. rewrite selected_one, andb_true_r. reflexivity. }
  do 2 (apply (f_equal2 (@app bytes)); [reflexivity|]).
  apply (f_equal2 (@app bytes)); [exact Ep|]. apply (f_equal2 (@app bytes)); [exact Eg|].
  apply (f_equal2 (@app bytes)); [exact El|]. apply (f_equal2 (@app bytes)); [exact Ef|].
  apply (f_equal2 (@app bytes)); [reflexivity|exact Ek].
Qed.
