(** Lemmas about the messages about the Jukugo files. *)
From Verif Require Import BaseFacts Utf8Proofs Utf8Lemmas BlockProofs Utf8CharProofs Utf8CharLemmas StringModel StringSpec StringProofs MapProofs ColumnFileProofs ListProofs DirPaths JukugoProofs JukugoLines JukugoLoad
  LoadAttr ErrArgsProofs ErrArgsProps ErrListProofs.
From Verif Require Import ErrJukugoSpec.
Open Scope N_scope.
Arguments N.mul : simpl never.
Arguments N.add : simpl never.
Arguments N.sub : simpl never.

Section Std.
Variable std : exn -> bytes.

(** ** The texts change nothing else *)
Lemma checkReadingT_plain : forall name cs, plain (checkReadingT std name cs) = checkReading cs.
Proof.
  intros name cs. induction cs as [|c cs IH]; [reflexivity|]. cbn [checkReadingT checkReading]. rewrite plain_bind, withText_plain.
  destruct (isHiragana c true) as [h|e| |]; cbn [obind]; try reflexivity. destruct (negb h && negb (beq c ProlongMark)); [reflexivity|exact IH].
Qed.
Lemma newJukugoT_plain : forall n r g, plain (newJukugoT std n r g) = newJukugo n r g.
Proof.
  intros n r g. unfold newJukugoT, newJukugo. rewrite plain_bind, withText_plain. destruct (kanjiOf n) as [ks|e| |]; cbn [obind]; try reflexivity.
  destruct (len ks =? 0); [reflexivity|]. destruct (len ks <? 2); [reflexivity|]. rewrite plain_bind, withText_plain.
  destruct (allChars r true) as [[cs u]|e| |]; cbn [obind]; try reflexivity. rewrite plain_bind, checkReadingT_plain. destruct (checkReading cs); reflexivity.
Qed.
Lemma addJukugoT_plain : forall n r g d, plain (addJukugoT std n r g d) = addJukugo n r g d.
Proof.
  intros n r g d. unfold addJukugoT, addJukugo. destruct (findUnique n r (jUnique d)) as [j|].
  - destruct (negb (jGrade j =? g)); reflexivity.
  - rewrite plain_bind, newJukugoT_plain. destruct (newJukugo n r g) as [j|e| |]; cbn [obind]; try reflexivity.
    rewrite plain_bind, withText_plain. destruct (kanjiOf n); reflexivity.
Qed.
Lemma createJukugoT_plain : forall l g o d, plain (createJukugoT std l g o d) = createJukugo l g o d.
Proof.
  intros l g o d. unfold createJukugoT, createJukugo.
  assert (A : plain (findOpenBracketT l o) = findOpenBracket l o) by (unfold findOpenBracketT, findOpenBracket; destruct (findByte 40 l); [destruct (o && _)|]; reflexivity).
  assert (B : plain (findCloseBracketT l o) = findCloseBracket l o) by (unfold findCloseBracketT, findCloseBracket; destruct (findByte 41 l); [destruct (o && _)|]; reflexivity).
  rewrite plain_bind, A. destruct (findOpenBracket l o) as [i|e| |]; cbn [obind]; try reflexivity.
  rewrite plain_bind, B. destruct (findCloseBracket l o) as [c|e| |]; cbn [obind]; try reflexivity.
  rewrite plain_bind, withText_plain. destruct (substr l 0 _) as [n|e| |]; cbn [obind]; try reflexivity.
  rewrite plain_bind, withText_plain. destruct (substr l (i + 1) _) as [r|e| |]; cbn [obind]; try reflexivity. apply addJukugoT_plain.
Qed.
Lemma createAllT_plain : forall es g d, plain (createAllT std es g d) = createAll es g false d.
Proof.
  intros es g. induction es as [|e es IH]; intro d; [reflexivity|]. cbn [createAllT createAll]. rewrite plain_bind, createJukugoT_plain.
  destruct (createJukugo e g false d); cbn [obind]; try reflexivity. apply IH.
Qed.
Lemma inLine_plain : forall A num file (x : res A), plain (inLine num file x) = asDomainError (plain x).
Proof. intros A num file x. destruct x; reflexivity. Qed.
Lemma loadFileT_plain : forall file c g d, plain (loadJukugoFileT std file c g d) = loadJukugoFile c g d.
Proof.
  intros file c g d. unfold loadJukugoFileT, loadJukugoFile. generalize 1 as num. generalize (getlines 10 c) as ls. intro ls. revert d.
  induction ls as [|l ls IH]; intros d num; [destruct (g =? GradeS); reflexivity|].
  cbn [createLinesT createAll otherLines]. rewrite plain_bind, inLine_plain. unfold createLineT. destruct (g =? GradeS) eqn:E; cbn [negb].
  - destruct (findText (b_ "...") l) as [i|]; [|reflexivity]. rewrite plain_bind, withText_plain. destruct (substrFrom l (i + 3 + 1)) as [r|e| |]; cbn [obind asDomainError]; try reflexivity.
    rewrite createAllT_plain. destruct (createAll (getlines 32 r) g false d) as [d'|e| |]; cbn [obind asDomainError]; try reflexivity.
    rewrite (IH d' (num + 1)). reflexivity.
  - rewrite createJukugoT_plain. destruct (createJukugo l g true d) as [d'|e| |]; cbn [obind asDomainError]; try reflexivity. rewrite (IH d' (num + 1)). reflexivity.
Qed.
Lemma got_plain : forall A (x : res A) v, plain x = Val v -> x = Got v.
Proof. intros A x v H. destruct x; try discriminate H. cbn in H. injection H as ->. reflexivity. Qed.

(** ** Words *)
Lemma unique_none : forall js d n r, Holds js d -> (forall j, ~ earlier js n r j) -> findUnique n r (jUnique d) = None.
Proof.
  intros js d n r H E. unfold findUnique. rewrite (h_unique _ _ H). destruct (find _ (distinct js)) as [k|] eqn:F; [|reflexivity]. exfalso.
  apply find_some in F. destruct F as [F1 F2]. apply andb_true_iff in F2. destruct F2 as [F2 F3]. apply beq_eq in F2, F3. apply (E k).
  split; [exact (distinct_in _ _ F1)|]. auto.
Qed.
Lemma unique_some : forall js d n r j, Holds js d -> earlier js n r j -> exists k, findUnique n r (jUnique d) = Some k /\ jGrade k = jGrade j.
Proof.
  intros js d n r j H (I & <- & <-). unfold findUnique. rewrite (h_unique _ _ H). destruct (find _ (distinct js)) as [k|] eqn:F.
  - exists k. split; [reflexivity|]. apply find_some in F. destruct F as [F1 F2]. apply andb_true_iff in F2. destruct F2 as [F2 F3]. apply beq_eq in F2, F3.
    destruct (h_loadable _ _ H) as [_ L]. apply L; [exact (distinct_in _ _ F1)|exact I|exact F2|exact F3].
  - exfalso. destruct (distinct_covers _ _ I) as (k & K1 & K2). pose proof (find_none _ _ F k K1) as X. unfold same_word in K2. cbn in X. congruence.
Qed.
Lemma earlier_dec : forall js n r, (exists j, earlier js n r j) \/ forall j, ~ earlier js n r j.
Proof.
  intros js n r. destruct (existsb (fun j => beq (jName j) n && beq (jReading j) r) js) eqn:E.
  - left. apply existsb_exists in E. destruct E as (j & I & E). apply andb_true_iff in E. destruct E as [E1 E2]. apply beq_eq in E1, E2. exists j. split; auto.
  - right. intros j (I & <- & <-). apply not_true_iff_false in E. apply E. apply existsb_exists. exists j. split; [exact I|]. rewrite !beq_refl. reflexivity.
Qed.
Lemma check_readingT : forall n its, Forall item_ok its ->
  checkReadingT std n (yields true its) = if forallb readable its then Got tt else Says DomainError (jukugoError n (b_ "reading must be all Hiragana")).
Proof.
  intros n its H. induction H as [|i its Hi _ IH]; [reflexivity|].
  unfold yields in *. cbn [flat_map forallb]. destruct i; cbn [Utf8CharSpec.shown]; cbn [app readable andb]; try exact IH; cbn [checkReadingT].
  - destruct Hi as [A B]. rewrite hira_one by assumption. cbn [withText rbind]. rewrite beq_prolong by exact A. rewrite <- negb_orb.
    destruct (is_hiragana c || (c =? 12540)); cbn [negb andb]; [exact IH|reflexivity].
  - destruct Hi as (A & B & C). rewrite hira_two by assumption. cbn [withText rbind]. rewrite beq_prolong2 by exact A. rewrite <- negb_orb, orb_false_r.
    destruct (is_hiragana c); cbn [negb andb]; [exact IH|reflexivity].
  - cbn in Hi. assert (A : scalar d) by (unfold scalar; lia). rewrite hira_one by (auto; lia). cbn [withText rbind]. rewrite beq_prolong by exact A.
    replace (d =? 12540) with false by lia. rewrite andb_true_r.
    destruct (is_hiragana d); cbn [negb andb]; [exact IH|reflexivity].
  - destruct Hi as [A B]. rewrite hira_one by assumption. cbn [withText rbind]. rewrite beq_prolong by exact A. rewrite <- negb_orb.
    destruct (is_hiragana c || (c =? 12540)); cbn [negb andb]; [exact IH|reflexivity].
Qed.
Lemma word_fault : forall js d g n r why, Holds js d -> bytes_ok n -> bytes_ok r -> word_says js g n r why ->
  addJukugoT std n r g d = Says DomainError (b_ "jukugo " ++ quoted n ++ b_ " " ++ why).
Proof.
  intros js d g n r why H Bn Br W. unfold addJukugoT.
  assert (J : forall m, jukugoError n m = b_ "jukugo " ++ quoted n ++ b_ " " ++ m) by (intro m; unfold jukugoError, quoted; rewrite <- !app_assoc; reflexivity).
  destruct W as [j E G|E K|k E K|ks E K L R].
  - destruct (unique_some js d n r j H E) as (k & -> & Gk). rewrite Gk. replace (jGrade j =? g) with false by lia. cbn [negb]. rewrite <- J. reflexivity.
  - rewrite (unique_none js d n r H E). unfold newJukugoT. rewrite (kanjiOf_spec _ _ Bn K). cbn [withText rbind]. rewrite !J. reflexivity.
  - rewrite (unique_none js d n r H E). unfold newJukugoT. rewrite (kanjiOf_spec _ _ Bn K). cbn [withText rbind]. rewrite !J. reflexivity.
  - rewrite (unique_none js d n r H E). unfold newJukugoT. rewrite (kanjiOf_spec _ _ Bn K). cbn [withText rbind].
    replace (len ks =? 0) with false by lia. replace (len ks <? 2) with false by lia.
    destruct (parse_exists (upto_nul r)) as [es He]; [apply upto_nul_ok; exact Br|apply upto_nul_no_nul|].
    destruct (all_chars r es true Br He) as [u [A _]]. rewrite A. cbn [withText rbind].
    assert (D : checkReadingT std n (yields true (Utf8CharSpec.items es)) = Says DomainError (jukugoError n (b_ "reading must be all Hiragana"))).
    { rewrite check_readingT by exact (items_fine _ _ He). destruct (forallb readable (Utf8CharSpec.items es)) eqn:F; [|reflexivity].
      exfalso. apply R. exists es. split; [exact He|]. apply Forall_forall. rewrite forallb_forall in F. exact F. }
    rewrite D. cbn [rbind]. rewrite J. reflexivity.
Qed.

Lemma word_total : forall js d g n r, Holds js d -> bytes_ok n -> bytes_ok r -> loadable (js ++ [MkJukugo n r g]) \/ exists why, word_says js g n r why.
Proof.
  intros js d g n r H Bn Br. destruct (add_step js d (MkJukugo n r g) H (conj Bn Br)) as [[L _]|[NL _]]; [left; exact L|right].
  destruct (earlier_dec js n r) as [[j E]|E].
  - destruct (N.eq_dec (jGrade j) g) as [G|G]; [|eexists; exact (ws_files js g n r j E G)]. exfalso. apply NL. destruct E as (I & <- & <-). subst g.
    replace (MkJukugo (jName j) (jReading j) (jGrade j)) with j by (destruct j; reflexivity). destruct (h_loadable _ _ H) as [L1 L2].
    assert (X : forall a, In a (js ++ [j]) -> In a js) by (intros a Ha; apply in_app_or in Ha; destruct Ha as [Ha|[<-|[]]]; assumption).
    split; [apply Forall_forall; intros a Ha; rewrite Forall_forall in L1; auto|]. intros a b Ha Hb. apply L2; auto.
  - destruct (word_exists n Bn) as [ks K]. destruct ks as [|k [|k2 ks]]; [eexists; exact (ws_none js g n r E K)|eexists; exact (ws_one js g n r k E K)|].
    assert (L : 2 <= len (k :: k2 :: ks)) by (rewrite !len_cons; lia).
    destruct (reading_decides r Br) as (cs & u & A & [[X _]|[X _]]); [|eexists; exact (ws_reading js g n r _ E K L X)].
    exfalso. apply NL. destruct (h_loadable _ _ H) as [L1 L2]. split.
    + apply Forall_app. split; [exact L1|]. constructor; [|constructor]. split; [exists (k :: k2 :: ks); split; assumption|exact X].
    + intros a b Ha Hb Hn Hr. apply in_app_or in Ha. apply in_app_or in Hb. destruct Ha as [Ha|[<-|[]]], Hb as [Hb|[<-|[]]].
      * apply L2; assumption.
      * exfalso. apply (E a). split; auto.
      * exfalso. apply (E b). split; auto.
      * reflexivity.
Qed.

(** ** Entries *)
Lemma grade_createT : forall line name reading g d, fits line -> grade_line line name reading ->
  createJukugoT std line g true d = addJukugoT std name reading g d.
Proof.
  intros line name reading g d Hf (El & Hn & N1 & N2 & N3). unfold createJukugoT.
  assert (E1 : line = (name ++ [32]) ++ 40 :: (reading ++ [41])). { rewrite El, <- app_assoc. reflexivity. }
  assert (E2 : line = (name ++ [32; 40] ++ reading) ++ 41 :: []). { rewrite El, <- !app_assoc. reflexivity. }
  assert (Ln : len line = len name + 2 + len reading + 1). { rewrite El, !len_app. unfold len. cbn [b_ length]. lia. }
  assert (P : 0 < len name). { destruct name; [congruence|rewrite len_cons; lia]. }
  assert (F1 : findByte 40 line = Some (len name + 1)).
  { rewrite E1, findByte_app; [rewrite len_app; reflexivity|]. intro X. apply in_app_or in X. destruct X as [X|[X|[]]]; [exact (N1 X)|lia]. }
  assert (F2 : findByte 41 line = Some (len name + 2 + len reading)).
  { rewrite E2, findByte_app; [rewrite !len_app; f_equal; unfold len; cbn [length]; lia|].
    intro X. apply in_app_or in X. destruct X as [X|X]; [exact (N2 X)|]. apply in_app_or in X. destruct X as [[X|[X|[]]]|X]; [lia|lia|exact (N3 X)]. }
  unfold findOpenBracketT, findCloseBracketT. rewrite F1, F2.
  replace (len name + 1 - 1) with (len name) by lia.
  assert (Hnth : nth (N.to_nat (len name)) line 0 = 32). { rewrite El, nat_len. rewrite app_nth2 by lia. rewrite Nat.sub_diag. reflexivity. }
  rewrite Hnth. replace (len name + 1 <? 2) with false by lia. cbn [andb orb negb N.eqb rbind].
  replace (32 =? 32) with true by reflexivity. cbn [negb andb rbind].
  replace (len name + 2 + len reading =? len line - 1) with true by lia. cbn [negb andb rbind].
  replace (len name + 1 - 1) with (len name) by lia.
  rewrite El at 1. rewrite substr_prefix. cbn [withText rbind].
  unfold fits in Hf.
  replace (u64 (len name + 2 + len reading + (2 ^ 64 - (len name + 1)) + (2 ^ 64 - 1))) with (len reading).
  2:{ unfold u64. symmetry.
      replace (len name + 2 + len reading + (2 ^ 64 - (len name + 1)) + (2 ^ 64 - 1)) with (len reading + 2 * 2 ^ 64) by lia.
      rewrite N.mod_add by lia. apply N.mod_small. lia. }
  replace (len name + 1 + 1) with (len (name ++ [32; 40])) by (rewrite len_app; unfold len; cbn [length]; lia).
  replace line with ((name ++ [32; 40]) ++ reading ++ [41]) by (rewrite El, <- app_assoc; reflexivity).
  rewrite substr_mid. reflexivity.
Qed.
Lemma other_createT : forall e name reading g d, fits e -> other_entry e name reading ->
  createJukugoT std e g false d = addJukugoT std name reading g d.
Proof.
  intros e name reading g d Hf (N1 & C). unfold createJukugoT, fits in *.
  assert (E0 : exists q, e = name ++ 40 :: q). { destruct C as [(rest & -> & _)|[-> _]]; eexists; reflexivity. }
  destruct E0 as [q E0].
  assert (F1 : findByte 40 e = Some (len name)) by (rewrite E0; apply findByte_app; exact N1).
  unfold findOpenBracketT, findCloseBracketT. rewrite F1. cbn [andb rbind].
  assert (Ln : len e = len name + 1 + len q) by (rewrite E0, len_app, len_cons; lia).
  destruct C as [(rest & E & N2 & N3)|[E N2]].
  - assert (E2 : e = (name ++ [40] ++ reading) ++ 41 :: rest). { rewrite E, <- !app_assoc. reflexivity. }
    assert (F2 : findByte 41 e = Some (len name + 1 + len reading)).
    { rewrite E2, findByte_app; [rewrite !len_app; f_equal; unfold len; cbn [length]; lia|].
      intro X. apply in_app_or in X. destruct X as [X|X]; [exact (N2 X)|]. apply in_app_or in X. destruct X as [[X|[]]|X]; [lia|exact (N3 X)]. }
    rewrite F2. cbn [andb rbind]. rewrite E at 1. rewrite substr_prefix. cbn [withText rbind].
    assert (Lr : len e = len name + 1 + len reading + 1 + len rest). { rewrite E, !len_app. unfold len. cbn [length]. lia. }
    replace (u64 (len name + 1 + len reading + (2 ^ 64 - len name) + (2 ^ 64 - 1))) with (len reading).
    2:{ unfold u64. symmetry.
        replace (len name + 1 + len reading + (2 ^ 64 - len name) + (2 ^ 64 - 1)) with (len reading + 2 * 2 ^ 64) by lia.
        rewrite N.mod_add by lia. apply N.mod_small. lia. }
    replace (len name + 1) with (len (name ++ [40])) by (rewrite len_app; reflexivity).
    replace e with ((name ++ [40]) ++ reading ++ [41] ++ rest) by (rewrite E, <- app_assoc; reflexivity).
    rewrite substr_mid. reflexivity.
  - destruct (in_split_first 41 name N2) as (a & r & Ea & Ha).
    assert (F2 : findByte 41 e = Some (len a)). { rewrite E, Ea, <- app_assoc. apply (findByte_app 41 a (r ++ [40] ++ reading)). exact Ha. }
    rewrite F2. cbn [andb rbind]. rewrite E at 1. rewrite substr_prefix. cbn [withText rbind].
    assert (Eq : q = reading). { rewrite E in E0. apply app_inv_head in E0. inversion E0. reflexivity. } subst q.
    assert (La : len a + 1 <= len name). { rewrite Ea, len_app, len_cons. lia. }
    replace (len name + 1) with (len (name ++ [40])) by (rewrite len_app; reflexivity).
    replace e with ((name ++ [40]) ++ reading) at 1 by (rewrite E, <- app_assoc; reflexivity).
    rewrite substr_end; [reflexivity|].
    unfold u64. replace (len a + (2 ^ 64 - len name) + (2 ^ 64 - 1)) with ((2 ^ 64 - (len name - len a) - 1) + 1 * 2 ^ 64) by lia.
    rewrite N.mod_add by lia. rewrite N.mod_small by lia. lia.
Qed.
Lemma entry_create : forall whole e n r g d, fits e -> entry whole e n r -> createJukugoT std e g whole d = addJukugoT std n r g d.
Proof. intros [|] e n r g d F E; [apply grade_createT|apply other_createT]; assumption. Qed.
Lemma entry_ok : forall whole e n r, bytes_ok e -> entry whole e n r -> bytes_ok n /\ bytes_ok r.
Proof.
  intros [|] e n r B E.
  - destruct E as (E & _). rewrite E in B. apply bytes_ok_mid in B. destruct B as (B1 & _ & B2). apply bytes_ok_app in B2. tauto.
  - destruct E as (_ & [(t & E & _)|[E _]]); rewrite E in B; apply bytes_ok_mid in B; destruct B as (B1 & _ & B2); [apply bytes_ok_app in B2|]; tauto.
Qed.
Lemma byte_of : forall c a r, ~ In c a -> findByte c (a ++ [c] ++ r) = Some (len a).
Proof. intros c a r H. apply (findByte_app c a r H). Qed.
Lemma byte_none : forall c s, ~ In c s -> findByte c s = None.
Proof. intros c s H. destruct (findByte_cases c s) as [[E _]|(a & r & -> & _)]; [exact E|]. exfalso. apply H. apply in_or_app. right. left. reflexivity. Qed.
Lemma open_space : forall n r, n <> [] -> ~ In 40 n -> findOpenBracketT (n ++ b_ " (" ++ r) true = Got (len n + 1).
Proof.
  intros n r Hn N1. unfold findOpenBracketT. change (b_ " (" ++ r) with ([32] ++ [40] ++ r). rewrite (app_assoc n [32]).
  rewrite byte_of. 2:{ intro X. apply in_app_or in X. destruct X as [X|[X|[]]]; [exact (N1 X)|lia]. }
  rewrite len_app. change (len [32]) with 1. replace (len n + 1 - 1) with (len n) by lia.
  rewrite <- app_assoc, nat_len, app_nth2, Nat.sub_diag by lia. destruct n as [|x n]; [congruence|]. rewrite len_cons.
  replace (1 + len n + 1 <? 2) with false by lia. reflexivity.
Qed.
Lemma open_bad : forall a r, ~ In 40 a -> (forall n, a = n ++ b_ " " -> n = []) -> findOpenBracketT (a ++ b_ "(" ++ r) true = Says DomainError (b_ "open bracket should follow a space").
Proof.
  intros a r Ha H. unfold findOpenBracketT. change (b_ "(") with [40]. rewrite byte_of by exact Ha. cbn [andb].
  destruct (len a <? 2) eqn:E; [reflexivity|]. cbn [orb].
  destruct (exists_last (l := a)) as [n [x Ex]]; [intro X; subst a; cbn in E; discriminate|]. subst a.
  rewrite len_app. change (len [x]) with 1. replace (len n + 1 - 1) with (len n) by lia. rewrite <- app_assoc, nat_len, app_nth2, Nat.sub_diag by lia. cbn [nth app].
  destruct (N.eqb_spec x 32) as [->|_]; [|reflexivity]. specialize (H n eq_refl). subst n. cbn in E. discriminate E.
Qed.
Lemma entry_fault : forall whole js d g e w, Holds js d -> fits e -> bytes_ok e -> entry_says whole js g e w -> createJukugoT std e g whole d = Says DomainError w.
Proof.
  intros whole js d g e w H F B W. destruct W as [e Ho|a r -> Ha Hn|a r Ha Hs Hc|e n r b t -> Nn N4 E1 E2 Nb Nt|e n r why E W].
  - unfold createJukugoT, findOpenBracketT. rewrite (byte_none _ _ Ho). reflexivity.
  - unfold createJukugoT. rewrite (open_bad a r Ha Hn). reflexivity.
  - unfold createJukugoT. assert (O : exists i, findOpenBracketT (a ++ b_ "(" ++ r) whole = Got i).
    { destruct whole.
      - destruct (Hs eq_refl) as (n & Nn & ->). exists (len n + 1). rewrite <- app_assoc. apply (open_space n r Nn). intro X. apply Ha. apply in_or_app. left. exact X.
      - unfold findOpenBracketT. change (b_ "(") with [40]. rewrite byte_of by exact Ha. eexists. reflexivity. }
    destruct O as [i ->]. cbn [rbind]. unfold findCloseBracketT. rewrite (byte_none _ _ Hc). reflexivity.
  - unfold createJukugoT. rewrite E1, (open_space n r Nn N4), <- E1. cbn [rbind]. unfold findCloseBracketT. rewrite E2. change (b_ ")") with [41]. rewrite byte_of by exact Nb.
    cbn [andb]. rewrite !len_app. change (len [41]) with 1. destruct t as [|x t]; [congruence|]. rewrite len_cons.
    replace (len b =? len b + (1 + (1 + len t)) - 1) with false by lia. reflexivity.
  - destruct (entry_ok _ _ _ _ B E) as [Bn Br]. rewrite (entry_create whole e n r g d F E). exact (word_fault js d g n r why H Bn Br W).
Qed.
Lemma entry_step : forall whole js d g e j, Holds js d -> fits e -> bytes_ok e -> entry whole e (jName j) (jReading j) -> jGrade j = g -> loadable (js ++ [j]) ->
  exists d', createJukugoT std e g whole d = Got d' /\ Holds (js ++ [j]) d'.
Proof.
  intros whole js d g e j H F B E <- Lo. destruct (add_step js d j H (entry_ok _ _ _ _ B E)) as [[_ (d' & A & H')]|[NL _]]; [|contradiction].
  exists d'. split; [|exact H']. rewrite (entry_create _ _ _ _ _ _ F E). apply got_plain. rewrite addJukugoT_plain. exact A.
Qed.
Lemma entry_total : forall whole js d g e, Holds js d -> bytes_ok e ->
  (exists j, entry whole e (jName j) (jReading j) /\ jGrade j = g /\ loadable (js ++ [j])) \/ exists w, entry_says whole js g e w.
Proof.
  intros whole js d g e H B.
  assert (K : (exists n r, entry whole e n r) \/ exists w, entry_says whole js g e w).
  { destruct (findByte_cases 40 e) as [[_ Ho]|(a & r & E & Ha)]; [right; eexists; exact (es_no_open _ _ _ e Ho)|].
    change (a ++ 40 :: r) with (a ++ b_ "(" ++ r) in E. destruct whole.
    - assert (Sp : (exists n, n <> [] /\ a = n ++ b_ " ") \/ forall n, a = n ++ b_ " " -> n = []).
      { destruct a as [|x a']; [right; intros n X; destruct n; discriminate X|]. destruct (exists_last (l := x :: a')) as (n & y & Ey); [discriminate|]. rewrite Ey in *.
        destruct n as [|z n]; [right; intros m X; apply app_inj_tail in X; destruct X as [<- _]; reflexivity|].
        destruct (N.eq_dec y 32) as [->|Ny]; [left; exists (z :: n); split; [discriminate|reflexivity]|right; intros m X; apply app_inj_tail in X; destruct X as [_ X]; exfalso; exact (Ny X)]. }
      destruct Sp as [(n & Nn & ->)|Sp]; [|right; eexists; rewrite E; exact (es_no_space _ _ _ a r eq_refl Ha Sp)].
      destruct (findByte_cases 41 e) as [[_ Hc]|(b & t & E2 & Hb)].
      { right. eexists. rewrite E in *. apply es_no_close; [exact Ha|intros _; exists n; auto|exact Hc]. }
      destruct t as [|y t].
      2:{ right. eexists. apply (es_not_last _ _ _ e n r b (y :: t)); [reflexivity|exact Nn|intro X; apply Ha; apply in_or_app; left; exact X|rewrite E, <- app_assoc; reflexivity|exact E2|exact Hb|discriminate]. }
      left. assert (Hr : exists rd, r = rd ++ [41]).
      { destruct r as [|y r].
        - exfalso. rewrite E in E2. change (b_ "(" ++ []) with [40] in E2. apply app_inj_tail in E2. destruct E2 as [_ X]. discriminate X.
        - destruct (exists_last (l := y :: r)) as [rd [z Ez]]; [discriminate|]. exists rd. rewrite Ez in *. f_equal. f_equal.
          rewrite E in E2. rewrite (app_assoc (b_ "(")), (app_assoc (n ++ b_ " ")) in E2. apply app_inj_tail in E2. tauto. }
      destruct Hr as [rd ->]. exists n, rd.
      assert (Ec : b = n ++ b_ " (" ++ rd).
      { rewrite E in E2. rewrite (app_assoc (b_ "(")), (app_assoc (n ++ b_ " ")) in E2. apply app_inj_tail in E2. destruct E2 as [X _]. rewrite <- X, <- app_assoc. reflexivity. }
      split; [rewrite E, <- !app_assoc; reflexivity|]. split; [exact Nn|]. split; [intro X; apply Ha; apply in_or_app; left; exact X|].
      split; intro X; apply Hb; rewrite Ec; apply in_or_app; [left; exact X|right; right; right; exact X].
    - destruct (findByte_cases 41 e) as [[_ Hc]|(b & t & E2 & Hb)].
      { right. eexists. rewrite E in *. apply es_no_close; [exact Ha|discriminate|exact Hc]. }
      left. destruct (other_decidable e) as [X|X]; [exact X|]. exfalso. destruct (in_dec N.eq_dec 41 a) as [I|I].
      + apply (X a r). split; [exact Ha|]. right. split; [exact E|exact I].
      + assert (Hr : In 41 r).
        { assert (Y : In 41 e) by (rewrite E2; apply in_or_app; right; left; reflexivity). rewrite E in Y. apply in_app_or in Y.
          destruct Y as [Y|[Y|Y]]; [contradiction|discriminate Y|exact Y]. }
        destruct (in_split_first 41 r Hr) as (c & u & Er & Hc). apply (X a c). split; [exact Ha|]. left. exists u. split; [rewrite E, Er; reflexivity|]. auto. }
  destruct K as [(n & r & E)|W]; [|right; exact W]. destruct (entry_ok _ _ _ _ B E) as [Bn Br].
  destruct (word_total js d g n r H Bn Br) as [Lo|[why W]]; [left; exists (MkJukugo n r g); auto|right]. eexists. exact (es_word _ _ _ e n r why E W).
Qed.
End Std.
