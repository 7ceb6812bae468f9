(** Lemmas: the text about a Kanji always exists. *)
From Verif Require Import BaseFacts Utf8Model StringModel StringProofs DisplayModel MapProofs JukugoLoad.
From Verif Require Import MainSpec MainModel MainProofs MainNames MainQuiz ReportProofs DetailsReview DetailsFacts DetailsProps GroupLoadProps.
From Verif Require Import DetailsModel.
Open Scope N_scope.
Arguments N.mul : simpl never.
Arguments N.add : simpl never.
Arguments N.sub : simpl never.

(** ** Reading UTF-8 *)

Lemma more : forall p : bytes, exists y r, p ++ [0] = y :: r.
Proof. intros [|y p]; [exists 0, []|exists y, (p ++ [0])]; reflexivity. Qed.
Lemma next_ends : forall x p, exists b q, getNextByte (x :: p ++ [0]) = Val (b, p ++ [0]) /\ (b = true -> p = hd 0 p :: q).
Proof.
  intros x p. unfold getNextByte. cbn [incr obind]. destruct p as [|y p]; cbn [app deref obind].
  - exists (countl_one 0 =? 1), []. split; [reflexivity|]. discriminate.
  - exists (countl_one y =? 1), p. split; [reflexivity|]. reflexivity.
Qed.
Lemma one_ends : forall x p, exists c q, convertOneUtf8 (x :: p ++ [0]) = Val (c, q ++ [0]) /\ (List.length q <= List.length p)%nat.
Proof.
  intros x p. unfold convertOneUtf8. cbn [deref obind]. cbv zeta. destruct (countl_one x =? 0); [cbn [incr obind]; eauto|].
  destruct ((countl_one x =? 1) || (4 <? countl_one x)); [cbn [incr obind]; eauto|].
  destruct (next_ends x p) as (b2 & q2 & -> & H2). cbn [obind]. destruct b2; cbn [negb]; [|eauto]. specialize (H2 eq_refl). rewrite H2. generalize (hd 0 p). intro y2. clear H2 p.
  assert (X : forall q : bytes, (List.length q <= List.length q2)%nat -> (List.length q <= List.length (y2 :: q2))%nat) by (intros; cbn [length]; lia).
  cbn [app deref obind]. destruct (2 <? countl_one x); [|cbn [incr obind]; eauto].
  destruct (next_ends y2 q2) as (b3 & q3 & -> & H3). cbn [obind]. destruct b3; cbn [negb]; [|eauto]. specialize (H3 eq_refl). rewrite H3 in *. revert X. generalize (hd 0 q2). intros y3 X. clear H3 q2.
  assert (X3 : forall q : bytes, (List.length q <= List.length q3)%nat -> (List.length q <= List.length (y2 :: y3 :: q3))%nat) by (intros; cbn [length]; lia).
  cbn [app deref obind]. destruct (countl_one x =? 4); cbn [deref obind]; [|cbn [incr obind]; eauto].
  destruct (next_ends y3 q3) as (b4 & q4 & -> & H4). cbn [obind]. destruct b4; cbn [negb]; [|eauto]. specialize (H4 eq_refl). rewrite H4 in *. revert X3. generalize (hd 0 q3). intros y4 X3. clear H4 q3 X.
  cbn [app deref obind incr]. do 2 eexists. split; [reflexivity|]. cbn [length]. lia.
Qed.
Lemma loop_ends : forall f p m acc, (List.length p < f)%nat -> p <> [] -> exists cs, convertLoop f (p ++ [0]) m acc = Val cs.
Proof.
  induction f as [|f IH]; intros p m acc L Ne; [lia|]. cbn [convertLoop]. destruct p as [|x p]; [congruence|]. cbn [app].
  destruct (one_ends x p) as (c & q & -> & Lq). cbn [obind]. cbv zeta. destruct q as [|y q]; cbn [app deref obind].
  - rewrite N.eqb_refl. cbn [negb andb]. eauto.
  - destruct (negb (y =? 0) && ((m =? 0) || (len (c :: acc) <? m))); [|eauto]. apply (IH (y :: q)); [cbn [length] in *; lia|discriminate].
Qed.
Lemma from_any : forall s n, exists cs, fromUtf8 s n = Val cs.
Proof.
  intros s n. unfold fromUtf8, convertFromUtf8, c_str. destruct s as [|x s]; [cbn [app deref obind]; rewrite N.eqb_refl; eauto|].
  cbn [app deref obind]. destruct (x =? 0); [eauto|]. apply (loop_ends _ (x :: s)); [|discriminate]. cbn [length]. rewrite app_length. cbn [length]. lia.
Qed.
Lemma hex_any : forall c b, exists t, toUnicode c b = Val t.
Proof.
  intros c b. unfold toUnicode, toHex. rewrite digitLoop_digs; [cbn [obind]; eauto|lia|]. apply size_nat_bound.
Qed.
Lemma codes_any : forall cs a, exists t, toUnicode_loop cs a = Val t.
Proof.
  induction cs as [|c cs IH]; intros a; [cbn [toUnicode_loop]; eauto|]. cbn [toUnicode_loop]. destruct (hex_any c NoBrackets) as (t & ->). cbn [obind]. apply IH.
Qed.
Lemma unicode_any : forall s b, exists t, toUnicode_string s b = Val t.
Proof.
  intros s b. unfold toUnicode_string. destruct (from_any s 0) as (cs & ->). cbn [obind]. unfold toUnicode_codes. destruct (codes_any cs []) as (t & ->). cbn [obind]. eauto.
Qed.
Lemma size_any : forall s, exists n, displaySize s = Val n.
Proof. intros s. unfold displaySize. destruct (from_any s 0) as (cs & ->). cbn [obind]. eauto. Qed.

(** ** Jukugo *)

Lemma widths_any : forall l i ws, exists r, colWidths i l ws = Val r.
Proof.
  induction l as [|j l IH]; intros i ws; [cbn [colWidths]; eauto|]. cbn [colWidths]. cbv zeta. destruct (getWidth (i mod JukugoPerLine) ws <? MaxJukugoSize); [|cbn [obind]; apply IH].
  destruct (size_any (nameAndReading j)) as (n & ->). cbn [obind]. apply IH.
Qed.
Lemma cells_any : forall l i ws, exists r, jukugoCells i l ws = Val r.
Proof.
  induction l as [|j l IH]; intros i ws; [cbn [jukugoCells]; eauto|]. cbn [jukugoCells]. cbv zeta. unfold wideSetw.
  destruct (size_any (nameAndReading j)) as (n & ->). cbn [obind]. destruct (IH (i + 1) ws) as (r & ->). cbn [obind]. eauto.
Qed.
Lemma words_any : forall name l, exists t, jukugoList name l = Val t.
Proof.
  intros name l. unfold jukugoList. destruct (len l <=? JukugoPerLine); [cbn [obind]; eauto|]. destruct (widths_any l 0 (0, 0, 0)) as (ws & ->). cbn [obind].
  destruct (cells_any l 0 ws) as (c & ->). cbn [obind]. eauto.
Qed.
Lemma jukugo_any : forall jd k, exists t, jukugoText jd k = Val t.
Proof.
  intros jd k. unfold jukugoText. cbv zeta. generalize (jFind jd (kName k)). intros l. destruct l as [|j r]; [cbn [obind]; eauto|].
  destruct (hasGrade k && (JukugoPerLine <? len (j :: r))).
  - generalize (filter (fun j => negb (gradeNumber (kGrade k) + 1 =? jGrade j)) (j :: r)), (filter (fun j => gradeNumber (kGrade k) + 1 =? jGrade j) (j :: r)).
    intros a b. destruct a as [|x a]; [destruct (words_any (b_ " Jukugo") (j :: r)) as (t & ->); cbn [obind]; eauto|].
    destruct (words_any (b_ "Same Grade Jukugo") b) as (t & ->). cbn [obind]. destruct (words_any (b_ "Other Grade Jukugo") (x :: a)) as (u & ->). cbn [obind]. eauto.
  - destruct (words_any (b_ " Jukugo") (j :: r)) as (t & ->). cbn [obind]. eauto.
Qed.

(** ** All of it *)

Section Shown.
Variable fs : bytes -> option CountModel.node.
Variable writable : bytes -> bool.
Hypothesis Hbytes : files_bytes fs.
Variable sort sortNames : list Kanji -> list Kanji.
Hypothesis Hsort : sorts orderByQualifiedName sortNames.
Variable ltr : bool.
Variable st : list_static.
Variable cs : list bytes.
Variable root : bool.
Variable ps l : list bytes.
Variable k : Kanjis.
Variable g : Groups.
Hypothesis Hk : kanji_loaded fs writable sort ltr st cs root ps l k.
Hypothesis Hg : groups_loaded fs writable k g.

Lemma similar_any : forall x, exists t, similarText sortNames (gGroups g) x = Val t.
Proof.
  intros x. destruct Hk as [K1 K2 K3 K4 K5]. destruct Hg as [G1 G2 _ _ _]. destruct (groups_ok fs writable Hbytes _ _ _ G1) as [Hm Hp].
  destruct (dir_names fs writable Hbytes _ _ _ _ _ _ _ K3 K4) as [_ Hn].
  assert (Hf : forall n q, findMember (kData k) n = Some q -> kanji_ok (qKanji q)).
  { intros n q H. apply QuizDataProps.C114_members in H. exact (proj1 (proj2 (Hn _ _ (proj1 H)))). }
  destruct (C86_maps _ _ _ _ Hm Hp G2 (kName x)) as [_ M].
  destruct (similar_text sortNames (gGroups g) _ x Hsort (loaded_members _ _ _ _ Hm Hp G2 Hf) M) as (t & E & _). eauto.
Qed.
Lemma details_any : forall n b, exists t, printDetails sortNames (kData k) (envUcd (kEnv k)) (gGroups g) (gJukugo g) n b = Val t.
Proof.
  intros n b. unfold printDetails. destruct (unicode_any n Square) as (c & ->). cbn [obind]. destruct (ucdFind_total (envUcd (kEnv k)) n) as (u & ->). cbn [obind].
  destruct u as [u|]; [|cbn [obind]; eauto]. cbv zeta. destruct (findByName (kData k) n) as [x|]; [|cbn [obind]; eauto]. unfold reviewText.
  destruct (similar_any x) as (s & ->). cbn [obind]. destruct (jukugo_any (gJukugo g) x) as (j & ->). cbn [obind]. eauto.
Qed.
Lemma list_any : forall ks b, exists t, printAll sortNames (kData k) (envUcd (kEnv k)) (gGroups g) (gJukugo g) ks b = Val t.
Proof.
  induction ks as [|x ks IH]; intros b; [cbn [printAll]; eauto|]. cbn [printAll]. destruct (details_any (kName x) b) as (t & ->). cbn [obind].
  destruct (IH b) as (u & ->). cbn [obind]. eauto.
Qed.
Lemma text_any : forall x, exists t, text_about sortNames k g x = Val t.
Proof.
  intros [n|w i ks]; unfold text_about; [apply details_any|]. unfold printList. destruct (list_any ks (len ks =? 1)) as (t & ->). cbn [obind]. eauto.
Qed.
End Shown.
