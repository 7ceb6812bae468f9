(** Kana there and back, letter case, untouched characters and the order of evaluation. *)
From Verif Require Import BaseFacts ConverterModel ConverterSpec Utf8Proofs BlockProofs KanaProofs
  Utf8CharProofs Utf8CharLemmas ConverterProofs ConverterKana ConverterRomaji ConverterTables ConverterTrip ConverterBack.
Open Scope N_scope.
Arguments N.ltb : simpl never.
Arguments N.leb : simpl never.
Arguments N.eqb : simpl never.
Arguments N.add : simpl never.
Arguments N.sub : simpl never.

(** ** Kana to kana and back *)
Section Twice.
Variable t : CharType.
Hypothesis Ht : kana_type t.
Let o := other_kana t.
Lemma other_type : kana_type o. Proof. unfold o. destruct t; discriminate. Qed.
Lemma other_other : other_kana o = t. Proof. unfold o. destruct t; try reflexivity. exfalso. apply Ht. reflexivity. Qed.
Lemma shift_back : forall g, is_source o g = false -> shift_kana o (shift_kana t g) = g.
Proof.
  intros [c|c v] H; [|reflexivity]. unfold is_source in H. unfold o in *. cbn [shift_kana].
  destruct (is_kana t c || is_repeat t c) eqn:E.
  - cbn [shift_kana]. unfold is_kana, is_repeat in *.
    destruct t; [| |exfalso; apply Ht; reflexivity]; cbn [other_kana off] in *;
    match goal with |- (if ?b then _ else _) = _ => replace b with true by lia end; f_equal; lia.
  - cbn [shift_kana]. rewrite H. reflexivity.
Qed.
Definition pairs_agree (xs ss : list N) : bool :=
  forallb (fun x => forallb (fun s => Bool.eqb (known_pair Hiragana x s) (known_pair Katakana (x + 0x60) (s + 0x60))) ss) xs.
Lemma pairs_at : forall xs ss, pairs_agree xs ss = true -> forall x s, In x xs -> In s ss ->
  known_pair Hiragana x s = known_pair Katakana (x + 0x60) (s + 0x60).
Proof.
  intros xs ss P x s Hx Hs. unfold pairs_agree in P. rewrite forallb_forall in P. specialize (P x Hx).
  rewrite forallb_forall in P. specialize (P s Hs). apply Bool.eqb_prop. exact P.
Qed.
Lemma pairs_ok : pairs_agree (kana_codes Hiragana) (smalls Hiragana) = true. Proof. vm_compute. reflexivity. Qed.
Lemma pair_shift : forall x s, is_kana Hiragana x = true -> is_small Hiragana s = true ->
  known_pair Hiragana x s = known_pair Katakana (x + 0x60) (s + 0x60).
Proof. intros x s Hx Hs. exact (pairs_at _ _ pairs_ok x s (kana_in _ _ Hx) (small_in _ _ Hs)). Qed.
Definition kinds (c d : N) (a b : CharType) : Prop :=
  is_tsu a c = is_tsu b d /\ is_n a c = is_n b d /\ is_small a c = is_small b d /\ is_kana a c = is_kana b d /\ is_plain a c = is_plain b d.
Lemma kinds_at : forall c, kinds c (c + 0x60) Hiragana Katakana.
Proof.
  intro c.
  assert (A : is_tsu Hiragana c = is_tsu Katakana (c + 0x60)) by (unfold is_tsu, off; lia).
  assert (B : is_n Hiragana c = is_n Katakana (c + 0x60)) by (unfold is_n, off; lia).
  assert (C : is_small Hiragana c = is_small Katakana (c + 0x60)).
  { unfold is_small, mem, small_codes, off. cbn [map existsb]. lia. }
  assert (D : is_kana Hiragana c = is_kana Katakana (c + 0x60)) by (unfold is_kana, off; lia).
  unfold kinds, is_plain. rewrite A, B, C, D. auto 6.
Qed.
(** a shifted glyph, when it is of the other type at all, came from one of the first type *)
Lemma code_split : forall c, is_source o (G c) = false ->
  (exists d, shift_kana t (G c) = G d /\ kinds c d t o
     /\ (is_kana t c = true -> (t = Hiragana /\ d = c + 0x60) \/ (t = Katakana /\ c = d + 0x60))).
Proof.
  intros c H. unfold o in *. cbn [shift_kana]. destruct (is_kana t c || is_repeat t c) eqn:E.
  - exists (c - off t + off (other_kana t)). split; [reflexivity|].
    destruct t; [| |exfalso; apply Ht; reflexivity]; cbn [other_kana off] in *.
    + replace (c - 0 + 0x60) with (c + 0x60) by lia. split; [apply kinds_at|]. intros _. left. auto.
    + assert (Ec : c = (c - 0x60) + 0x60) by (unfold is_kana, is_repeat, off in E; lia).
      replace (c - 0x60 + 0) with (c - 0x60) by lia. split; [|intros _; right; split; [reflexivity|exact Ec]].
      pose proof (kinds_at (c - 0x60)) as K. rewrite <- Ec in K. unfold kinds in *. intuition congruence.
  - exists c. split; [reflexivity|]. unfold is_source in H. apply orb_false_iff in E. apply orb_false_iff in H.
    destruct E as [E _]. destruct H as [H _].
    split; [|intro K; congruence].
    assert (Z : forall u, is_kana u c = false -> is_tsu u c = false /\ is_n u c = false /\ is_small u c = false /\ is_plain u c = false).
    { intros u Hu. split; [destruct (is_tsu u c) eqn:Q; [apply tsu_is_kana in Q; congruence|reflexivity]|].
      split; [destruct (is_n u c) eqn:Q; [apply n_is_kana in Q; congruence|reflexivity]|].
      split; [destruct (is_small u c) eqn:Q; [apply small_is_kana in Q; congruence|reflexivity]|].
      destruct (is_plain u c) eqn:Q; [apply plain_is_kana in Q; congruence|reflexivity]. }
    destruct (Z _ E) as [Z1 [Z2 [Z3 Z4]]]. destruct (Z _ H) as [Y1 [Y2 [Y3 Y4]]]. unfold kinds. repeat split; congruence.
Qed.
Lemma broken_shift : forall a x s, is_source o a = false -> is_source o x = false -> is_source o s = false ->
  broken o (shift_kana t a) (shift_kana t x) (shift_kana t s) = broken t a x s.
Proof.
  intros [a|a v] [x|x v'] [s|s v''] Ha Hx Hs; try (
    repeat match goal with H : is_source _ (G _) = false |- _ => apply code_split in H; destruct H as [? [H _]]; rewrite ?H end; reflexivity).
  apply code_split in Ha. apply code_split in Hx. apply code_split in Hs.
  destruct Ha as [a' [-> [A _]]]. destruct Hx as [x' [-> [X Xk]]]. destruct Hs as [s' [-> [S Sk]]].
  cbn [broken]. destruct A as [<- _]. destruct X as [_ [_ [_ [_ <-]]]]. destruct S as [_ [_ [<- _]]].
  destruct (is_tsu t a); [|reflexivity]. cbn [andb]. destruct (is_plain t x) eqn:Px; [|reflexivity]. cbn [andb].
  destruct (is_small t s) eqn:Ps; [|reflexivity]. cbn [andb]. f_equal.
  apply plain_is_kana in Px. specialize (Xk Px). specialize (Sk (small_is_kana t s Ps)). unfold o in *.
  destruct t; [| |exfalso; apply Ht; reflexivity].
  - destruct Xk as [[_ ->]|[Q _]]; [|discriminate]. destruct Sk as [[_ ->]|[Q _]]; [|discriminate].
    symmetry. apply pair_shift; assumption.
  - destruct Xk as [[Q _]|[_ ->]]; [discriminate|]. destruct Sk as [[Q _]|[_ ->]]; [discriminate|].
    apply pair_shift.
    + pose proof (kinds_at x') as K. unfold kinds in K. destruct K as [_ [_ [_ [K _]]]]. rewrite K. exact Px.
    + pose proof (kinds_at s') as K. unfold kinds in K. destruct K as [_ [_ [K _]]]. rewrite K. exact Ps.
Qed.
Lemma source_not_kana : forall u c, is_source u (G c) = false -> is_kana u c = false.
Proof. intros u c H. unfold is_source in H. apply orb_false_iff in H. tauto. Qed.
Lemma not_source_tsu : forall g, is_source o g = false -> match g with G c => is_tsu o c = false | _ => True end.
Proof.
  intros [c|] H; [|exact I]. apply source_not_kana in H. destruct (is_tsu o c) eqn:E; [|reflexivity].
  apply tsu_is_kana in E. congruence.
Qed.
Lemma not_source_same : forall g, is_source o g = false -> shift_kana o g = g.
Proof. intros [c|] H; [|reflexivity]. cbn [shift_kana]. unfold is_source in H. rewrite H. reflexivity. Qed.
Lemma twice : forall n us, (List.length us <= n)%nat -> Forall (fun u => is_source o u = false) us ->
  shift_text o (shift_text t us) = drop_long t us.
Proof.
  unfold shift_text, drop_long.
  induction n as [|n IH]; intros us Hn H; [destruct us; [reflexivity|cbn in Hn; lia]|].
  destruct us as [|a us]; [reflexivity|]. cbn [List.length] in Hn. inversion H as [|? ? Ha Hus]; subst.
  assert (Na : walk o (shift_kana o) (shift_kana t a :: walk t (shift_kana t) us)
     = a :: walk o (shift_kana o) (walk t (shift_kana t) us) ->
     walk o (shift_kana o) (shift_kana t a :: walk t (shift_kana t) us) = a :: walk t (fun g => g) us).
  { intro E. rewrite E. f_equal. apply IH; [lia|exact Hus]. }
  destruct us as [|x us]; [cbn [walk]; rewrite shift_back by exact Ha; reflexivity|].
  inversion Hus as [|? ? Hx Hus']; subst.
  destruct us as [|s r].
  { cbn [walk]. rewrite !shift_back by assumption. reflexivity. }
  inversion Hus' as [|? ? Hs Hr]; subst. rewrite !(walk_three t _ a). destruct (broken t a x s) eqn:B.
  - assert (Bo : broken o (shift_kana t a) x s = false).
    { destruct x as [x|]; [|destruct (shift_kana t a); reflexivity].
      destruct (shift_kana t a), s; try reflexivity. cbn [broken].
      assert (is_plain o x = false) as ->; [|rewrite andb_false_r; reflexivity].
      apply source_not_kana in Hx. destruct (is_plain o x) eqn:E; [apply plain_is_kana in E; congruence|reflexivity]. }
    set (w := match r with l :: r' => if is_long l then walk t (shift_kana t) r' else walk t (shift_kana t) r | [] => [] end).
    rewrite walk_three, Bo, shift_back by exact Ha.
    rewrite !walk_skip by (apply not_source_tsu; assumption). rewrite !not_source_same by assumption.
    do 3 f_equal. subst w. destruct r as [|l r']; [reflexivity|]. inversion Hr; subst. cbn [List.length] in Hn.
    destruct (is_long l); apply IH; try assumption; cbn [List.length]; lia.
  - apply Na. clear Na.
    assert (E : exists w, walk t (shift_kana t) (x :: s :: r) = shift_kana t x :: w /\
       ((exists w', w = shift_kana t s :: w') \/ match x with G c => is_tsu t c = true | _ => False end)).
    { destruct (match x with G c => is_tsu t c | _ => false end) eqn:Tx.
      - destruct r as [|y r]; [cbn [walk]; eexists; split; [reflexivity|]; left; eexists; reflexivity|].
        rewrite walk_three. destruct (broken t x s y); eexists; (split; [reflexivity|]); right; destruct x; [exact Tx|discriminate|exact Tx|discriminate].
      - rewrite walk_skip by (destruct x; [exact Tx|exact I]). eexists. split; [reflexivity|]. left.
        destruct r as [|y [|z r]]; [eexists; reflexivity|eexists; reflexivity|].
        rewrite walk_three. destruct (broken t s y z); eexists; reflexivity. }
    destruct E as [w [E W]]. rewrite E.
    assert (S1 : walk o (shift_kana o) (shift_kana t a :: shift_kana t x :: w)
      = shift_kana o (shift_kana t a) :: walk o (shift_kana o) (shift_kana t x :: w)).
    { destruct W as [[w' ->]|Tx].
      - rewrite walk_three, broken_shift by assumption. rewrite B. reflexivity.
      - apply walk_tsu1. destruct x as [x|]; [|contradiction].
        destruct (code_split x Hx) as [d [-> [[K1 [_ [_ [_ K5]]]] _]]]. rewrite <- K5.
        unfold is_plain. rewrite Tx. cbn [negb]. rewrite andb_false_r. reflexivity. }
    rewrite S1, shift_back by exact Ha. reflexivity.
Qed.
Lemma shift_ok : forall g, glyph_ok g -> glyph_ok (shift_kana t g).
Proof.
  intros [c|] H; [|exact H]. cbn [shift_kana]. destruct (is_kana t c || is_repeat t c) eqn:E; [|exact H].
  unfold is_kana, is_repeat in E. destruct t; [| |exfalso; apply Ht; reflexivity]; cbn [other_kana off] in *;
  apply ok_G; unfold is_mark; lia.
Qed.
Lemma walk_ok : forall n us, (List.length us <= n)%nat -> Forall glyph_ok us -> Forall glyph_ok (shift_text t us).
Proof.
  unfold shift_text. induction n as [|n IH]; intros us Hn H; [destruct us; [constructor|cbn in Hn; lia]|].
  destruct us as [|a us]; [constructor|]. cbn [List.length] in Hn. inversion H as [|? ? Ha Hus]; subst.
  assert (D : Forall glyph_ok (shift_kana t a :: walk t (shift_kana t) us)).
  { constructor; [apply shift_ok; exact Ha|]. apply IH; [lia|exact Hus]. }
  destruct us as [|x [|s r]]; [exact D|exact D|]. rewrite walk_three. destruct (broken t a x s); [|exact D].
  inversion Hus as [|? ? Hx Hus']; subst. inversion Hus' as [|? ? Hs Hr]; subst.
  constructor; [apply shift_ok; exact Ha|]. constructor; [exact Hx|]. constructor; [exact Hs|].
  destruct r as [|l r']; [constructor|]. inversion Hr; subst. cbn [List.length] in Hn.
  destruct (is_long l); apply IH; try assumption; cbn [List.length]; lia.
Qed.
Lemma kana_and_back : forall f1 f2 l1 l2 us, Forall glyph_ok us -> Forall (fun u => is_source o u = false) us ->
  exists r, convertFrom o f1 l1 t (gtext us) = Val r /\ convertFrom t f2 l2 o r = Val (gtext (drop_long t us)).
Proof.
  intros f1 f2 l1 l2 us Hok Hs. exists (gtext (shift_text t us)). split; [apply kana_to_kana; assumption|].
  pose proof (kana_to_kana f2 l2 o (shift_text t us) other_type) as K. rewrite other_other in K. rewrite K.
  - f_equal. f_equal. exact (twice (List.length us) us (le_n _) Hs).
  - exact (walk_ok (List.length us) us (le_n _) Hok).
Qed.
End Twice.
