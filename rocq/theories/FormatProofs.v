(** Lemmas about formatting. *)
From Verif Require Import BaseFacts Utf8Proofs Utf8Lemmas BlockProofs BlockProps ListProofs FormatModel FormatSpec.
Open Scope N_scope.

Lemma in_blocks : forall bs c, inBlocks bs c = true <-> bracket_matches (fillRange bs) c.
Proof.
  intros bs c. rewrite fill_matches. unfold inBlocks. rewrite existsb_exists. unfold inBlock. split; intros [b [H1 H2]]; exists b; (split; [exact H1|lia]).
Qed.
Lemma kanji_class : forall c, inBlocks KanjiRange c = true <-> kanji c \/ variation_selector c.
Proof. intro c. rewrite in_blocks. apply (C50_regex_ranges_match_the_categories c). Qed.
Lemma kana_class : forall c, inBlocks KanaRange c = true <-> kana c.
Proof. intro c. rewrite in_blocks. apply (C50_regex_ranges_match_the_categories c). Qed.

Lemma ends_iff : forall line w, fromUtf8 line 0 = Val w -> (searchEndsWithKanji w = true <-> ends_with_kanji line).
Proof.
  intros line w E. unfold searchEndsWithKanji, ends_with_kanji. split.
  - destruct (rev w) as [|c r] eqn:R; [discriminate|]. intro H. exists (rev r), c. rewrite E. split; [|apply kanji_class; exact H].
    f_equal. rewrite <- (rev_involutive w), R. reflexivity.
  - intros (cs & c & E' & H). rewrite E in E'. inversion E'; subst w. rewrite rev_app_distr. cbn [rev app]. apply kanji_class. exact H.
Qed.
Lemma kana_iff : forall line w, fromUtf8 line 0 = Val w -> (searchAllKana w = true <-> furigana line).
Proof.
  intros line w E. unfold searchAllKana, furigana. split.
  - intro H. exists w. split; [exact E|]. destruct w as [|c w]; [discriminate|]. split; [discriminate|].
    apply Forall_forall. intros x Hx. rewrite forallb_forall in H. apply kana_class. exact (H x Hx).
  - intros (cs & E' & H1 & H2). rewrite E in E'. inversion E'; subst cs. destruct w as [|c w]; [congruence|].
    apply forallb_forall. intros x Hx. rewrite Forall_forall in H2. apply kana_class. exact (H2 x Hx).
Qed.

Lemma format_loop : forall ls, Forall bytes_ok ls ->
  (forall p, exists ps rest, pieces ls ps rest /\ formatLoop ls p false = Val (flat_map show ps))
  /\ (forall l, ends_with_kanji l -> exists ps rest, pieces (l :: ls) ps rest /\ formatLoop ls l true = Val (flat_map show ps)).
Proof.
  intros ls H. induction H as [|x ls Hx _ [IH1 IH2]].
  - split.
    + intro p. exists [], []. split; [constructor|reflexivity].
    + intros l Hl. exists [], [l]. split; [apply p_last; exact Hl|reflexivity].
  - destruct (decoder_total x 0 Hx) as [w [E _]]. pose proof (ends_iff x w E) as I1. pose proof (kana_iff x w E) as I2. split.
    + intro p. cbn [formatLoop]. rewrite E. cbn [obind]. destruct (searchEndsWithKanji w).
      * destruct (IH2 x) as (ps & rest & P & F); [apply I1; reflexivity|]. exists ps, rest. split; [exact P|exact F].
      * destruct (IH1 x) as (ps & rest & P & F). rewrite F. cbn [obind]. exists (Alone x :: ps), rest. split.
        -- apply p_plain; [|exact P]. intro X. apply I1 in X. discriminate.
        -- cbn [flat_map show]. rewrite <- app_assoc. reflexivity.
    + intros l Hl. cbn [formatLoop]. rewrite E. cbn [obind]. destruct (searchAllKana w).
      * destruct (IH1 x) as (ps & rest & P & F). rewrite F. cbn [obind]. exists (Over l x :: ps), rest. split.
        -- apply p_furigana; [exact Hl|apply I2; reflexivity|exact P].
        -- cbn [flat_map show]. rewrite <- !app_assoc. reflexivity.
      * assert (Nf : ~ furigana x) by (intro X; apply I2 in X; discriminate). destruct (searchEndsWithKanji w); cbn [negb].
        -- destruct (IH2 x) as (ps & rest & P & F); [apply I1; reflexivity|]. rewrite F. cbn [obind]. exists (Alone l :: ps), rest. split.
           ++ apply p_next; assumption.
           ++ cbn [flat_map show]. rewrite <- app_assoc. reflexivity.
        -- destruct (IH1 x) as (ps & rest & P & F). rewrite F. cbn [obind]. exists (Alone l :: Alone x :: ps), rest. split.
           ++ apply p_next; [exact Hl|exact Nf|]. apply p_plain; [|exact P]. intro X. apply I1 in X. discriminate.
           ++ cbn [flat_map show]. rewrite <- !app_assoc. reflexivity.
Qed.

Lemma format_pieces : forall c ls, bytes_ok c -> cut 10 c ls -> exists ps rest, pieces ls ps rest /\ format c = Val (flat_map show ps).
Proof.
  intros c ls H C. apply cut_getlines in C. subst ls. apply format_loop. apply getlines_generic_ok; [exact H|constructor].
Qed.

Lemma pieces_keep : forall ls ps rest, pieces ls ps rest -> ls = flat_map piece_lines ps ++ rest.
Proof. intros ls ps rest H. induction H; cbn [flat_map piece_lines app] in *; congruence. Qed.
Lemma pieces_rest : forall ls ps rest, pieces ls ps rest ->
  rest = [] \/ exists before l, ls = before ++ [l] /\ rest = [l] /\ ends_with_kanji l.
Proof.
  intros ls ps rest H. induction H as [|l ls ps rest _ _ IH|l f ls ps rest _ _ _ IH|l n ls ps rest _ _ _ IH|l Hl].
  - left. reflexivity.
  - destruct IH as [->|(b & x & E & R & K)]; [left; reflexivity|right; exists (l :: b), x; subst; auto].
  - destruct IH as [->|(b & x & E & R & K)]; [left; reflexivity|right; exists (l :: f :: b), x; subst; auto].
  - destruct IH as [->|(b & x & E & R & K)]; [left; reflexivity|right; exists (l :: b), x; rewrite E; auto].
  - right. exists [], l. auto.
Qed.
Lemma pieces_fun : forall ls ps rest, pieces ls ps rest -> forall ps' rest', pieces ls ps' rest' -> ps = ps' /\ rest = rest'.
Proof.
  intros ls ps rest H. induction H as [|l ls ps rest N H IH|l f ls ps rest K F H IH|l n ls ps rest K F H IH|l K]; intros ps' rest' H'.
  - inversion H'. auto.
  - inversion H' as [|? ? qs ? _ P|? ? ? ? ? X|? ? ? ? ? X|? X]; subst; try contradiction. destruct (IH _ _ P) as [-> ->]. auto.
  - inversion H' as [|? ? qs ? X|? ? ? qs ? _ _ P|? ? ? qs ? _ X|]; subst; try contradiction. destruct (IH _ _ P) as [-> ->]. auto.
  - inversion H' as [|? ? qs ? X|? ? ? qs ? _ X|? ? ? qs ? _ _ P|]; subst; try contradiction. destruct (IH _ _ P) as [-> ->]. auto.
  - inversion H' as [|? ? qs ? X| | |]; subst; try contradiction. auto.
Qed.
