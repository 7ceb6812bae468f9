(** Lemmas about display sizes. *)
From Verif Require Import BaseFacts Utf8Proofs Utf8Lemmas BlockProofs UcdProofs.
From Verif Require Export DisplaySpec.
Open Scope N_scope.
Arguments N.mul : simpl never.
Arguments N.add : simpl never.
Arguments N.sub : simpl never.
Arguments N.div : simpl never.
Arguments N.modulo : simpl never.
Arguments N.pow : simpl never.

Lemma wide_iff : forall c, inRange c [WideBlocks] = true <-> wide c.
Proof.
  intro c. cbn [inRange]. rewrite orb_false_r. apply inRange1_spec. vm_compute. reflexivity.
Qed.
Lemma wide_large : forall c, wide c -> 0x1100 <= c.
Proof.
  intros c [b [H [H1 _]]]. assert (K : forallb (fun b => 0x1100 <=? fst b) WideBlocks = true) by (vm_compute; reflexivity).
  rewrite forallb_forall in K. specialize (K b H). lia.
Qed.
Lemma ns_large : forall c, non_spacing c -> 0x3099 <= c.
Proof. intros c H. unfold non_spacing, variation_selector, within in H. lia. Qed.
Lemma wide_dec : forall c, wide c \/ ~ wide c.
Proof. intro c. destruct (inRange c [WideBlocks]) eqn:E; [left; apply wide_iff; exact E|right; intro H; apply wide_iff in H; congruence]. Qed.
Lemma codeSize_columns : forall c, c <> 0 -> columns c (codeSize c).
Proof.
  intros c Hc. unfold codeSize, columns. replace (c =? 0) with false by lia. cbn [negb andb].
  destruct (isNonSpacing c) eqn:E; cbn [negb].
  - left. split; [apply r_ns; exact E|reflexivity].
  - right. assert (N : ~ non_spacing c) by (intro H; apply r_ns in H; congruence).
    destruct (inRange c [WideBlocks]) eqn:W.
    + left. split; [exact N|]. split; [apply wide_iff; exact W|reflexivity].
    + right. split; [exact N|]. split; [|reflexivity]. intro H. apply wide_iff in H. congruence.
Qed.
Lemma columns_fun : forall c a b, columns c a -> columns c b -> a = b.
Proof. intros c a b Ha Hb. unfold columns in *. intuition congruence. Qed.
Lemma sizes_total : forall w, Forall (fun c => c <> 0) w -> total w (displaySizeCodes w).
Proof.
  intros w H. induction H as [|c w Hc _ IH]; cbn [displaySizeCodes]; constructor; [apply codeSize_columns; exact Hc|exact IH].
Qed.
Lemma total_fun : forall w a b, total w a -> total w b -> a = b.
Proof.
  intros w a b Ha. revert b. induction Ha as [|c cs k n Hk _ IH]; intros b Hb; inversion Hb as [|c' cs' k' n' Hk' Hb']; subst; [reflexivity|].
  rewrite (columns_fun c k k' Hk Hk'), (IH n' Hb'). reflexivity.
Qed.
Lemma displaySize_decode : forall s, bytes_ok s -> displaySize s = Val (displaySizeCodes (decode (upto_nul s))).
Proof. intros s H. unfold displaySize. rewrite fromUtf8_decode by exact H. reflexivity. Qed.
Lemma decode_nonzero : forall n s, (List.length s <= n)%nat -> bytes_ok s -> no_nul s -> Forall (fun c => c <> 0) (decode s).
Proof.
  induction n as [|n IH]; intros [|b r] L Hok Hn; try (constructor; fail); try (cbn in L; lia).
  rewrite decode_cons. apply Forall_cons_iff in Hok. apply Forall_cons_iff in Hn. destruct Hok, Hn.
  pose proof (dec1_len b r). cbn [List.length] in L.
  constructor; [apply dec1_nonzero; assumption|]. apply IH; [lia|apply dec1_ok; assumption|apply dec1_nonul; assumption].
Qed.

(** every character takes at most as many columns as bytes *)
Lemma codeSize_bytes : forall b r c r', bytes_ok (b :: r) -> dec1 b r = (c, r') ->
  codeSize c + len r' <= len (b :: r).
Proof.
  intros b r c r' Hok E. destruct (N.eq_dec c 0xfffd) as [->|Hc].
  - change (codeSize 0xfffd) with 1. pose proof (dec1_len b r) as L. rewrite E in L. cbn [snd] in L. rewrite len_cons. unfold len. lia.
  - pose proof (dec1_exact b r c r' Hok E Hc) as X. rewrite X, len_app.
    assert (codeSize c <= len (enc c)); [|lia].
    pose proof (enc_len c) as L. unfold codeSize. destruct (negb (c =? 0) && negb (isNonSpacing c)); [|lia].
    destruct (inRange c [WideBlocks]) eqn:W; [|lia]. apply wide_iff in W. apply wide_large in W.
    pose proof (enc_len_mb c ltac:(lia)). lia.
Qed.
Lemma sizes_le : forall n s, (List.length s <= n)%nat -> bytes_ok s -> displaySizeCodes (decode s) <= len s.
Proof.
  induction n as [|n IH]; intros [|b r] L Hok; try (cbn; lia); try (cbn in L; lia).
  rewrite decode_cons. cbn [displaySizeCodes]. destruct (dec1 b r) as [c r'] eqn:E. cbn [fst snd].
  pose proof (codeSize_bytes b r c r' Hok E) as K. pose proof (dec1_len b r) as L2. rewrite E in L2. cbn [snd] in L2. cbn [List.length] in L.
  assert (bytes_ok r') by (apply Forall_cons_iff in Hok; destruct Hok as [_ Hok]; pose proof (dec1_ok b r Hok) as Q; rewrite E in Q; exact Q).
  specialize (IH r' ltac:(lia) ltac:(assumption)). lia.
Qed.
Lemma size_le : forall s d, bytes_ok s -> displaySize s = Val d -> d <= len s.
Proof.
  intros s d Hok E. rewrite displaySize_decode in E by exact Hok. injection E as <-.
  pose proof (sizes_le (List.length (upto_nul s)) (upto_nul s) (le_n _) (upto_nul_ok s Hok)). pose proof (len_upto s). lia.
Qed.
Lemma size_total : forall s, bytes_ok s -> exists d, displaySize s = Val d /\ d <= len s /\ (d = 0 -> no_nul s -> Forall non_spacing (decode s)).
Proof.
  intros s Hok. eexists. split; [apply displaySize_decode; exact Hok|]. split; [eapply size_le; [exact Hok|apply displaySize_decode; exact Hok]|].
  intros Z Hn. rewrite upto_nul_id in Z by exact Hn.
  pose proof (decode_nonzero (List.length s) s (le_n _) Hok Hn) as NZ. induction NZ as [|c w Hc NZ IH]; [constructor|].
  cbn [displaySizeCodes] in Z. constructor; [|apply IH; lia]. pose proof (codeSize_columns c Hc) as C.
  assert (codeSize c = 0) by lia. unfold columns in C. destruct C as [[C _]|[[_ [_ C]]|[_ [_ C]]]]; [exact C|lia|lia].
Qed.
Lemma sizes_app : forall a b, displaySizeCodes (a ++ b) = displaySizeCodes a + displaySizeCodes b.
Proof. induction a as [|x a IH]; intro b; cbn [app displaySizeCodes]; [lia|]. rewrite IH. lia. Qed.

Lemma boundary_starts : forall b, bytes_ok b -> boundary b -> starts_char (upto_nul b).
Proof.
  intros [|x r] Hok H; [exact I|]. cbn [upto_nul]. destruct (x =? 0); [exact I|]. cbn [boundary starts_char] in *. unfold is_cont. lia.
Qed.
Lemma upto_nul_app : forall a b, no_nul a -> upto_nul (a ++ b) = a ++ upto_nul b.
Proof.
  induction a as [|x a IH]; intros b H; [reflexivity|]. apply Forall_cons_iff in H. destruct H as [Hx H].
  cbn [app upto_nul]. replace (x =? 0) with false by lia. rewrite IH by exact H. reflexivity.
Qed.
Lemma size_app : forall a b x y, bytes_ok a -> no_nul a -> bytes_ok b -> boundary b ->
  displaySize a = Val x -> displaySize b = Val y -> displaySize (a ++ b) = Val (x + y).
Proof.
  intros a b x y Ha Hn Hb Hbd Ex Ey. rewrite displaySize_decode in * by (try assumption; apply bytes_ok_app; auto).
  injection Ex as <-. injection Ey as <-. f_equal.
  rewrite upto_nul_app by exact Hn. rewrite (upto_nul_id a Hn).
  rewrite (decode_app (List.length a) a (upto_nul b) (le_n _)) by (apply boundary_starts; assumption). apply sizes_app.
Qed.
Lemma size_text : forall cs n, chars cs -> (displaySize (text cs) = Val n <-> total cs n).
Proof.
  intros cs n Hc.
  assert (Hs : Forall scalar cs) by (apply chars_scalar; exact Hc).
  assert (E : displaySize (text cs) = Val (displaySizeCodes cs)).
  { unfold displaySize. rewrite fromUtf8_decode by (apply encs_bytes; exact Hs). cbn [obind]. rewrite N.eqb_refl.
    rewrite upto_nul_id by (apply Forall_flat_map; eapply Forall_impl; [|exact Hc]; intros c [H1 H2]; apply enc_no_nul; assumption).
    unfold text. rewrite decode_encs by exact Hs. reflexivity. }
  assert (T : total cs (displaySizeCodes cs)) by (apply sizes_total; eapply Forall_impl; [|exact Hc]; cbn; tauto).
  rewrite E. split; [intros [= <-]; exact T|intro H; rewrite (total_fun cs n _ H T); reflexivity].
Qed.

(** padding *)
Lemma size_repeat : forall f n, 0 < f < 0x80 -> displaySize (repeat f n) = Val (N.of_nat n).
Proof.
  intros f n Hf. assert (E : repeat f n = text (repeat f n)).
  { unfold text. induction n as [|n IH]; [reflexivity|]. cbn [repeat flat_map]. unfold enc at 1. replace (f <? 128) with true by lia.
    cbn [app]. rewrite IH at 1. reflexivity. }
  rewrite E. apply size_text.
  - apply Forall_forall. intros x Hx. apply repeat_spec in Hx. subst x. unfold scalar. lia.
  - induction n as [|n IH]; [constructor|]. cbn [repeat]. replace (N.of_nat (S n)) with (1 + N.of_nat n) by lia. constructor.
    + right. right. split; [intro H; apply ns_large in H; lia|]. split; [intro H; apply wide_large in H; lia|reflexivity].
    + apply IH. unfold text. clear IH E. induction n as [|n IH]; [reflexivity|]. cbn [repeat flat_map]. unfold enc at 1. replace (f <? 128) with true by lia.
      cbn [app]. rewrite IH at 1. reflexivity.
Qed.
Lemma repeat_ok : forall f n, 0 < f < 0x80 -> bytes_ok (repeat f n) /\ no_nul (repeat f n) /\ boundary (repeat f n).
Proof.
  intros f n Hf. split; [|split].
  - apply Forall_forall. intros x Hx. apply repeat_spec in Hx. lia.
  - apply Forall_forall. intros x Hx. apply repeat_spec in Hx. lia.
  - destruct n; cbn; lia.
Qed.
Lemma wideSetw_val : forall s n d, bytes_ok s -> displaySize s = Val d -> n + len s < 2^31 ->
  wideSetw s n = Val (Z.of_N (n + len s - d)).
Proof.
  intros s n d Hok E L. pose proof (size_le s d Hok E) as Hd. unfold wideSetw. rewrite E. cbn [obind]. f_equal.
  unfold u64. change (2^31) with 2147483648 in *. change (2^64) with 18446744073709551616.
  replace (n + len s + (18446744073709551616 - d)) with ((n + len s - d) + 1 * 18446744073709551616) by lia.
  rewrite N.mod_add by lia. rewrite N.mod_small by lia. unfold toInt. change (2^32) with 4294967296. change (2^31) with 2147483648.
  rewrite N.mod_small by lia. replace (n + len s - d <? 2147483648) with true by lia. reflexivity.
Qed.
(** the padded string takes [n] columns, or those of the string when it is wider *)
Lemma wideSetw_pads : forall left s n d, bytes_ok s -> no_nul s -> boundary s -> displaySize s = Val d -> n + len s < 2^31 ->
  exists w, wideSetw s n = Val w /\ displaySize (putSetw left 32 w s) = Val (N.max n d)
    /\ putSetw left 32 w s = (if left then s ++ repeat 32 (N.to_nat (n - d)) else repeat 32 (N.to_nat (n - d)) ++ s).
Proof.
  intros left s n d Hok Hn Hb E L. pose proof (size_le s d Hok E) as Hd. exists (Z.of_N (n + len s - d)).
  split; [apply wideSetw_val; assumption|].
  assert (P : (Z.to_nat (Z.of_N (n + len s - d)) - List.length s)%nat = N.to_nat (n - d)) by (unfold len in *; lia).
  unfold putSetw. rewrite P. split; [|destruct left; reflexivity].
  destruct (repeat_ok 32 (N.to_nat (n - d)) ltac:(lia)) as [R1 [R2 R3]].
  pose proof (size_repeat 32 (N.to_nat (n - d)) ltac:(lia)) as Q.
  destruct left.
  - rewrite (size_app s _ d (N.of_nat (N.to_nat (n - d)))); try assumption. f_equal. lia.
  - rewrite (size_app _ s (N.of_nat (N.to_nat (n - d))) d); try assumption. f_equal. lia.
Qed.

Lemma japanese_columns : forall c,
  (common_kanji c \/ within 0x3041 0x3096 c \/ within 0x30A0 0x30FF c \/ within 0x31F0 0x31FF c -> columns c 2)
  /\ (within 0x20 0x7E c -> columns c 1)
  /\ (non_spacing c -> columns c 0).
Proof.
  intro c. split; [|split].
  - intro H. right. left. split; [|split; [|reflexivity]].
    + unfold common_kanji, non_spacing, variation_selector, within in *. lia.
    + assert (K : forall b, existsb (fun x => (fst x =? fst b) && (snd x =? snd b)) WideBlocks = true -> fst b <= c <= snd b -> wide c).
      { intros b Hb Hc. apply existsb_exists in Hb. destruct Hb as [x [Hx E]]. exists x. split; [exact Hx|lia]. }
      unfold common_kanji, within in H.
      assert (C : 0x3041 <= c <= 0x3096 \/ 0x3099 <= c <= 0x30FF \/ 0x31F0 <= c <= 0x321E \/ 0x3250 <= c <= 0x4DBF
        \/ 0x4E00 <= c <= 0xA48C \/ 0xF900 <= c <= 0xFAFF \/ 0x20000 <= c <= 0x2FFFD) by lia.
      destruct C as [C|[C|[C|[C|[C|[C|C]]]]]];
      [apply (K (0x3041, 0x3096))|apply (K (0x3099, 0x30FF))|apply (K (0x31F0, 0x321E))|apply (K (0x3250, 0x4DBF))
      |apply (K (0x4E00, 0xA48C))|apply (K (0xF900, 0xFAFF))|apply (K (0x20000, 0x2FFFD))]; try (vm_compute; reflexivity); exact C.
  - unfold within. intro H. right. right. split; [|split; [|reflexivity]].
    + intro K. apply ns_large in K. lia.
    + intro K. apply wide_large in K. lia.
  - intro H. left. auto.
Qed.
