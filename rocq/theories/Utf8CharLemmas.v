(** Consequences of the step lemma: whole iterations and histories of calls. *)
From Verif Require Import BaseFacts Utf8CharModel Utf8CharSpec Utf8Proofs Utf8Lemmas BlockProofs Utf8CharProofs.

Arguments N.ltb : simpl never.
Arguments N.leb : simpl never.
Arguments N.eqb : simpl never.
Arguments N.add : simpl never.

Lemma next_spec : forall es a z u mb,
  parse a es -> no_nul a -> bytes_ok a -> bytes_ok z -> stop z -> uCur u = a ++ z ->
  exists r u', next u mb = Val (r, u') /\ peek u mb = Val r /\ step_spec mb u z es r u'.
Proof.
  intros es a z u mb Hp Hn Hok Hzok Hz Hu. unfold next, peek. rewrite Hu.
  apply next_step; try assumption. rewrite app_length. lia.
Qed.

Lemma reading : forall s, bytes_ok s -> exists es a z,
  s = a ++ z /\ parse a es /\ no_nul a /\ bytes_ok a /\ bytes_ok z /\ stop z /\ a = upto_nul s.
Proof.
  intros s Hok. destruct (split_stop s) as [z [E Hz]].
  pose proof (upto_nul_no_nul s) as Hn. pose proof (upto_nul_ok s Hok) as Ho.
  destruct (parse_exists (upto_nul s) Ho Hn) as [es Hes].
  exists es, (upto_nul s), z. split; [exact E|]. split; [exact Hes|]. split; [exact Hn|]. split; [exact Ho|].
  split; [|split; [exact Hz|reflexivity]]. rewrite E in Hok. apply bytes_ok_app in Hok. tauto.
Qed.

Lemma yields_app : forall mb a b, yields mb (a ++ b) = yields mb a ++ yields mb b.
Proof. intros. unfold yields. apply flat_map_app'. Qed.
Lemma yields_hidden : forall mb its, Forall (hidden mb) its -> yields mb its = [].
Proof.
  intros mb its H. induction H as [|i its Hi H IH]; [reflexivity|].
  unfold yields in *. cbn [flat_map]. unfold hidden in Hi. rewrite Hi. exact IH.
Qed.

Lemma collect_spec : forall fuel es a z u mb,
  parse a es -> no_nul a -> bytes_ok a -> bytes_ok z -> stop z -> uCur u = a ++ z ->
  (List.length a < fuel)%nat ->
  collect fuel u mb = Val (yields mb (items es), bump u z (items es)).
Proof.
  induction fuel as [|fuel IH]; intros es a z u mb Hp Hn Hok Hzok Hz Hu Hf; [lia|].
  cbn [collect]. destruct (next_spec es a z u mb Hp Hn Hok Hzok Hz Hu) as [r [u' [E [_ S]]]].
  rewrite E. cbn [obind]. destruct S as [[-> [Hh ->]]|[pre [i [es' [a' [t [Hit [Hh [Hs [-> [-> [Hp' [Hn' [Hok' Hl]]]]]]]]]]]]]].
  - rewrite yields_hidden by exact Hh. reflexivity.
  - rewrite (IH es' a' z); try assumption; try reflexivity.
    + cbn [obind]. rewrite Hit. rewrite yields_app, (yields_hidden _ _ Hh), bump_bump.
      replace ((pre ++ [i]) ++ items es') with (pre ++ i :: items es') by (rewrite <- app_assoc; reflexivity).
      unfold yields. cbn [flat_map app]. rewrite Hs. reflexivity.
    + rewrite Hu, !app_length in Hl. destruct Hl as [Hl|Hl]; [|lia].
      assert (0 < List.length t)%nat; [|lia].
      destruct t as [|x t]; [|cbn; lia]. exfalso.
      destruct i; cbn in Hs; try discriminate.
      * destruct mb; discriminate.
      * injection Hs as Hs. destruct (enc_nonnil c) as [b [q Eq]]. rewrite Eq in Hs. discriminate.
      * injection Hs as Hs. destruct (enc_nonnil c) as [b [q Eq]]. rewrite Eq in Hs. discriminate.
      * injection Hs as Hs. destruct (enc_nonnil d) as [b [q Eq]]. rewrite Eq in Hs. discriminate.
      * injection Hs as Hs. destruct (enc_nonnil c) as [b [q Eq]]. rewrite Eq in Hs. discriminate.
Qed.

Lemma all_chars : forall s es mb, bytes_ok s -> parse (upto_nul s) es ->
  exists u, allChars s mb = Val (yields mb (items es), u)
    /\ uErrors u = count is_error (items es) /\ uVariants u = count is_variant (items es)
    /\ uMarks u = count is_combined (items es).
Proof.
  intros s es mb Hok Hp. destruct (split_stop s) as [z [E Hz]].
  assert (Hzok : bytes_ok z). { rewrite E in Hok. apply bytes_ok_app in Hok. tauto. }
  unfold allChars. eexists. split.
  - apply (collect_spec _ es (upto_nul s) z); try assumption.
    + apply upto_nul_no_nul.
    + apply upto_nul_ok. exact Hok.
    + pose proof (upto_nul_len s). lia.
  - cbn [bump newUtf8Char uErrors uVariants uMarks]. rewrite !N.add_0_l. auto.
Qed.

(** ** Histories *)
Definition good (s : bytes) (u : Utf8Char) : Prop := uData u = s /\ bytes_ok s /\ bytes_ok (uCur u).

Lemma next_good : forall s u mb, good s u -> exists r u', next u mb = Val (r, u') /\ peek u mb = Val r
  /\ good s u' /\ (List.length (uCur u') <= List.length (uCur u))%nat
  /\ (r <> None -> (List.length (uCur u') < List.length (uCur u))%nat)
  /\ (r = None -> stop (uCur u')).
Proof.
  intros s u mb [Hd [Hs Hc]]. destruct (reading (uCur u) Hc) as [es [a [z [E [Hp [Hn [Ho [Hzo [Hz _]]]]]]]]].
  destruct (next_spec es a z u mb Hp Hn Ho Hzo Hz E) as [r [u' [H1 [H2 S]]]].
  exists r, u'. split; [exact H1|]. split; [exact H2|].
  destruct S as [[-> [_ ->]]|[pre [i [es' [a' [t [Hit [Hh [Hsh [-> [-> [Hp' [Hn' [Hok' Hl]]]]]]]]]]]]]].
  - cbn [bump uData uCur]. split; [split; [exact Hd|split; assumption]|]. rewrite E, app_length.
    split; [lia|]. split; [congruence|]. intros _. exact Hz.
  - cbn [bump uData uCur]. split; [split; [exact Hd|split; [exact Hs|apply bytes_ok_app; split; assumption]]|].
    rewrite E, !app_length in *.
    assert (Hlt : (List.length a' < List.length a)%nat).
    { destruct Hl as [Hl|Hl]; [|lia].
      assert (0 < List.length t)%nat; [|lia].
      destruct t as [|x t]; [|cbn; lia]. exfalso.
      destruct i; cbn in Hsh; try discriminate.
      * destruct mb; discriminate.
      * injection Hsh as Hsh. destruct (enc_nonnil c) as [b [q Eq]]. rewrite Eq in Hsh. discriminate.
      * injection Hsh as Hsh. destruct (enc_nonnil c) as [b [q Eq]]. rewrite Eq in Hsh. discriminate.
      * injection Hsh as Hsh. destruct (enc_nonnil d) as [b [q Eq]]. rewrite Eq in Hsh. discriminate.
      * injection Hsh as Hsh. destruct (enc_nonnil c) as [b [q Eq]]. rewrite Eq in Hsh. discriminate. }
    split; [lia|]. split; [lia|]. discriminate.
Qed.

Lemma call_good : forall s u c, good s u -> exists r u', do_call u c = Val (r, u') /\ good s u'.
Proof.
  intros s u [mb|mb|] H; cbn [do_call].
  - destruct (next_good s u mb H) as [r [u' [H1 [_ [H2 _]]]]]. exists r, u'. split; assumption.
  - destruct (next_good s u mb H) as [r [u' [_ [H1 _]]]]. rewrite H1. exists r, u. split; [reflexivity|exact H].
  - exists None, (reset u). split; [reflexivity|]. destruct H as [H1 [H2 H3]]. unfold good. cbn [reset uData uCur].
    rewrite H1. split; [reflexivity|split; assumption].
Qed.
Lemma run_good : forall cs s u, good s u -> exists rs u', run u cs = Val (rs, u') /\ good s u'.
Proof.
  induction cs as [|c cs IH]; intros s u H; cbn [run].
  - exists [], u. split; [reflexivity|exact H].
  - destruct (call_good s u c H) as [r [u1 [E H1]]]. rewrite E. cbn [obind].
    destruct (IH s u1 H1) as [rs [u2 [E2 H2]]]. rewrite E2. cbn [obind]. exists (r :: rs), u2.
    split; [reflexivity|exact H2].
Qed.
Lemma new_good : forall s, bytes_ok s -> good s (newUtf8Char s).
Proof. intros s H. unfold good, newUtf8Char. cbn [uData uCur]. auto. Qed.

Lemma run_app : forall a b u rs u1, run u a = Val (rs, u1) ->
  run u (a ++ b) = ('(xs, u2) <- run u1 b ;; Val (rs ++ xs, u2)).
Proof.
  induction a as [|c a IH]; intros b u rs u1 H; cbn [run app] in *.
  - injection H as <- <-. destruct (run u b) as [[xs u2]| | |]; reflexivity.
  - destruct (do_call u c) as [[x u']| | |]; cbn [obind] in *; try discriminate.
    destruct (run u' a) as [[xs u2]| | |] eqn:E; cbn [obind] in *; try discriminate.
    injection H as <- <-. rewrite (IH b u' xs u2 E).
    destruct (run u2 b) as [[ys u3]| | |]; reflexivity.
Qed.

Lemma peek_predicts : forall s hist mb, bytes_ok s ->
  exists rs u, run (newUtf8Char s) hist = Val (rs, u)
    /\ exists r u', peek u mb = Val r /\ next u mb = Val (r, u').
Proof.
  intros s hist mb H. destruct (run_good hist s _ (new_good s H)) as [rs [u [E Hg]]].
  exists rs, u. split; [exact E|]. destruct (next_good s u mb Hg) as [r [u' [H1 [H2 _]]]].
  exists r, u'. split; assumption.
Qed.

Lemma reset_restarts : forall s h1 h2, bytes_ok s ->
  exists rs1 rs2 u1 u2, run (newUtf8Char s) h1 = Val (rs1, u1) /\ run (newUtf8Char s) h2 = Val (rs2, u2)
    /\ run (newUtf8Char s) (h1 ++ CReset :: h2) = Val (rs1 ++ None :: rs2, u2).
Proof.
  intros s h1 h2 H. destruct (run_good h1 s _ (new_good s H)) as [rs1 [u1 [E1 Hg]]].
  destruct (run_good h2 s _ (new_good s H)) as [rs2 [u2 [E2 _]]].
  exists rs1, rs2, u1, u2. split; [exact E1|]. split; [exact E2|].
  rewrite (run_app _ _ _ _ _ E1). cbn [run do_call obind].
  replace (reset u1) with (newUtf8Char s).
  - rewrite E2. reflexivity.
  - destruct Hg as [Hd _]. unfold reset, newUtf8Char. rewrite Hd. reflexivity.
Qed.

(** successful next() calls of a history *)
Fixpoint served (cs : list call) (rs : list (option bytes)) : nat :=
  match cs, rs with
  | CNext _ :: cs', Some _ :: rs' => S (served cs' rs')
  | _ :: cs', _ :: rs' => served cs' rs'
  | _, _ => O
  end.
Definition resets (c : call) : bool := match c with CReset => true | _ => false end.
Lemma served_bound : forall cs s u rs u', good s u -> existsb resets cs = false -> run u cs = Val (rs, u') ->
  (served cs rs + List.length (uCur u') <= List.length (uCur u))%nat.
Proof.
  induction cs as [|c cs IH]; intros s u rs u' Hg Hr E; cbn [run] in E.
  - injection E as <- <-. cbn. lia.
  - cbn [existsb] in Hr. apply orb_false_iff in Hr. destruct Hr as [Hc Hr].
    destruct c as [mb|mb|]; [| |discriminate]; cbn [do_call] in E.
    + destruct (next_good s u mb Hg) as [r [u1 [H1 [_ [Hg1 [Hl [Hlt _]]]]]]]. rewrite H1 in E. cbn [obind] in E.
      destruct (run u1 cs) as [[xs u2]| | |] eqn:E2; cbn [obind] in E; try discriminate. injection E as <- <-.
      specialize (IH s u1 xs u2 Hg1 Hr E2). cbn [served]. destruct r as [r|]; [|lia].
      specialize (Hlt ltac:(discriminate)). lia.
    + destruct (next_good s u mb Hg) as [r [u1 [_ [H1 _]]]]. rewrite H1 in E. cbn [obind] in E.
      destruct (run u cs) as [[xs u2]| | |] eqn:E2; cbn [obind] in E; try discriminate. injection E as <- <-.
      specialize (IH s u xs u2 Hg Hr E2). cbn [served]. exact IH.
Qed.
Lemma served_total : forall s cs, bytes_ok s -> existsb resets cs = false ->
  exists rs u, run (newUtf8Char s) cs = Val (rs, u) /\ (served cs rs <= List.length s)%nat.
Proof.
  intros s cs H Hr. destruct (run_good cs s _ (new_good s H)) as [rs [u [E _]]].
  exists rs, u. split; [exact E|]. pose proof (served_bound cs s _ rs u (new_good s H) Hr E) as B.
  cbn [newUtf8Char uCur] in B. lia.
Qed.

Lemma stop_run : forall cs u, stop (uCur u) -> existsb resets cs = false ->
  exists rs, run u cs = Val (rs, u) /\ Forall (fun r => r = None) rs.
Proof.
  induction cs as [|c cs IH]; intros u Hs Hr; cbn [run].
  - exists []. split; [reflexivity|constructor].
  - cbn [existsb] in Hr. apply orb_false_iff in Hr. destruct Hr as [Hc Hr].
    assert (Hat : at_ (uCur u) = 0) by (destruct (uCur u); [reflexivity|exact Hs]).
    destruct (IH u Hs Hr) as [rs [E F]].
    destruct c as [mb|mb|]; [| |discriminate]; cbn [do_call].
    + unfold next. cbn [nextLoop]. rewrite Hat. change (0 =? 0) with true. cbn [obind]. rewrite E. cbn [obind].
      exists (None :: rs). split; [reflexivity|constructor; [reflexivity|exact F]].
    + unfold peek. cbn [peekLoop]. rewrite Hat. change (0 =? 0) with true. cbn [obind]. rewrite E. cbn [obind].
      exists (None :: rs). split; [reflexivity|constructor; [reflexivity|exact F]].
Qed.
Lemma end_is_final : forall s h1 mb h2 rs1 u1 u2, bytes_ok s ->
  run (newUtf8Char s) h1 = Val (rs1, u1) -> next u1 mb = Val (None, u2) -> existsb resets h2 = false ->
  exists rs2, run u2 h2 = Val (rs2, u2) /\ Forall (fun r => r = None) rs2.
Proof.
  intros s h1 mb h2 rs1 u1 u2 H E En Hr.
  destruct (run_good h1 s _ (new_good s H)) as [rs [u [E' Hg]]]. rewrite E in E'. injection E' as <- <-.
  destruct (next_good s u1 mb Hg) as [r [u' [H1 [_ [_ [_ [_ H6]]]]]]]. rewrite En in H1. injection H1 as <- <-.
  apply stop_run; [apply H6; reflexivity|exact Hr].
Qed.

(** ** Clean text *)
Lemma clean_items : forall cs, clean cs -> forall mb,
  count is_error (items (map Good cs)) = 0 /\ count is_combined (items (map Good cs)) = 0
  /\ count is_variant (items (map Good cs)) = count is_selector cs
  /\ concat (yields mb (items (map Good cs))) = text (if mb then filter (fun c => 0x80 <=? c) cs else cs).
Proof.
  intros cs H mb. induction H as [|c r Hc H IH|c r [Hc [Hs Hm]] H IH|c v r [Hc [Hs Hm]] Hv H IH]; cbn [map items].
  - rewrite !count_nil. destruct mb; repeat split; reflexivity.
  - destruct IH as [I1 [I2 [I3 I4]]]. replace (c <? 128) with true by lia.
    rewrite !count_cons, I1, I2, I3. cbn [is_error is_combined is_variant].
    replace (is_selector c) with false by (unfold is_selector; lia). rewrite !N.add_0_l.
    split; [reflexivity|]. split; [reflexivity|]. split; [reflexivity|].
    unfold yields in *. cbn [flat_map shown]. destruct mb.
    + cbn [app filter]. replace (128 <=? c) with false by lia. exact I4.
    + cbn [app concat]. rewrite I4, text_cons. unfold enc. replace (c <? 128) with true by lia. reflexivity.
  - destruct IH as [I1 [I2 [I3 I4]]].
    assert (E : (match map Good r with
      | Good d :: r' =>
          if is_selector d then WithSelector c d :: items r'
          else if is_mark d then match folded c d with Some x => Folded c d x | None => DroppedMark c d end :: items r'
          else Plain c :: items (map Good r)
      | _ => Plain c :: items (map Good r) end) = Plain c :: items (map Good r)).
    { inversion H as [E|d q Hd Hq E|d q [Hd [Hds Hdm]] Hq E|d w q [Hd [Hds Hdm]] Hw Hq E]; subst; cbn [map].
      - reflexivity.
      - replace (is_selector d) with false by (unfold is_selector; lia).
        replace (is_mark d) with false by (unfold is_mark; lia). reflexivity.
      - rewrite Hds, Hdm. reflexivity.
      - rewrite Hds, Hdm. reflexivity. }
    replace (c <? 128) with false by lia. rewrite Hs, Hm. cbn [orb]. rewrite E.
    rewrite !count_cons, I1, I2, I3. cbn [is_error is_combined is_variant]. rewrite Hs, !N.add_0_l.
    split; [reflexivity|]. split; [reflexivity|]. split; [reflexivity|].
    unfold yields in *. cbn [flat_map shown app concat]. rewrite I4. destruct mb.
    + cbn [filter]. replace (128 <=? c) with true by lia. rewrite text_cons. reflexivity.
    + rewrite text_cons. reflexivity.
  - destruct IH as [I1 [I2 [I3 I4]]]. replace (c <? 128) with false by lia. rewrite Hs, Hm. cbn [orb]. rewrite Hv.
    rewrite !count_cons, I1, I2, I3. cbn [is_error is_combined is_variant]. rewrite Hs, Hv, !N.add_0_l.
    split; [reflexivity|]. split; [reflexivity|]. split; [reflexivity|].
    unfold yields in *. cbn [flat_map shown app concat]. rewrite I4. destruct mb.
    + cbn [filter]. replace (128 <=? c) with true by lia.
      replace (128 <=? v) with true by (unfold is_selector in Hv; lia). rewrite !text_cons, <- app_assoc. reflexivity.
    + rewrite !text_cons, <- app_assoc. reflexivity.
Qed.

(** ** size() *)
Definition counted (mb : bool) (c : N) : bool :=
  negb (is_selector c || is_mark c) && (negb mb || (0x80 <=? c)).
Lemma yields_count : forall n cs mb, (List.length cs <= n)%nat -> Forall scalar cs ->
  len (yields mb (items (map Good cs))) = count (counted mb) cs.
Proof.
  induction n as [|n IH]; intros cs mb Hl Hs.
  - destruct cs; [reflexivity|cbn in Hl; lia].
  - destruct cs as [|c r]; [reflexivity|]. apply Forall_cons_iff in Hs. destruct Hs as [Hc Hs].
    cbn [List.length] in Hl. cbn [map items]. rewrite count_cons.
    pose proof (IH r mb ltac:(lia) Hs) as Ir.
    unfold counted at 1.
    destruct (c <? 128) eqn:E1.
    { replace (is_selector c) with false by (unfold is_selector; lia).
      replace (is_mark c) with false by (unfold is_mark; lia).
      replace (128 <=? c) with false by lia. unfold yields in *. cbn [flat_map shown orb negb andb].
      destruct mb; cbn [orb negb app]; [rewrite N.add_0_l; exact Ir|]. rewrite len_cons, Ir. reflexivity. }
    replace (128 <=? c) with true by lia. rewrite orb_true_r, andb_true_r.
    destruct (is_selector c || is_mark c) eqn:E2; cbn [negb].
    { unfold yields in *. cbn [flat_map shown app]. rewrite N.add_0_l. exact Ir. }
    assert (Hplain : len (yields mb (Plain c :: items (map Good r))) = 1 + count (counted mb) r).
    { unfold yields in *. cbn [flat_map shown app]. rewrite len_cons, Ir. reflexivity. }
    destruct r as [|d r]; [exact Hplain|]. cbn [map]. cbn [map] in Hplain.
    cbn [List.length] in Hl. apply Forall_cons_iff in Hs. destruct Hs as [Hd Hs].
    pose proof (IH r mb ltac:(lia) Hs) as Ir2.
    assert (Hskip : forall i, (exists x, shown mb i = Some x) -> is_selector d || is_mark d = true ->
      len (yields mb (i :: items (map Good r))) = 1 + count (counted mb) (d :: r)).
    { intros i [x Hx] Hdd. rewrite count_cons. unfold counted at 1. rewrite Hdd. cbn [negb andb]. rewrite N.add_0_l.
      unfold yields in *. cbn [flat_map]. rewrite Hx. cbn [app]. rewrite len_cons, Ir2. reflexivity. }
    destruct (is_selector d) eqn:E3.
    { apply Hskip; [eexists; reflexivity|reflexivity]. }
    destruct (is_mark d) eqn:E4.
    { apply Hskip; [|reflexivity]. destruct (folded c d); eexists; reflexivity. }
    exact Hplain.
Qed.

(** bytes counted or skipped one at a time *)
Lemma lead_two : forall b, b < 256 ->
  (N.land b TwoBits =? TwoBits) = (192 <=? b) /\ (N.land b TwoBits =? Bit1) = ((128 <=? b) && (b <? 192)).
Proof.
  intros b H.
  pose proof (sweep 256 (fun b => Bool.eqb (N.land b TwoBits =? TwoBits) (192 <=? b)
    && Bool.eqb (N.land b TwoBits =? Bit1) ((128 <=? b) && (b <? 192))) eq_refl b H) as S.
  cbv beta in S. rewrite andb_true_iff in S. destruct S as [S1 S2].
  apply Bool.eqb_prop in S1. apply Bool.eqb_prop in S2. split; assumption.
Qed.
Lemma cont_skip : forall fuel b q mb n, 0x80 <= b <= 0xBF -> 
  sizeLoop (S fuel) (b :: q) mb n = sizeLoop fuel q mb n.
Proof.
  intros fuel b q mb n Hb. cbn [sizeLoop at_]. replace (b =? 0) with false by lia.
  unfold isCombiningMark, isVariationSelector. cbn [at_]. replace (b =? 227) with false by lia.
  replace (b =? 239) with false by lia. cbn [obind next_]. destruct (lead_two b ltac:(lia)) as [-> ->].
  replace (192 <=? b) with false by lia. replace (128 <=? b) with true by lia. replace (b <? 192) with true by lia.
  cbn [andb negb]. destruct mb; rewrite N.add_0_r; reflexivity.
Qed.
Lemma enc_tail : forall c, scalar c -> exists b t, enc c = b :: t /\ Forall (fun x => 0x80 <= x <= 0xBF) t
  /\ b < 256 /\ (c < 0x80 -> b = c /\ t = []) /\ (0x80 <= c -> 0xC0 <= b).
Proof.
  intros c Hs. unfold scalar in Hs. unfold enc.
  destruct (c <? 128) eqn:E1; [|destruct (c <? 2048) eqn:E2; [|destruct (c <? 65536) eqn:E3]];
    do 2 eexists; (split; [reflexivity|]); (split; [repeat constructor; lia|]); (split; [lia|]); split; try lia; intros; try lia.
  split; reflexivity.
Qed.
Lemma conts_skip : forall t fuel q mb n, Forall (fun x => 0x80 <= x <= 0xBF) t -> (List.length t < fuel)%nat ->
  sizeLoop fuel (t ++ q) mb n = sizeLoop (fuel - List.length t) q mb n.
Proof.
  induction t as [|b t IH]; intros fuel q mb n Ht Hf.
  - cbn [app List.length]. rewrite Nat.sub_0_r. reflexivity.
  - apply Forall_cons_iff in Ht. destruct Ht as [Hb Ht]. cbn [List.length] in Hf. destruct fuel as [|fuel]; [lia|].
    cbn [app]. rewrite cont_skip by exact Hb. rewrite IH by (try assumption; lia). reflexivity.
Qed.
Lemma sizeLoop_S : forall fuel i mb n, sizeLoop (S fuel) i mb n =
  if at_ i =? 0 then Val n
  else
    cm <- isCombiningMark i ;;
    vs <- (if cm : bool then Val true else isVariationSelector i) ;;
    if vs : bool then i' <- skip3 i ;; sizeLoop fuel i' mb n
    else
      i' <- next_ i ;;
      sizeLoop fuel i' mb (n + (if (if mb then N.land (at_ i) TwoBits =? TwoBits
                         else negb (N.land (at_ i) TwoBits =? Bit1)) then 1 else 0)).
Proof. reflexivity. Qed.
Lemma size_char : forall c q fuel mb n, scalar c -> c <> 0 -> (List.length (enc c) <= fuel)%nat ->
  exists fuel', (fuel - List.length (enc c) <= fuel')%nat
    /\ sizeLoop (S fuel) (enc c ++ q) mb n = sizeLoop (S fuel') q mb (n + (if counted mb c then 1 else 0)).
Proof.
  intros c q fuel mb n Hs H0 Hf. destruct (enc_tail c Hs) as [b [t [E [Ht [Hb [Hlo Hhi]]]]]].
  assert (Hb0 : b <> 0).
  { destruct (N.lt_ge_cases c 0x80) as [H|H]; [destruct (Hlo H); lia|specialize (Hhi H); lia]. }
  rewrite sizeLoop_S. replace (at_ (enc c ++ q)) with b by (rewrite E; reflexivity).
  replace (b =? 0) with false by lia. rewrite isCM_enc by exact Hs. cbn [obind]. rewrite isVS_enc by exact Hs.
  unfold counted.
  destruct (is_mark c) eqn:Em; cbn [obind].
  { rewrite skip3_enc by (right; exact Em). cbn [obind]. rewrite orb_true_r. cbn [negb andb]. rewrite N.add_0_r.
    destruct fuel as [|fuel]; [rewrite E in Hf; cbn in Hf; lia|]. exists fuel. split; [|reflexivity].
    rewrite E. cbn [List.length]. lia. }
  destruct (is_selector c) eqn:Es; cbn [obind].
  { rewrite skip3_enc by (left; exact Es). cbn [obind orb negb andb]. rewrite N.add_0_r.
    destruct fuel as [|fuel]; [rewrite E in Hf; cbn in Hf; lia|]. exists fuel. split; [|reflexivity].
    rewrite E. cbn [List.length]. lia. }
  cbn [orb negb andb]. rewrite E. cbn [app next_ obind]. rewrite E in Hf. cbn [List.length] in Hf.
  destruct (lead_two b Hb) as [-> ->].
  rewrite conts_skip by (try assumption; lia).
  exists (fuel - List.length t - 1)%nat. split; [cbn [List.length]; lia|].
  replace (S (fuel - List.length t - 1)) with (fuel - List.length t)%nat by lia.
  f_equal. f_equal.
  destruct (N.lt_ge_cases c 0x80) as [H|H].
  - destruct (Hlo H) as [-> _]. replace (192 <=? c) with false by lia. replace (128 <=? c) with false by lia.
    cbn [andb negb]. destruct mb; reflexivity.
  - specialize (Hhi H). replace (192 <=? b) with true by lia. replace (128 <=? c) with true by lia.
    replace (b <? 192) with false by lia. rewrite andb_false_r. cbn [negb]. destruct mb; reflexivity.
Qed.
Lemma size_loop : forall cs fuel mb n, chars cs -> (List.length (text cs) <= fuel)%nat ->
  sizeLoop (S fuel) (text cs) mb n = Val (n + count (counted mb) cs).
Proof.
  induction cs as [|c cs IH]; intros fuel mb n Hc Hf.
  - rewrite count_nil, N.add_0_r. reflexivity.
  - apply Forall_cons_iff in Hc. destruct Hc as [[Hs H0] Hc]. rewrite text_cons in *. rewrite app_length in Hf.
    destruct (size_char c (text cs) fuel mb n Hs H0 ltac:(lia)) as [fuel' [Hf' E]]. rewrite E.
    rewrite IH by (try assumption; lia). rewrite count_cons. f_equal. lia.
Qed.
Lemma size_counts : forall cs mb, chars cs ->
  u8size (text cs) mb = Val (len (yields mb (items (map Good cs)))).
Proof.
  intros cs mb H. unfold u8size. rewrite size_loop by (try assumption; lia). rewrite N.add_0_l.
  rewrite (yields_count (List.length cs)); [reflexivity|lia|apply chars_scalar; exact H].
Qed.

Lemma text_items : forall cs mb, chars cs ->
  exists u, allChars (text cs) mb = Val (yields mb (items (map Good cs)), u)
    /\ uErrors u = count is_error (items (map Good cs)) /\ uVariants u = count is_variant (items (map Good cs))
    /\ uMarks u = count is_combined (items (map Good cs)).
Proof.
  intros cs mb H. apply all_chars; [apply text_ok; exact H|].
  rewrite upto_nul_id by (apply text_no_nul; exact H). apply parse_text. apply chars_scalar. exact H.
Qed.

(** ** getFirst, noVariationSelector *)
Lemma get_first : forall s es, bytes_ok s -> parse (upto_nul s) es ->
  getFirst s = Val (hd [] (yields true (items es))).
Proof.
  intros s es Hok Hp. destruct (split_stop s) as [z [E Hz]].
  assert (Hzok : bytes_ok z). { rewrite E in Hok. apply bytes_ok_app in Hok. tauto. }
  unfold getFirst.
  destruct (next_spec es (upto_nul s) z (newUtf8Char s) true Hp (upto_nul_no_nul s) (upto_nul_ok s Hok) Hzok Hz E)
    as [r [u' [E' [_ S]]]].
  rewrite E'. cbn [obind].
  destruct S as [[-> [Hh _]]|[pre [i [es' [a' [t [Hit [Hh [Hs [-> _]]]]]]]]]].
  - rewrite yields_hidden by exact Hh. reflexivity.
  - rewrite Hit, yields_app, (yields_hidden _ _ Hh). unfold yields. cbn [flat_map app]. rewrite Hs. reflexivity.
Qed.

Lemma vs_total : forall s, exists b, isVariationSelector s = Val b.
Proof.
  intro s. unfold isVariationSelector. destruct (at_ s =? 239) eqn:E1; [|eexists; reflexivity].
  destruct s as [|x s]; [discriminate|]. cbn [next_ obind]. destruct (at_ s =? 184) eqn:E2; [|eexists; reflexivity].
  destruct s as [|y s]; [discriminate|]. cbn [next_ obind]. eexists. reflexivity.
Qed.
Lemma strip_selected : forall c v, scalar c -> 0x80 <= c -> is_selector v = true ->
  noVariationSelector (enc c ++ enc v) = Val (enc c).
Proof.
  intros c v Hs Hc Hv. unfold noVariationSelector, isCharWithVariationSelector.
  pose proof (enc_len_mb c Hc). pose proof (enc_len c).
  destruct (three_bytes v (or_introl Hv)) as [x [y [w E]]].
  assert (Hl : len (enc v) = 3) by (rewrite E; reflexivity).
  rewrite len_app. replace (3 + 2 <=? len (enc c) + len (enc v)) with true by lia.
  replace (len (enc c) + len (enc v) <=? 3 + 4) with true by lia. cbn [andb].
  assert (Hll : (List.length (enc c ++ enc v) - 3 = List.length (enc c))%nat).
  { rewrite app_length. unfold len in Hl. lia. }
  rewrite Hll. rewrite skipn_app, skipn_all2, Nat.sub_diag by lia. cbn [skipn app].
  rewrite <- (app_nil_r (enc v)) at 1. rewrite isVS_enc by (unfold is_selector in Hv; unfold scalar; lia).
  cbn [obind]. rewrite Hv. rewrite firstn_app, Nat.sub_diag, firstn_all. cbn [firstn]. rewrite app_nil_r. reflexivity.
Qed.
Lemma strip_single : forall c, noVariationSelector (enc c) = Val (enc c).
Proof.
  intro c. unfold noVariationSelector, isCharWithVariationSelector. pose proof (enc_len c).
  replace (3 + 2 <=? len (enc c)) with false by lia. reflexivity.
Qed.
(** what is left of a step without its selector *)
Definition base_of (i : item) : bytes :=
  match i with WithSelector c _ => enc c | Ascii c => [c] | Plain c | DroppedMark c _ => enc c
  | Folded _ _ d => enc d | Stray c => enc c | Malformed b => [b] end.
Definition sane (i : item) : Prop :=
  match i with WithSelector c v => scalar c /\ 0x80 <= c /\ is_selector v = true | _ => True end.
Lemma parse_scalars : forall s es, parse s es -> forall c, In (Good c) es -> scalar c.
Proof.
  intros s es H. induction H as [|c s es Hc H IH|b s es Hn H IH]; intros d Hd; [destruct Hd| |].
  - destruct Hd as [E|Hd]; [injection E as <-; exact Hc|exact (IH d Hd)].
  - destruct Hd as [E|Hd]; [discriminate|exact (IH d Hd)].
Qed.
Lemma items_sane : forall n es, (List.length es <= n)%nat -> (forall c, In (Good c) es -> scalar c) -> Forall sane (items es).
Proof.
  induction n as [|n IH]; intros es Hl Hs.
  - destruct es; [constructor|cbn in Hl; lia].
  - destruct es as [|[c|b] r]; [constructor| |]; cbn [List.length] in Hl; cbn [items].
    2:{ constructor; [exact I|]. apply IH; [lia|]. intros d Hd. apply Hs. right. exact Hd. }
    assert (Hr : Forall sane (items r)). { apply IH; [lia|]. intros d Hd. apply Hs. right. exact Hd. }
    destruct (c <? 128) eqn:E1; [constructor; [exact I|exact Hr]|].
    destruct (is_selector c || is_mark c); [constructor; [exact I|exact Hr]|].
    destruct r as [|[d|b] r]; [constructor; [exact I|exact Hr]| |constructor; [exact I|exact Hr]].
    cbn [List.length] in Hl.
    assert (Hr2 : Forall sane (items r)). { apply IH; [lia|]. intros e He. apply Hs. right. right. exact He. }
    destruct (is_selector d) eqn:E2.
    { constructor; [|exact Hr2]. cbn. split; [apply Hs; left; reflexivity|]. split; [lia|exact E2]. }
    destruct (is_mark d); [|constructor; [exact I|exact Hr]].
    constructor; [|exact Hr2]. destruct (folded c d); exact I.
Qed.
Lemma strip_shown : forall i mb t, sane i -> shown mb i = Some t -> noVariationSelector t = Val (base_of i).
Proof.
  intros i mb t Hs Ht. destruct i; cbn in Ht; cbn [base_of].
  - destruct mb; [discriminate|]. injection Ht as <-. unfold noVariationSelector, isCharWithVariationSelector. reflexivity.
  - injection Ht as <-. apply strip_single.
  - injection Ht as <-. destruct Hs as [H1 [H2 H3]]. apply strip_selected; assumption.
  - injection Ht as <-. apply strip_single.
  - injection Ht as <-. apply strip_single.
  - discriminate.
  - discriminate.
Qed.
Lemma strip_tokens : forall s es mb, parse s es ->
  forall i t, In i (items es) -> shown mb i = Some t -> noVariationSelector t = Val (base_of i).
Proof.
  intros s es mb H i t Hi Ht. apply (strip_shown i mb t); [|exact Ht].
  pose proof (items_sane (List.length es) es (le_n _) (parse_scalars s es H)) as F. rewrite Forall_forall in F. exact (F i Hi).
Qed.

(** for concrete texts *)
Ltac chars_tac :=
  unfold chars; repeat (apply Forall_cons; [split; [unfold scalar; lia|lia]|]); apply Forall_nil.
