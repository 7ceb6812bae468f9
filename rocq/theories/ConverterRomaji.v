(** Reading Romaji: the conversion to kana as one pass over the characters. *)
From Verif Require Import BaseFacts ConverterModel ConverterSpec Utf8Proofs BlockProofs KanaProofs
  Utf8CharProofs Utf8CharLemmas ConverterProofs.
Open Scope N_scope.
Arguments N.ltb : simpl never.
Arguments N.leb : simpl never.
Arguments N.eqb : simpl never.
Arguments N.add : simpl never.
Arguments N.sub : simpl never.

Section Machine.
Variables (target : CharType) (flags : ConvertFlags).

Lemma romaji_suffix : forall l, exists p, l = p ++ snd (processRomaji target flags l).
Proof.
  induction l as [|x l [p IH]].
  - exists []. reflexivity.
  - cbn [processRomaji]. destruct (mapFind RomajiMap (toLower (x :: l))).
    + exists (x :: l). cbn. rewrite app_nil_r. reflexivity.
    + destruct (len (x :: l) =? 3); [|exists []; reflexivity].
      destruct (processRomaji target flags l) as [r l']. cbn [snd] in *. exists (x :: p). rewrite IH at 1. reflexivity.
Qed.
Lemma romaji_len : forall l, (List.length (snd (processRomaji target flags l)) <= List.length l)%nat.
Proof. intro l. destruct (romaji_suffix l) as [p E]. rewrite E at 2. rewrite app_length. lia. Qed.

(** what is left at the end of a word *)
Lemma end_total : forall n l, (List.length l <= n)%nat -> exists x, forall f r, (List.length l <= f)%nat ->
  toKanaEnd target flags f r l = Val (r ++ x).
Proof.
  induction n as [|n IH]; intros l Hl.
  - destruct l; [|cbn in Hl; lia]. exists []. intros f r _. destruct f; cbn; rewrite app_nil_r; reflexivity.
  - destruct l as [|c l]; [exists []; intros f r _; destruct f; cbn; rewrite app_nil_r; reflexivity|].
    cbn [List.length] in Hl.
    destruct (isN (c :: l)) eqn:E.
    + exists (getN target flags). intros f r Hf. destruct f as [|f]; [cbn in Hf; lia|].
      cbn [toKanaEnd]. rewrite E. destruct f; reflexivity.
    + destruct (processRomaji target flags l) as [r0 l'] eqn:P.
      destruct (IH l') as [x Hx]. { pose proof (romaji_len l) as H. rewrite P in H. cbn in H. lia. }
      exists ([c] ++ r0 ++ x). intros f r Hf. destruct f as [|f]; [cbn in Hf; lia|]. cbn [List.length] in Hf.
      cbn [toKanaEnd]. rewrite E, P. rewrite Hx.
      2:{ pose proof (romaji_len l) as H. rewrite P in H. cbn in H. lia. }
      rewrite <- !app_assoc. reflexivity.
Qed.
Definition flush (l : bytes) : bytes :=
  match toKanaEnd target flags (List.length l) [] l with Val r => r | _ => [] end.
Lemma end_flush : forall r l, toKanaEnd target flags (List.length l) r l = Val (r ++ flush l).
Proof.
  intros r l. destruct (end_total (List.length l) l (le_n _)) as [x H]. unfold flush. rewrite !H by lia. reflexivity.
Qed.

(** one pass over all the characters, delimiters included *)
Definition is_delim (g : glyph) : bool := match g with G c => containsN narrowDelimList c | _ => false end.
Definition delim_bytes (g : glyph) : bytes :=
  match g with G c => match delimOut flags c with Val w => w | _ => [] end | _ => [] end.
Definition mstep (st : bytes * bytes) (u : glyph) : bytes * bytes :=
  if is_delim u then (fst st ++ flush (snd st) ++ delim_bytes u, []) else toKanaStep target flags st (gb u).
Definition run_m (us : list glyph) (st : bytes * bytes) : bytes * bytes := fold_left mstep us st.
Definition finish (st : bytes * bytes) : bytes := fst st ++ flush (snd st).
Definition pre (a : bytes) (st : bytes * bytes) : bytes * bytes := (a ++ fst st, snd st).

Lemma step_pre : forall a st u, toKanaStep target flags (pre a st) u = pre a (toKanaStep target flags st u).
Proof.
  intros a [r l] u. unfold toKanaStep, pre. cbn [fst snd].
  destruct (isSingleByte u true).
  - destruct (negb (isN u)).
    + destruct (processRomaji target flags (l ++ u)). cbn. rewrite app_assoc. reflexivity.
    + destruct l; [reflexivity|]. destruct (isN (n :: l)); cbn; rewrite <- !app_assoc; reflexivity.
  - destruct (processRomajiMacron target flags u l) as [[r' l']|].
    + cbn. rewrite app_assoc. reflexivity.
    + destruct (processRomaji target flags l). cbn. rewrite <- !app_assoc. reflexivity.
Qed.
Lemma mstep_pre : forall a st u, mstep (pre a st) u = pre a (mstep st u).
Proof.
  intros a st u. unfold mstep. destruct (is_delim u); [|apply step_pre]. unfold pre. cbn. rewrite <- !app_assoc. reflexivity.
Qed.
Lemma run_pre : forall us a st, run_m us (pre a st) = pre a (run_m us st).
Proof.
  induction us as [|u us IH]; intros a st; [reflexivity|]. cbn. rewrite mstep_pre. apply IH.
Qed.
Lemma finish_pre : forall a st, finish (pre a st) = a ++ finish st.
Proof. intros a [r l]. unfold finish, pre. cbn. rewrite <- app_assoc. reflexivity. Qed.
Lemma run_app : forall a b st, run_m (a ++ b) st = run_m b (run_m a st).
Proof. intros. apply fold_left_app. Qed.
Lemma run_from : forall us r l, run_m us (r, l) = pre r (run_m us ([], l)).
Proof. intros us r l. rewrite <- run_pre. unfold pre. cbn. rewrite app_nil_r. reflexivity. Qed.

Lemma delim_ascii : forall c, containsN narrowDelimList c = true -> c < 0x80.
Proof. intros c H. unfold containsN in H. apply existsb_exists in H. destruct H as [x [Hx E]].
  assert (A : forallb (fun c => c <? 0x80) narrowDelimList = true) by reflexivity. rewrite forallb_forall in A. specialize (A x Hx). lia. Qed.
Lemma delim_total : forall c, containsN narrowDelimList c = true -> exists w, delimOut flags c = Val w.
Proof.
  intros c H. unfold delimOut. destruct (negb (c =? Apostrophe)) eqn:E1; [|exists []; reflexivity].
  destruct (negb (c =? Dash)) eqn:E2; [|exists []; reflexivity]. cbn [andb].
  destruct (negb (hasFlag flags FlagRemoveSpaces) || negb (c =? 32)); [|exists []; reflexivity].
  unfold containsN in H. apply existsb_exists in H. destruct H as [x [Hx E]]. apply N.eqb_eq in E. subst x.
  assert (A : forallb (fun c => (c =? Apostrophe) || (c =? Dash) ||
    match narrowFind Delims c with Some _ => true | None => false end) narrowDelimList = true) by reflexivity.
  rewrite forallb_forall in A. specialize (A c Hx). rewrite negb_true_iff in E1, E2. rewrite E1, E2 in A. cbn [orb] in A.
  destruct (narrowFind Delims c) as [w|]; [exists w; reflexivity|discriminate].
Qed.
Lemma mb_tail : forall c, scalar c -> 0x80 <= c -> Forall (fun b => 0x80 <= b) (enc c).
Proof.
  intros c Hs Hc. unfold enc. replace (c <? 128) with false by lia.
  destruct (c <? 2048) eqn:E2; [repeat constructor; lia|].
  destruct (c <? 65536) eqn:E3; repeat constructor; lia.
Qed.
Lemma skip_high : forall b rest w, Forall (fun x => 0x80 <= x) b ->
  fromRomaji target flags (b ++ rest) w = fromRomaji target flags rest (w ++ b).
Proof.
  induction b as [|x b IH]; intros rest w H; [rewrite app_nil_r; reflexivity|]. inversion H; subst.
  cbn [app fromRomaji]. destruct (containsN narrowDelimList x) eqn:E; [apply delim_ascii in E; lia|].
  rewrite IH by assumption. rewrite <- app_assoc. reflexivity.
Qed.
Lemma skip_glyph : forall u rest w, glyph_ok u -> is_delim u = false ->
  fromRomaji target flags (gb u ++ rest) w = fromRomaji target flags rest (w ++ gb u).
Proof.
  intros [c|c v] rest w Hu Hd.
  - rewrite gb_G. destruct (N.lt_ge_cases c 0x80) as [H|H].
    + unfold enc. replace (c <? 128) with true by lia. cbn [app fromRomaji]. cbn [is_delim] in Hd. rewrite Hd. reflexivity.
    + apply skip_high. apply mb_tail; [apply Hu|exact H].
  - rewrite gb_GV. apply skip_high. destruct Hu as [H1 [[H2 _] H3]]. unfold is_selector in H3.
    apply Forall_app. split; apply mb_tail; try assumption; [unfold scalar; lia|lia].
Qed.
Lemma word_run : forall w st, Forall (fun u => is_delim u = false) w ->
  fold_left (toKanaStep target flags) (map gb w) st = run_m w st.
Proof.
  induction w as [|u w IH]; intros st H; [reflexivity|]. inversion H as [|? ? Hu Hw]; subst. cbn.
  unfold mstep at 2. rewrite Hu. apply IH. exact Hw.
Qed.
Lemma toKana_run : forall w, Forall glyph_ok w -> Forall (fun u => is_delim u = false) w ->
  toKana target flags (gtext w) = Val (finish (run_m w ([], []))).
Proof.
  intros w H1 H2. unfold toKana. destruct (tokens_of w H1) as [u E]. rewrite E. cbn.
  rewrite word_run by exact H2. destruct (run_m w ([], [])) as [r l]. rewrite end_flush. reflexivity.
Qed.
Lemma fromRomaji_run : forall us w, Forall glyph_ok us -> Forall glyph_ok w -> Forall (fun u => is_delim u = false) w ->
  fromRomaji target flags (gtext us) (gtext w) = Val (finish (run_m (w ++ us) ([], []))).
Proof.
  induction us as [|u us IH]; intros w Hus Hw Hd.
  - rewrite app_nil_r. change (gtext []) with (@nil N). cbn [fromRomaji]. apply toKana_run; assumption.
  - inversion Hus as [|? ? Hu Hus']; subst. rewrite gtext_cons. destruct (is_delim u) eqn:D.
    + destruct u as [c|]; [|discriminate]. cbn [is_delim] in D. pose proof (delim_ascii c D) as Hc.
      rewrite gb_G. unfold enc. replace (c <? 128) with true by lia. cbn [app fromRomaji]. rewrite D.
      rewrite toKana_run by assumption. destruct (delim_total c D) as [x Hx]. rewrite Hx.
      change (@nil N) with (gtext []) at 3. rewrite IH by (try assumption; constructor). cbn [app].
      assert (M : run_m (w ++ G c :: us) ([], [])
                  = pre (finish (run_m w ([], [])) ++ x) (run_m us ([], []))).
      { rewrite run_app. change (run_m (G c :: us) (run_m w ([], []))) with (run_m us (mstep (run_m w ([], [])) (G c))).
        unfold mstep at 1. cbn [is_delim delim_bytes]. rewrite D, Hx. rewrite run_from. f_equal.
        unfold finish. rewrite <- app_assoc. reflexivity. }
      rewrite M, finish_pre, <- app_assoc. reflexivity.
    + rewrite skip_glyph by assumption.
      replace (gtext w ++ gb u) with (gtext (w ++ [u])) by (rewrite gtext_app, gtext_cons; unfold gtext at 2; cbn [flat_map]; rewrite app_nil_r; reflexivity).
      rewrite IH; [rewrite <- app_assoc; reflexivity|assumption|apply Forall_app; split; [assumption|apply F1; assumption]|].
      apply Forall_app. split; [assumption|]. constructor; [exact D|constructor].
Qed.
Lemma romaji_to_kana : forall ltr us, target <> Romaji -> Forall glyph_ok us ->
  convertFrom target flags ltr Romaji (gtext us) = Val (finish (run_m us ([], []))).
Proof.
  intros ltr us Ht Hok. unfold convertFrom.
  replace (ctEqb Romaji target) with false by (destruct target; try reflexivity; congruence).
  change (@nil N) with (gtext []) at 1. apply (fromRomaji_run us []); try assumption; constructor.
Qed.

(** any bytes at all: the result is always a value *)
Lemma toKana_total : forall s, bytes_ok s -> exists r, toKana target flags s = Val r.
Proof.
  intros s Hs. unfold toKana. destruct (some_tokens s Hs) as [gs [u [_ E]]]. rewrite E. cbn.
  destruct (fold_left (toKanaStep target flags) (map gb gs) ([], [])) as [r l]. rewrite end_flush. eauto.
Qed.
Lemma fromRomaji_total : forall s w, bytes_ok s -> bytes_ok w -> exists r, fromRomaji target flags s w = Val r.
Proof.
  induction s as [|c s IH]; intros w Hs Hw; [apply toKana_total; exact Hw|].
  inversion Hs; subst. cbn [fromRomaji]. destruct (containsN narrowDelimList c) eqn:D.
  - destruct (toKana_total w Hw) as [a Ha]. destruct (delim_total c D) as [d Hd].
    destruct (IH [] ltac:(assumption) ltac:(constructor)) as [b Hb]. rewrite Ha, Hd, Hb. cbn. eauto.
  - apply IH; [assumption|]. apply bytes_ok_app. split; [exact Hw|]. constructor; [assumption|constructor].
Qed.
End Machine.
