(** Lemmas about counting characters. *)
From Verif Require Import BaseFacts Utf8Proofs Utf8Lemmas Utf8CharProofs Utf8CharLemmas BlockProofs MapProofs CountFile CountSpec.
From Coq Require Import Permutation.
Open Scope N_scope.
Arguments N.mul : simpl never. Arguments N.add : simpl never. Arguments N.sub : simpl never.

(** ** Counting in maps *)
Definition val (o : option N) : N := match o with Some n => n | None => 0 end.
Definition incs (l : list bytes) (m : smap N) : smap N := fold_left (fun m k => increment k m) l m.

Lemma increment_sorted : forall k m, msorted m -> msorted (increment k m).
Proof. intros. apply mupdate_sorted. assumption. Qed.
Lemma increment_val : forall k x m, msorted m ->
  val (mfind x (increment k m)) = val (mfind x m) + (if beq x k then 1 else 0).
Proof.
  intros k x m H. unfold increment. destruct (beq x k) eqn:E.
  - apply beq_eq in E. subst x. rewrite mupdate_same by exact H. destruct (mfind k m); cbn; lia.
  - apply beq_neq in E. rewrite mupdate_other by exact E. lia.
Qed.
Lemma occurs_cons : forall x k l, occurs x (k :: l) = (if beq x k then 1 else 0) + occurs x l.
Proof. intros. unfold occurs. apply count_cons. Qed.
Lemma occurs_app : forall x a b, occurs x (a ++ b) = occurs x a + occurs x b.
Proof. intros. unfold occurs. apply count_app. Qed.
Lemma incs_sorted : forall l m, msorted m -> msorted (incs l m).
Proof. induction l as [|k l IH]; intros m H; [exact H|]. apply IH, increment_sorted, H. Qed.
Lemma incs_val : forall l m x, msorted m -> val (mfind x (incs l m)) = val (mfind x m) + occurs x l.
Proof.
  induction l as [|k l IH]; intros m x H.
  - unfold occurs, count. cbn. lia.
  - cbn [incs fold_left]. change (fold_left _ l (increment k m)) with (incs l (increment k m)).
    rewrite IH by (apply increment_sorted; exact H). rewrite increment_val by exact H. rewrite occurs_cons. lia.
Qed.
Lemma mupdate_total : forall k m, map_total (increment k m) = map_total m + 1.
Proof.
  intros k m. unfold map_total, increment. induction m as [|[x v] m IH]; [reflexivity|].
  cbn [mupdate]. destruct (beq x k).
  - cbn [map total fold_right snd plus1]. lia.
  - destruct (blt k x); cbn [map total fold_right snd plus1] in *; unfold total in *; lia.
Qed.
Lemma incs_total : forall l m, map_total (incs l m) = map_total m + len l.
Proof.
  induction l as [|k l IH]; intro m; [rewrite len_nil; cbn [incs fold_left]; lia|].
  cbn [incs fold_left]. change (fold_left _ l (increment k m)) with (incs l (increment k m)).
  rewrite IH, mupdate_total, len_cons. lia.
Qed.
Lemma incs_keys : forall l m x, In x (keys (incs l m)) <-> In x l \/ In x (keys m).
Proof.
  induction l as [|k l IH]; intros m x; [cbn; tauto|].
  cbn [incs fold_left]. change (fold_left _ l (increment k m)) with (incs l (increment k m)).
  rewrite IH. unfold increment. rewrite mupdate_keys. cbn [In]. intuition.
Qed.
Lemma incs_positive : forall l m, Forall (fun e => snd e <> 0) m -> Forall (fun e => snd e <> 0) (incs l m).
Proof.
  induction l as [|k l IH]; intros m H; [exact H|]. apply IH. unfold increment.
  induction H as [|[x v] m Hv H IHm]; cbn [mupdate]; [repeat constructor; cbn; lia|].
  destruct (beq x k); [constructor; [cbn; lia|exact H]|].
  destruct (blt k x); constructor; try assumption; try (cbn; lia). constructor; assumption.
Qed.
Lemma incs_unique : forall l, len (incs l []) = len (nodup bytes_eq_dec l).
Proof.
  intro l. unfold len. f_equal.
  rewrite <- (map_length fst (incs l [])). apply Nat.le_antisymm.
  - apply NoDup_incl_length.
    + apply msorted_nodup, incs_sorted, msorted_nil.
    + intros x Hx. apply nodup_In. apply incs_keys in Hx. destruct Hx as [Hx|[]]. exact Hx.
  - apply NoDup_incl_length; [apply NoDup_nodup|].
    intros x Hx. apply nodup_In in Hx. apply (incs_keys l [] x). left. exact Hx.
Qed.

(** ** The same per tag *)
Definition tincs (l : list (bytes * bytes)) (m : smap (smap N)) : smap (smap N) :=
  fold_left (fun m e => incrementTag (fst e) (snd e) m) l m.
Definition tsorted (m : smap (smap N)) : Prop := msorted m /\ Forall (fun e => msorted (snd e)) m.
Definition tval (k g : bytes) (m : smap (smap N)) : N :=
  match mfind k m with Some t => val (mfind g t) | None => 0 end.
Definition ttot (k : bytes) (m : smap (smap N)) : N :=
  match mfind k m with Some t => map_total t | None => 0 end.
Lemma tsorted_find : forall m k t, tsorted m -> mfind k m = Some t -> msorted t.
Proof. intros m k t [_ H] Hf. rewrite Forall_forall in H. apply (H (k, t)). apply In_mfind. exact Hf. Qed.
Lemma incrementTag_sorted : forall k g m, tsorted m -> tsorted (incrementTag k g m).
Proof.
  intros k g m [H1 H2]. split; [apply mupdate_sorted; exact H1|]. clear H1. unfold incrementTag.
  induction H2 as [|[x t] m Ht H2 IH]; cbn [mupdate].
  - repeat constructor.
  - destruct (beq x k); [constructor; [cbn [snd] in *; apply increment_sorted; exact Ht|exact H2]|].
    destruct (blt k x).
    + constructor; [cbn; repeat constructor|]. constructor; assumption.
    + constructor; assumption.
Qed.
Lemma incrementTag_tval : forall k g m x y, tsorted m ->
  tval x y (incrementTag k g m) = tval x y m + (if beq x k && beq y g then 1 else 0).
Proof.
  intros k g m x y H. unfold tval, incrementTag. destruct (beq x k) eqn:E.
  - apply beq_eq in E. subst x. rewrite mupdate_same by apply H. cbn [andb].
    destruct (mfind k m) as [t|] eqn:F.
    + apply increment_val. eapply tsorted_find; eassumption.
    + rewrite increment_val by apply msorted_nil. reflexivity.
  - apply beq_neq in E. rewrite mupdate_other by exact E. cbn [andb]. lia.
Qed.
Lemma incrementTag_ttot : forall k g m x, tsorted m ->
  ttot x (incrementTag k g m) = ttot x m + (if beq x k then 1 else 0).
Proof.
  intros k g m x H. unfold ttot, incrementTag. destruct (beq x k) eqn:E.
  - apply beq_eq in E. subst x. rewrite mupdate_same by apply H. rewrite mupdate_total.
    destruct (mfind k m) as [t|]; reflexivity.
  - apply beq_neq in E. rewrite mupdate_other by exact E. lia.
Qed.
Lemma tincs_sorted : forall l m, tsorted m -> tsorted (tincs l m).
Proof. induction l as [|[k g] l IH]; intros m H; [exact H|]. apply IH, incrementTag_sorted, H. Qed.
Lemma tincs_tval : forall l m x y, tsorted m ->
  tval x y (tincs l m) = tval x y m + occurs x (map fst (filter (fun e => beq y (snd e)) l)).
Proof.
  induction l as [|[k g] l IH]; intros m x y H.
  - unfold occurs, count. cbn. lia.
  - cbn [tincs fold_left fst snd]. change (fold_left _ l (incrementTag k g m)) with (tincs l (incrementTag k g m)).
    rewrite IH by (apply incrementTag_sorted; exact H). rewrite incrementTag_tval by exact H.
    cbn [filter snd]. destruct (beq y g).
    + cbn [map fst]. rewrite occurs_cons, andb_true_r. lia.
    + rewrite andb_false_r. lia.
Qed.
Lemma tincs_ttot : forall l m x, tsorted m -> ttot x (tincs l m) = ttot x m + occurs x (map fst l).
Proof.
  induction l as [|[k g] l IH]; intros m x H.
  - unfold occurs, count. cbn. lia.
  - cbn [tincs fold_left fst snd]. change (fold_left _ l (incrementTag k g m)) with (tincs l (incrementTag k g m)).
    rewrite IH by (apply incrementTag_sorted; exact H). rewrite incrementTag_ttot by exact H.
    cbn [map fst]. rewrite occurs_cons. lia.
Qed.

(** ** What the iteration over characters yields *)
Lemma folded_scalar : forall c m d, folded c m = Some d -> scalar d /\ 0x80 <= d /\ is_selector d = false /\ is_mark d = false.
Proof.
  intros c m d H. unfold folded in H. destruct (supported c); [|discriminate]. unfold composition in H.
  assert (M : forall l P, mem c l = true -> forallb P l = true -> P c = true).
  { intros l P Hm Hf. unfold mem in Hm. apply existsb_exists in Hm. destruct Hm as [x [Hx E]]. apply N.eqb_eq in E. subst x.
    rewrite forallb_forall in Hf. apply Hf. exact Hx. }
  pose (ok := fun k c => (0x3000 <=? c + k) && (c + k <? 0x3099) || (0x309F <? c + k) && (c + k <? 0x3100)).
  assert (K : forall k, ok k c = true -> scalar (c + k) /\ 0x80 <= c + k /\ is_selector (c + k) = false /\ is_mark (c + k) = false).
  { intros k Hk. unfold ok in Hk. unfold scalar, is_selector, is_mark. lia. }
  destruct (m =? 0x3099).
  - destruct (mem c (plain_voiced ++ _)) eqn:E1; [injection H as <-; apply K; exact (M _ (ok 1) E1 eq_refl)|].
    destruct (mem c [0x3046; _]) eqn:E2; [injection H as <-; apply K; exact (M _ (ok 0x4E) E2 eq_refl)|].
    destruct (mem c [0x309D; _]) eqn:E3.
    { injection H as <-. assert (X : (c =? 0x309D) || (c =? 0x30FD) = true) by (revert E3; unfold mem; cbn [existsb]; rewrite orb_false_r; auto).
      unfold scalar, is_selector, is_mark. lia. }
    destruct (mem c [0x30EF; _; _; _]) eqn:E4; [injection H as <-; apply K; exact (M _ (ok 8) E4 eq_refl)|discriminate].
  - destruct (m =? 0x309A); [|discriminate]. destruct (mem c (plain_semi_voiced ++ _)) eqn:E1; [|discriminate].
    injection H as <-. apply K. exact (M _ (ok 2) E1 eq_refl).
Qed.
(** a value of the iteration: one multi-byte character, perhaps with a variation selector *)
Definition token_of (cs : list N) : Prop :=
  exists c, scalar c /\ 0x80 <= c /\ is_selector c = false /\ is_mark c = false
    /\ (cs = [c] \/ exists v, is_selector v = true /\ cs = [c; v]).
Lemma tokens_form : forall n es, (List.length es <= n)%nat -> (forall c, In (Good c) es -> scalar c) ->
  forall t, In t (yields true (items es)) -> exists cs, t = text cs /\ token_of cs.
Proof.
  induction n as [|n IH]; intros es Hl Hs t Ht.
  - destruct es; [destruct Ht|cbn in Hl; lia].
  - destruct es as [|[c|b] r]; [destruct Ht| |]; cbn [List.length] in Hl; cbn [items] in Ht.
    2:{ apply (IH r); [lia| |exact Ht]. intros d Hd. apply Hs. right. exact Hd. }
    assert (Hr : In t (yields true (items r)) -> exists cs, t = text cs /\ token_of cs).
    { apply IH; [lia|]. intros d Hd. apply Hs. right. exact Hd. }
    assert (Hc : scalar c) by (apply Hs; left; reflexivity).
    destruct (c <? 128) eqn:E1; [exact (Hr Ht)|].
    destruct (is_selector c || is_mark c) eqn:E0; [exact (Hr Ht)|]. apply orb_false_iff in E0. destruct E0 as [E0 E0'].
    assert (Hone : exists cs, enc c = text cs /\ token_of cs).
    { exists [c]. split; [unfold text; cbn [flat_map]; rewrite app_nil_r; reflexivity|].
      exists c. repeat split; auto; lia. }
    assert (Hp : In t (yields true (Plain c :: items r)) -> exists cs, t = text cs /\ token_of cs).
    { intros [<-|H]; [exact Hone|exact (Hr H)]. }
    destruct r as [|[d|b] r]; [exact (Hp Ht)| |exact (Hp Ht)].
    cbn [List.length] in Hl.
    assert (Hr2 : In t (yields true (items r)) -> exists cs, t = text cs /\ token_of cs).
    { apply IH; [lia|]. intros e He. apply Hs. right. right. exact He. }
    destruct (is_selector d) eqn:E2.
    { destruct Ht as [<-|Ht]; [|exact (Hr2 Ht)]. exists [c; d]. split; [unfold text; cbn [flat_map]; rewrite app_nil_r; reflexivity|].
      exists c. repeat split; auto; [lia|]. right. exists d. auto. }
    destruct (is_mark d); [|exact (Hp Ht)].
    destruct (folded c d) as [x|] eqn:F.
    + destruct Ht as [<-|Ht]; [|exact (Hr2 Ht)]. destruct (folded_scalar _ _ _ F) as (A & B & C & D).
      exists [x]. split; [unfold text; cbn [flat_map]; rewrite app_nil_r; reflexivity|]. exists x. auto 10.
    + destruct Ht as [<-|Ht]; [exact Hone|exact (Hr2 Ht)].
Qed.
Lemma token_chars : forall cs, token_of cs -> chars cs.
Proof.
  intros cs [c (H1 & H2 & H3 & H4 & [->|[v [Hv ->]]])]; unfold chars.
  - constructor; [split; [exact H1|lia]|constructor].
  - constructor; [split; [exact H1|lia]|]. constructor; [|constructor]. unfold is_selector in Hv. unfold scalar. lia.
Qed.
Lemma tokens_ok : forall s es, parse s es -> Forall bytes_ok (yields true (items es)).
Proof.
  intros s es H. apply Forall_forall. intros t Ht.
  destruct (tokens_form _ es (le_n _) (parse_scalars s es H) t Ht) as [cs [-> Hc]]. apply text_ok, token_chars, Hc.
Qed.

(** ** One call of add *)
Section Count.
  Variable find : option (list N -> list N).
  Variable p : bytes -> bool.
  Variable I : bytes -> list item.
  Hypothesis HI : reader I.
  Variable allow : bytes -> out bool.
  Hypothesis Hallow : forall t, bytes_ok t -> allow t = Val (p t).
  Notation ctext := (counted_text find).
  Notation toks := (counted find p I).

  Definition ttoks (t : bytes * option bytes) : list (bytes * bytes) :=
    match snd t with Some g => map (fun k => (k, g)) (toks t) | None => [] end.
  Definition events (f : item -> bool) (ts : list (bytes * option bytes)) : N :=
    total (map (fun t => count f (I (ctext (fst t)))) ts).
  Definition changed (t : bytes * option bytes) : bool := negb (beq (ctext (fst t)) (fst t)).

  (** [c'] is [c] after the texts [ts], [nf] files and [nd] directories *)
  Record Grown (c : Counter) (ts : list (bytes * option bytes)) (nf nd : N) (c' : Counter) : Prop := {
    g_map : cMap c' = incs (flat_map toks ts) (cMap c);
    g_tags : cTags c' = tincs (flat_map ttoks ts) (cTags c);
    g_files : cFiles c' = cFiles c + nf;
    g_dirs : cDirectories c' = cDirectories c + nd;
    g_errors : cErrors c' = cErrors c + events is_error ts;
    g_variants : cVariants c' = cVariants c + events is_variant ts;
    g_marks : cMarks c' = cMarks c + events is_combined ts;
    g_repl : cReplacements c' = cReplacements c + count changed ts
  }.

  Lemma total_app : forall a b, total (a ++ b) = total a + total b.
  Proof. induction a as [|x a IH]; intro b; [reflexivity|]. cbn [app total fold_right]. unfold total in *. rewrite IH. lia. Qed.
  Lemma events_app : forall f a b, events f (a ++ b) = events f a + events f b.
  Proof. intros. unfold events. rewrite map_app. apply total_app. Qed.
  Lemma incs_app : forall a b m, incs (a ++ b) m = incs b (incs a m).
  Proof. intros. apply fold_left_app. Qed.
  Lemma tincs_app : forall a b m, tincs (a ++ b) m = tincs b (tincs a m).
  Proof. intros. apply fold_left_app. Qed.

  Lemma grown_refl : forall c, Grown c [] 0 0 c.
  Proof. intro c. constructor; try reflexivity; unfold events, count; cbn; lia. Qed.
  Lemma grown_trans : forall c a n1 d1 c1 b n2 d2 c2, Grown c a n1 d1 c1 -> Grown c1 b n2 d2 c2 ->
    Grown c (a ++ b) (n1 + n2) (d1 + d2) c2.
  Proof.
    intros c a n1 d1 c1 b n2 d2 c2 H1 H2. destruct H1, H2. constructor.
    - rewrite g_map1, g_map0, flat_map_app', incs_app. reflexivity.
    - rewrite g_tags1, g_tags0, flat_map_app', tincs_app. reflexivity.
    - lia.
    - lia.
    - rewrite events_app. lia.
    - rewrite events_app. lia.
    - rewrite events_app. lia.
    - rewrite count_app. lia.
  Qed.
  Lemma grown_path : forall c nf nd, Grown c [] nf nd (addPath nf nd c).
  Proof. intros c nf nd. constructor; try reflexivity; unfold events, count; cbn; lia. Qed.

  (** the loop over the characters *)
  Definition addTokens (l : list bytes) (tag : option bytes) (c : Counter) : Counter :=
    fold_left (fun c k => addToken k tag c) l c.
  Lemma tokenLoop_collect : forall fuel u ts u' tag a c, collect fuel u true = Val (ts, u') -> Forall bytes_ok ts ->
    tokenLoop allow fuel u tag a c = Val (a + len (filter p ts), u', addTokens (filter p ts) tag c).
  Proof.
    induction fuel as [|fuel IH]; intros u ts u' tag a c H Ho; [discriminate|].
    cbn [collect tokenLoop] in *. destruct (next u true) as [[r u1]| | |]; try discriminate.
    cbn [obind] in *. destruct r as [k|].
    - destruct (collect fuel u1 true) as [[cs u2]| | |] eqn:E; try discriminate. cbn [obind] in H.
      inversion H; subst. inversion Ho as [|? ? Hk Hr]; subst. rewrite (Hallow k Hk). cbn [obind filter]. destruct (p k).
      + rewrite (IH _ _ _ tag (a + 1) (addToken k tag c) E Hr), len_cons. f_equal. f_equal. f_equal. lia.
      + rewrite (IH _ _ _ tag a c E Hr). reflexivity.
    - inversion H; subst. cbn [filter addTokens fold_left]. rewrite len_nil, N.add_0_r. reflexivity.
  Qed.
  Lemma addTokens_fields : forall l tag c,
    cMap (addTokens l tag c) = incs l (cMap c)
    /\ cTags (addTokens l tag c) = tincs (match tag with Some g => map (fun k => (k, g)) l | None => [] end) (cTags c)
    /\ cFiles (addTokens l tag c) = cFiles c /\ cDirectories (addTokens l tag c) = cDirectories c
    /\ cErrors (addTokens l tag c) = cErrors c /\ cVariants (addTokens l tag c) = cVariants c
    /\ cMarks (addTokens l tag c) = cMarks c /\ cReplacements (addTokens l tag c) = cReplacements c.
  Proof.
    induction l as [|k l IH]; intros tag c.
    - destruct tag; repeat split; reflexivity.
    - change (addTokens (k :: l) tag c) with (addTokens l tag (addToken k tag c)).
      destruct (IH tag (addToken k tag c)) as (A & B & R). rewrite A, B. destruct R as (-> & -> & -> & -> & -> & ->).
      destruct tag; repeat split; reflexivity.
  Qed.

  Lemma ctext_value : forall s, bytes_ok s -> exists n, bytes_ok n /\ ctext s = n
    /\ match find with
       | Some f => exists w, fromUtf8 s 0 = Val w /\ toUtf8 (f w) = Val n
       | None => n = s
       end.
  Proof.
    intros s H. unfold counted_text. destruct find as [f|].
    - destruct (decoder_total s 0 H) as [w [Hw _]].
      rewrite Hw. rewrite toUtf8_spec. exists (flat_map enc_or_repl (f w)). split; [|split; [reflexivity|eexists; split; [reflexivity|apply toUtf8_spec]]].
      unfold bytes_ok. apply Forall_flat_map. apply Forall_forall. intros c _.
      destruct (scalarb c) eqn:E.
      + apply scalarb_spec in E. rewrite enc_or_repl_scalar by exact E. apply enc_bytes. exact E.
      + rewrite enc_or_repl_not; [repeat constructor; lia|]. intro K. apply scalarb_spec in K. congruence.
    - exists s. auto.
  Qed.

  Lemma add_spec : forall s tag c, bytes_ok s -> exists c',
    add find allow s tag c = Val (len (toks (s, tag)), c') /\ Grown c [(s, tag)] 0 0 c'.
  Proof.
    intros s tag c H. destruct (ctext_value s H) as [n [Hn [Hc Hf]]].
    destruct (HI n Hn) as [es [Hp Hit]].
    destruct (all_chars n es true Hn Hp) as [u [Hall [He [Hv Hm]]]].
    unfold allChars in Hall.
    assert (K : forall c1 x, exists c', ('(a, u, c2) <- tokenLoop allow (S (List.length n)) (newUtf8Char n) tag x c1 ;; Val (a, addEvents u c2))
       = Val (x + len (toks (s, tag)), c')
       /\ cMap c' = incs (toks (s, tag)) (cMap c1)
       /\ cTags c' = tincs (ttoks (s, tag)) (cTags c1)
       /\ cFiles c' = cFiles c1 /\ cDirectories c' = cDirectories c1
       /\ cErrors c' = cErrors c1 + count is_error (I n) /\ cVariants c' = cVariants c1 + count is_variant (I n)
       /\ cMarks c' = cMarks c1 + count is_combined (I n) /\ cReplacements c' = cReplacements c1).
    { intros c1 x. rewrite (tokenLoop_collect _ _ _ _ tag x c1 Hall (tokens_ok _ _ Hp)). cbn [obind].
      unfold counted, ttoks. cbn [fst snd]. unfold counted. cbn [fst snd]. rewrite Hc, Hit.
      eexists. split; [reflexivity|]. unfold addEvents. cbn [cMap cTags cFiles cDirectories cErrors cVariants cMarks cReplacements].
      destruct (addTokens_fields (filter p (yields true (items es))) tag c1) as (A & B & C & D & E & F & G & R).
      rewrite A, B, C, D, E, F, G, R, He, Hv, Hm. repeat split; reflexivity. }
    assert (Hev : forall f, events f [(s, tag)] = count f (I n)).
    { intro f. unfold events. cbn [map total fold_right fst]. rewrite Hc. lia. }
    assert (Hch : count changed [(s, tag)] = if beq n s then 0 else 1).
    { unfold count, changed. cbn [filter fst]. rewrite Hc. destruct (beq n s); reflexivity. }
    unfold add. destruct find as [f|] eqn:Ef.
    - destruct Hf as [w [Hw Ht]]. rewrite Hw. cbn [obind]. rewrite Ht. cbn [obind].
      destruct (beq n s) eqn:E.
      + destruct (K c 0) as [c' (A & B & C & D & F & G & J & L & M)]. exists c'. rewrite <- Ef in B. split; [exact A|].
        constructor; cbn [flat_map]; rewrite ?app_nil_r, ?Hev, ?Hch; try assumption; lia.
      + destruct (K (addReplacement tag c) 0) as [c' (A & B & C & D & F & G & J & L & M)]. exists c'. rewrite <- Ef in B. split; [exact A|].
        cbn [addReplacement cMap cTags cFiles cDirectories cErrors cVariants cMarks cReplacements] in *.
        constructor; cbn [flat_map]; rewrite ?app_nil_r, ?Hev, ?Hch; try assumption; lia.
    - cbn [obind]. subst n. destruct (K c 0) as [c' (A & B & C & D & F & G & J & L & M)]. exists c'. rewrite <- Ef in B. split; [exact A|].
      rewrite beq_refl in Hch.
      constructor; cbn [flat_map]; rewrite ?app_nil_r, ?Hev, ?Hch; try assumption; lia.
  Qed.

  (** ** Lines *)
  Lemma plain_spec : forall l tag a c, Forall bytes_ok l -> exists c',
    plainLoop (fun s => add find allow s tag) l a c
      = Val (a + len (flat_map toks (map (fun s => (s, tag)) l)), c')
    /\ Grown c (map (fun s => (s, tag)) l) 0 0 c'.
  Proof.
    induction l as [|s l IH]; intros tag a c H.
    - exists c. cbn [plainLoop map flat_map]. rewrite len_nil, N.add_0_r. split; [reflexivity|apply grown_refl].
    - inversion H as [|? ? H1 H2]; subst. cbn [plainLoop map flat_map].
      destruct (add_spec s tag c H1) as [c1 [E1 G1]]. rewrite E1. cbn [obind].
      destruct (IH tag (a + len (toks (s, tag))) c1 H2) as [c2 [E2 G2]]. exists c2. rewrite E2.
      split; [rewrite len_app; f_equal; f_equal; lia|].
      exact (grown_trans _ _ _ _ _ _ _ _ _ G1 G2).
  Qed.
  Lemma file_strings_ok : forall c, bytes_ok c -> Forall bytes_ok (file_strings find c).
  Proof.
    intros c H. unfold file_strings. destruct find; [rewrite searched_pieces; apply pieces_ok; exact H|apply getlines_ok; exact H].
  Qed.
  Lemma processFile_spec : forall contents tag c, bytes_ok contents -> exists c',
    processFile find allow contents tag c
      = Val (len (flat_map toks (map (fun s => (s, tag)) (file_strings find contents))), c')
    /\ Grown c (map (fun s => (s, tag)) (file_strings find contents)) 0 0 c'.
  Proof.
    intros contents tag c H. pose proof (file_strings_ok contents H) as Hok.
    destruct (plain_spec _ tag 0 c Hok) as [c' [E G]]. exists c'. split; [|exact G].
    unfold processFile. unfold file_strings in *. destruct find as [f|].
    - rewrite processFile_pieces. rewrite searched_pieces in *. exact E.
    - exact E.
  Qed.

  (** ** Trees *)
  Definition child (e : bytes * node) (addTag fileNames recurse : bool) (c : Counter) : out (N * Counter) :=
    match snd e with
    | Link _ => Val (0, c)
    | File _ => doAddFile find allow (snd e) (fst e) addTag fileNames recurse c
    | _ => if recurse then doAddFile find allow (snd e) (fst e) addTag fileNames true c else Val (0, c)
    end.
  Fixpoint children (es : list (bytes * node)) (addTag fileNames recurse : bool) (added : N) (c : Counter)
    : out (N * Counter) :=
    match es with
    | [] => Val (added, c)
    | e :: r => '(k, c') <- child e addTag fileNames recurse c ;; children r addTag fileNames recurse (added + k) c'
    end.
  Definition finish (name : bytes) (addTag fileNames : bool) (added : N) (c : Counter) : out (N * Counter) :=
    if fileNames then '(k, c') <- add find allow name (if addTag then Some name else None) c ;; Val (added + k, c')
    else Val (added, c).
  Lemma doAddFile_dir : forall es name addTag fileNames recurse c,
    doAddFile find allow (Dir es) name addTag fileNames recurse c =
    ('(added, c1) <- children es addTag fileNames recurse 0 (addPath 0 1 c) ;; finish name addTag fileNames added c1).
  Proof.
    intros es name addTag fileNames recurse c. cbn [doAddFile].
    match goal with |- obind (?f es 0 _) _ = _ => set (F := f) end.
    assert (E : forall es a c, F es a c = children es addTag fileNames recurse a c).
    { clear. induction es as [|[nm e] r IH]; intros a c; [reflexivity|].
      change (obind (child (nm, e) addTag fileNames recurse c) (fun x => let '(k, c') := x in F r (a + k) c')
        = obind (child (nm, e) addTag fileNames recurse c)
            (fun x => let '(k, c') := x in children r addTag fileNames recurse (a + k) c')).
      destruct (child (nm, e) addTag fileNames recurse c) as [[k c']| | |]; try reflexivity. apply IH. }
    rewrite E. reflexivity.
  Qed.

  Definition own (name : bytes) (addTag fileNames : bool) : list (bytes * option bytes) :=
    if fileNames then [(name, if addTag then Some name else None)] else [].
  Lemma finish_spec : forall name addTag fileNames a c, bytes_ok name -> exists c',
    finish name addTag fileNames a c = Val (a + len (flat_map toks (own name addTag fileNames)), c')
    /\ Grown c (own name addTag fileNames) 0 0 c'.
  Proof.
    intros name addTag fileNames a c H. unfold finish, own. destruct fileNames.
    - destruct (add_spec name (if addTag then Some name else None) c H) as [c' [E G]]. exists c'. rewrite E. cbn [obind flat_map].
      rewrite app_nil_r. split; [reflexivity|exact G].
    - exists c. cbn [flat_map]. rewrite len_nil, N.add_0_r. split; [reflexivity|apply grown_refl].
  Qed.

  Fixpoint node_size (n : node) : nat :=
    match n with
    | Dir es => S (fold_right (fun e k => node_size (snd e) + k)%nat O es)
    | Link (Some t) => S (node_size t)
    | _ => 1%nat
    end.
  Notation texts := (node_texts (file_strings find)).
  Definition entry_texts (addTag fileNames recurse : bool) (e : bytes * node) : list (bytes * option bytes) :=
    match snd e with
    | Dir _ => if recurse then texts (snd e) (fst e) addTag fileNames true else []
    | File _ => texts (snd e) (fst e) addTag fileNames recurse
    | _ => []
    end.
  Definition entry_files (recurse : bool) (e : bytes * node) : N :=
    match snd e with
    | Dir _ => if recurse then node_files (snd e) true else 0
    | File _ => 1
    | _ => 0
    end.
  Definition entry_dirs (recurse : bool) (e : bytes * node) : N :=
    match snd e with
    | Dir _ => if recurse then node_dirs (snd e) true else 0
    | _ => 0
    end.

  Definition node_good (n : node) : Prop := forall name addTag fileNames recurse c,
    bytes_ok name -> node_ok n -> exists c',
      doAddFile find allow n name addTag fileNames recurse c
        = Val (len (flat_map toks (texts n name addTag fileNames recurse)), c')
      /\ Grown c (texts n name addTag fileNames recurse) (node_files n recurse) (node_dirs n recurse) c'.

  Lemma node_spec : forall k n, (node_size n <= k)%nat -> node_good n.
  Proof.
    induction k as [|k IH]; intros n Hk; [destruct n as [| |[|]|]; cbn in Hk; lia|].
    intros name addTag fileNames recurse c Hname Hok. destruct n as [contents|es|t|].
    - change (doAddFile find allow (File contents) name addTag fileNames recurse c)
        with ('(added, c1) <- processFile find allow contents (if addTag then Some name else None) (addPath 1 0 c) ;;
              finish name addTag fileNames added c1).
      destruct (processFile_spec contents (if addTag then Some name else None) (addPath 1 0 c) Hok) as [c1 [E1 G1]].
      rewrite E1. cbn [obind].
      destruct (finish_spec name addTag fileNames (len (flat_map toks (map (fun s => (s, if addTag then Some name else None)) (file_strings find contents)))) c1 Hname) as [c2 [E2 G2]].
      exists c2. rewrite E2. cbn [node_texts node_files node_dirs]. fold (own name addTag fileNames).
      rewrite flat_map_app', len_app. split; [reflexivity|].
      exact (grown_trans _ _ _ _ _ _ _ _ _ (grown_path c 1 0) (grown_trans _ _ _ _ _ _ _ _ _ G1 G2)).
    - rewrite doAddFile_dir.
      assert (Hes : forall e, In e es -> (node_size (snd e) <= k)%nat /\ bytes_ok (fst e) /\ node_ok (snd e)).
      { cbn [node_size] in Hk. cbn [node_ok] in Hok. clear - Hk Hok.
        assert (Hk' : (fold_right (fun e k => node_size (snd e) + k) 0 es <= k)%nat) by lia. clear Hk.
        induction es as [|e es IHe]; intros x Hx; [destruct Hx|]. cbn [fold_right] in *.
        destruct Hx as [->|Hx]; [split; [lia|apply Hok]|]. apply IHe; [apply Hok|lia|exact Hx]. }
      assert (C : forall a c, exists c', children es addTag fileNames recurse a c
          = Val (a + len (flat_map toks (flat_map (entry_texts addTag fileNames recurse) es)), c')
        /\ Grown c (flat_map (entry_texts addTag fileNames recurse) es)
             (total (map (entry_files recurse) es)) (total (map (entry_dirs recurse) es)) c').
      { clear Hk Hok. induction es as [|e es IHe]; intros a c0.
        - exists c0. cbn [children flat_map]. rewrite len_nil, N.add_0_r. split; [reflexivity|apply grown_refl].
        - assert (K : exists c', child e addTag fileNames recurse c0 = Val (len (flat_map toks (entry_texts addTag fileNames recurse e)), c')
             /\ Grown c0 (entry_texts addTag fileNames recurse e) (entry_files recurse e) (entry_dirs recurse e) c').
          { destruct (Hes e (or_introl eq_refl)) as [Hs [Hn Ho]]. pose proof (IH (snd e) Hs) as Hg.
            unfold child, entry_texts, entry_files, entry_dirs. destruct (snd e) as [cc|ee|tt|] eqn:Es.
            - exact (Hg (fst e) addTag fileNames recurse c0 Hn Ho).
            - destruct recurse; [exact (Hg (fst e) addTag fileNames true c0 Hn Ho)|].
              exists c0. split; [reflexivity|apply grown_refl].
            - exists c0. split; [reflexivity|apply grown_refl].
            - exists c0. destruct recurse; (split; [reflexivity|apply grown_refl]). }
          destruct K as [c1 [E1 G1]]. cbn [children]. rewrite E1. cbn [obind].
          destruct (IHe (fun x Hx => Hes x (or_intror Hx)) (a + len (flat_map toks (entry_texts addTag fileNames recurse e))) c1) as [c2 [E2 G2]].
          exists c2. rewrite E2. cbn [flat_map map]. split; [rewrite flat_map_app', len_app; f_equal; f_equal; lia|].
          exact (grown_trans _ _ _ _ _ _ _ _ _ G1 G2). }
      destruct (C 0 (addPath 0 1 c)) as [c1 [E1 G1]]. rewrite E1. cbn [obind].
      destruct (finish_spec name addTag fileNames (0 + len (flat_map toks (flat_map (entry_texts addTag fileNames recurse) es))) c1 Hname) as [c2 [E2 G2]].
      exists c2. rewrite E2.
      change (texts (Dir es) name addTag fileNames recurse)
        with (flat_map (entry_texts addTag fileNames recurse) es ++ own name addTag fileNames).
      split; [rewrite flat_map_app', len_app; reflexivity|].
      pose proof (grown_trans _ _ _ _ _ _ _ _ _ (grown_path c 0 1) (grown_trans _ _ _ _ _ _ _ _ _ G1 G2)) as G.
      cbn [app] in G.
      change (node_files (Dir es) recurse) with (total (map (entry_files recurse) es)).
      change (node_dirs (Dir es) recurse) with (1 + total (map (entry_dirs recurse) es)).
      rewrite !N.add_0_r, N.add_0_l in G. exact G.
    - exists c. split; [reflexivity|apply grown_refl].
    - exists c. split; [reflexivity|apply grown_refl].
  Qed.

  Lemma resolve_ok : forall k n t, (node_size n <= k)%nat -> resolve n = Some t -> node_ok n -> node_ok t.
  Proof.
    induction k as [|k IH]; intros n t Hk H Ho; [destruct n as [| |[|]|]; cbn in Hk; lia|].
    destruct n as [c|es|[x|]|]; cbn in H; try (inversion H; subst; exact Ho); try discriminate.
    apply (IH x); [cbn in Hk; lia|exact H|exact Ho].
  Qed.

  (** ** Histories *)
  Notation rtexts := (request_texts (file_strings find)).
  Lemma serve_spec : forall r c, request_ok r -> 
    if exists_path r then exists c', serve find allow r c = Val (len (flat_map toks (rtexts r)), c')
      /\ Grown c (rtexts r) (visited node_files r) (visited node_dirs r) c'
    else serve find allow r c = Throw DomainError.
  Proof.
    intros [s tag|n name addTag fileNames recurse] c H; cbn [exists_path].
    - destruct (add_spec s tag c H) as [c' [E G]]. exists c'. cbn [serve request_texts flat_map]. rewrite app_nil_r.
      split; [exact E|exact G].
    - destruct H as [Hn Ho]. destruct n as [n|]; [|reflexivity]. cbn [serve addFile request_texts visited request_node].
      unfold visited. cbn [request_node].
      destruct (resolve n) as [t|] eqn:R; [|reflexivity]. cbn [option_map].
      pose proof (resolve_ok _ _ _ (Nat.le_refl _) R Ho) as Ht.
      exact (node_spec _ t (Nat.le_refl _) name addTag fileNames recurse c Hn Ht).
  Qed.
  Definition answer (r : request) : option N :=
    if exists_path r then Some (len (flat_map toks (rtexts r))) else None.
  Lemma missing_texts : forall r, exists_path r = false -> rtexts r = [] /\ visited node_files r = 0 /\ visited node_dirs r = 0.
  Proof.
    intros [s tag|[n|] name a b c] H; try discriminate; [|repeat split; reflexivity].
    cbn [exists_path] in H. unfold visited. cbn [request_texts request_node]. destruct (resolve n); [discriminate|].
    repeat split; reflexivity.
  Qed.
  Lemma serveAll_spec : forall rs c, Forall request_ok rs -> exists c',
    serveAll find allow rs c = Val (map answer rs, c')
    /\ Grown c (flat_map rtexts rs) (total (map (visited node_files) rs)) (total (map (visited node_dirs) rs)) c'.
  Proof.
    induction rs as [|r rs IH]; intros c H.
    - exists c. split; [reflexivity|apply grown_refl].
    - inversion H as [|? ? H1 H2]; subst. pose proof (serve_spec r c H1) as S1. cbn [serveAll map flat_map].
      unfold answer at 1. destruct (exists_path r) eqn:E.
      + destruct S1 as [c1 [E1 G1]]. rewrite E1. destruct (IH c1 H2) as [c2 [E2 G2]]. rewrite E2. cbn [obind].
        exists c2. split; [reflexivity|]. exact (grown_trans _ _ _ _ _ _ _ _ _ G1 G2).
      + rewrite S1. destruct (IH c H2) as [c2 [E2 G2]]. rewrite E2. cbn [obind].
        exists c2. split; [reflexivity|]. destruct (missing_texts r E) as [-> [-> ->]]. exact G2.
  Qed.

  (** ** What the final object shows *)
  Lemma ttoks_tag : forall ts g, map fst (filter (fun e => beq g (snd e)) (flat_map ttoks ts))
    = flat_map toks (filter (has_tag g) ts).
  Proof.
    induction ts as [|[s t] ts IH]; intro g; [reflexivity|].
    cbn [flat_map filter]. rewrite filter_app, map_app, IH. unfold ttoks at 1. cbn [snd].
    destruct t as [x|]; [|reflexivity]. change (has_tag g (s, Some x)) with (beq x g).
    rewrite (beq_sym x g). destruct (beq g x) eqn:E.
    - cbn [flat_map]. f_equal. clear - E. induction (toks (s, Some x)) as [|k l IHl]; [reflexivity|].
      cbn [map filter snd]. rewrite E. cbn [map fst]. rewrite IHl. reflexivity.
    - replace (map fst (filter _ (map (fun k => (k, x)) (toks (s, Some x))))) with (@nil bytes); [reflexivity|].
      clear - E. induction (toks (s, Some x)) as [|k l IHl]; [reflexivity|]. cbn [map filter snd]. rewrite E. exact IHl.
  Qed.
  Lemma ttoks_tagged : forall ts, map fst (flat_map ttoks ts) = flat_map toks (filter tagged ts).
  Proof.
    induction ts as [|[s t] ts IH]; [reflexivity|]. cbn [flat_map filter]. rewrite map_app, IH.
    unfold ttoks at 1. cbn [snd]. destruct t as [x|]; [|reflexivity]. change (tagged (s, Some x)) with true. cbv iota.
    cbn [flat_map]. f_equal. rewrite map_map. cbn [fst]. apply map_id.
  Qed.
  Lemma tsorted_nil : tsorted []. Proof. split; constructor. Qed.
  Lemma grown_counts : forall ts nf nd c, Grown newCounter ts nf nd c ->
    (forall k, countOf k c = occurs k (flat_map toks ts))
    /\ (forall k g, match tagsOf k c with Some m => match mfind g m with Some n => n | None => 0 end | None => 0 end
                    = occurs k (flat_map toks (filter (has_tag g) ts)))
    /\ (forall k, match tagsOf k c with Some m => map_total m | None => 0 end
                  = occurs k (flat_map toks (filter tagged ts)))
    /\ map_total (cMap c) = len (flat_map toks ts)
    /\ uniqueEntries c = len (nodup bytes_eq_dec (flat_map toks ts)).
  Proof.
    intros ts nf nd c G. destruct G. cbn [newCounter cMap cTags] in *.
    split; [|split; [|split; [|split]]].
    - intro k. unfold countOf. rewrite g_map0. pose proof (incs_val (flat_map toks ts) [] k msorted_nil) as K.
      unfold val in K at 1. rewrite K. reflexivity.
    - intros k g. unfold tagsOf. rewrite g_tags0. pose proof (tincs_tval (flat_map ttoks ts) [] k g tsorted_nil) as K.
      rewrite ttoks_tag in K. exact K.
    - intro k. unfold tagsOf. rewrite g_tags0. pose proof (tincs_ttot (flat_map ttoks ts) [] k tsorted_nil) as K.
      rewrite ttoks_tagged in K. exact K.
    - rewrite g_map0, incs_total. reflexivity.
    - unfold uniqueEntries. rewrite g_map0. apply incs_unique.
  Qed.
End Count.

(** ** A reading function exists *)
Definition first_char (s : bytes) : option N :=
  match List.find (fun k => match decode (firstn k s) with [c] => scalarb c && beq (enc c) (firstn k s) | _ => false end)
          [1; 2; 3; 4]%nat with
  | Some k => Some (hd 0 (decode (firstn k s)))
  | None => None
  end.
Fixpoint parseN (fuel : nat) (s : bytes) : list element :=
  match fuel, s with
  | S fuel', b :: r =>
      match first_char s with
      | Some c => Good c :: parseN fuel' (skipn (List.length (enc c)) s)
      | None => Bad b :: parseN fuel' r
      end
  | _, _ => []
  end.
Definition read (s : bytes) : list item := items (parseN (List.length (upto_nul s)) (upto_nul s)).

Lemma first_char_some : forall s c, first_char s = Some c -> scalar c /\ exists r, s = enc c ++ r.
Proof.
  intros s c H. unfold first_char in H. destruct (List.find _ _) as [k|] eqn:E; [|discriminate].
  apply find_some in E. destruct E as [_ E]. destruct (decode (firstn k s)) as [|x [|]] eqn:D; try discriminate.
  inversion H; subst x. apply andb_true_iff in E. destruct E as [E1 E2]. apply scalarb_spec in E1. apply beq_eq in E2.
  split; [exact E1|]. exists (skipn k s). rewrite E2, firstn_skipn. reflexivity.
Qed.
Lemma first_char_none : forall s, first_char s = None -> ~ (exists c r, scalar c /\ s = enc c ++ r).
Proof.
  intros s H [c [r [Hc Es]]]. unfold first_char in H. destruct (List.find _ _) as [k|] eqn:E; [discriminate|].
  assert (Hl : In (List.length (enc c)) [1; 2; 3; 4]%nat).
  { unfold enc. destruct (c <? 0x80); [left; reflexivity|]. destruct (c <? 0x800); [right; left; reflexivity|].
    destruct (c <? 0x10000); [right; right; left; reflexivity|right; right; right; left; reflexivity]. }
  pose proof (find_none _ _ E _ Hl) as K. cbv beta in K.
  assert (Hf : firstn (List.length (enc c)) s = enc c).
  { rewrite Es, firstn_app, Nat.sub_diag, firstn_all. cbn [firstn]. apply app_nil_r. }
  rewrite Hf in K. pose proof (decode_enc c [] Hc) as D. rewrite app_nil_r, decode_nil in D. rewrite D in K.
  apply scalarb_spec in Hc. rewrite Hc, beq_refl in K. discriminate.
Qed.
Lemma parseN_parse : forall fuel s, (List.length s <= fuel)%nat -> parse s (parseN fuel s).
Proof.
  induction fuel as [|fuel IH]; intros s H.
  - destruct s; [constructor|cbn in H; lia].
  - destruct s as [|b r]; [constructor|]. cbn [parseN]. destruct (first_char (b :: r)) as [c|] eqn:E.
    + destruct (first_char_some _ _ E) as [Hc [q Hq]]. rewrite Hq. rewrite skipn_app, Nat.sub_diag, skipn_all. cbn [app skipn].
      constructor; [exact Hc|]. apply IH. apply (f_equal (@List.length N)) in Hq. rewrite app_length in Hq.
      destruct (enc_nonnil c) as [x [y Hx]]. rewrite Hx in Hq. cbn in *. lia.
    + constructor; [apply (first_char_none _ E)|]. apply IH. cbn in H. lia.
Qed.
Lemma read_reader : reader read.
Proof. intros s H. eexists. split; [|reflexivity]. apply parseN_parse. lia. Qed.

(** ** Whole files *)
Lemma enc_no_newline : forall c, scalar c -> c <> 10 -> ~ In 10 (enc c).
Proof.
  intros c Hc Hn Hin. destruct (c <? 0x80) eqn:E.
  - unfold enc in Hin. rewrite E in Hin. destruct Hin as [->|[]]. congruence.
  - apply N.ltb_ge in E. destruct (enc_tail c Hc) as [b [t [Eb [Ht Hb]]]]. rewrite Eb in Hin.
    destruct Hin as [Hin|Hin].
    + subst b. unfold enc in Eb. replace (c <? 128) with false in Eb by lia.
      destruct (c <? 2048); [inversion Eb; lia|]. destruct (c <? 65536); inversion Eb; lia.
    + rewrite Forall_forall in Ht. specialize (Ht 10 Hin). lia.
Qed.
Lemma parse_line : forall a es, parse a es -> ~ In 10 a -> forall b es', parse b es' ->
  parse (a ++ 10 :: b) (es ++ Good 10 :: es').
Proof.
  intros a es H. induction H as [|c s es Hc H IH|x s es Hx H IH]; intros Hn b es' Hb.
  - cbn [app]. change (10 :: b) with (enc 10 ++ b). constructor; [left; lia|exact Hb].
  - rewrite <- app_assoc. cbn [app]. constructor; [exact Hc|]. apply IH; [|exact Hb].
    intro K. apply Hn, in_or_app. right. exact K.
  - cbn [app]. constructor; [|apply IH; [intro K; apply Hn; right; exact K|exact Hb]].
    intros [c [r [Hc E]]]. apply Hx. exists c.
    assert (Hlen : (List.length (enc c) <= List.length (x :: s))%nat).
    { destruct (Nat.le_gt_cases (List.length (enc c)) (List.length (x :: s))) as [L|L]; [exact L|]. exfalso.
      assert (K : nth_error (enc c) (List.length (x :: s)) = Some 10).
      { rewrite <- (nth_error_app1 (enc c) r) by exact L. rewrite <- E.
        change (x :: s ++ 10 :: b) with ((x :: s) ++ 10 :: b). rewrite nth_error_app2 by lia. rewrite Nat.sub_diag. reflexivity. }
      apply nth_error_In in K. destruct (N.eq_dec c 10) as [->|Hne].
      - change (enc 10) with [10] in E. cbn [app] in E. inversion E; subst. apply Hn. left. reflexivity.
      - exact (enc_no_newline c Hc Hne K). }
    exists (skipn (List.length (enc c)) (x :: s)). split; [exact Hc|].
    rewrite <- (firstn_skipn (List.length (enc c)) (x :: s)) at 1. f_equal.
    change (x :: s ++ 10 :: b) with ((x :: s) ++ 10 :: b) in E.
    apply (f_equal (firstn (List.length (enc c)))) in E.
    rewrite firstn_app in E. replace (List.length (enc c) - List.length (x :: s))%nat with 0%nat in E by lia.
    cbn [firstn] in E. rewrite app_nil_r in E. rewrite E, firstn_app, Nat.sub_diag, firstn_all. cbn [firstn]. apply app_nil_r.
Qed.
Lemma items_line : forall n es es', (List.length es <= n)%nat -> items (es ++ Good 10 :: es') = items es ++ Utf8CharSpec.Ascii 10 :: items es'.
Proof.
  induction n as [|n IH]; intros es es' H; [destruct es; [reflexivity|cbn in H; lia]|].
  destruct es as [|e es]; [reflexivity|]. cbn [List.length] in H. destruct e as [c|b].
  2:{ cbn [app items]. rewrite IH by lia. reflexivity. }
  cbn [app items]. destruct (c <? 0x80); [rewrite IH by lia; reflexivity|].
  destruct (is_selector c || is_mark c); [rewrite IH by lia; reflexivity|].
  destruct es as [|[d|b] es].
  - cbn [app]. change (is_selector 10) with false. change (is_mark 10) with false. cbv iota.
    change (Plain c :: items ([] ++ Good 10 :: es') = Plain c :: Utf8CharSpec.Ascii 10 :: items es'). rewrite IH by (cbn; lia). reflexivity.
  - cbn [app List.length] in *. destruct (is_selector d); [rewrite IH by lia; reflexivity|].
    destruct (is_mark d); [rewrite IH by lia; reflexivity|].
    change (Good d :: es ++ Good 10 :: es') with ((Good d :: es) ++ Good 10 :: es').
    rewrite IH by (cbn; lia). reflexivity.
  - cbn [app List.length] in *.
    change (Bad b :: es ++ Good 10 :: es') with ((Bad b :: es) ++ Good 10 :: es').
    rewrite IH by (cbn; lia). reflexivity.
Qed.
Lemma getlines_from_cons : forall s cur p, ~ In 10 cur ->
  exists l r, getlines_from 10 s cur p = match r with
     | None => if match l with [] => p | _ => true end then [cur ++ l] else []
     | Some q => (cur ++ l) :: getlines_from 10 q [] false
     end
   /\ s = l ++ match r with None => [] | Some q => 10 :: q end /\ ~ In 10 l.
Proof.
  induction s as [|b s IH]; intros cur p H; cbn [getlines_from].
  - exists [], None. rewrite app_nil_r. split; [reflexivity|]. split; [reflexivity|intros []].
  - destruct (b =? 10) eqn:E.
    + apply N.eqb_eq in E. subst b. exists [], (Some s). rewrite app_nil_r. split; [reflexivity|]. split; [reflexivity|intros []].
    + apply N.eqb_neq in E. destruct (IH (cur ++ [b]) true) as [l [r [A [B C]]]].
      { intro K. apply in_app_or in K. destruct K as [K|[K|[]]]; [exact (H K)|congruence]. }
      exists (b :: l), r. rewrite A, B. rewrite <- app_assoc. cbn [app]. split; [destruct l; reflexivity|]. split; [reflexivity|].
      intros [K|K]; [congruence|exact (C K)].
Qed.
Lemma yields_line : forall a b, ~ In 10 a -> bytes_ok a -> bytes_ok b -> no_nul (a ++ 10 :: b) -> forall I, reader I ->
  yields true (I (a ++ 10 :: b)) = yields true (I a) ++ yields true (I b).
Proof.
  intros a b Hn Ha Hb Hz I HI. apply no_nul_app in Hz. destruct Hz as [Za Zb]. 
  assert (Zb' : no_nul b) by (inversion Zb; assumption).
  destruct (HI a Ha) as [ea [Pa Ea]]. destruct (HI b Hb) as [eb [Pb Eb]].
  destruct (HI (a ++ 10 :: b)) as [ec [Pc Ec]].
  { apply bytes_ok_app. split; [exact Ha|]. constructor; [lia|exact Hb]. }
  rewrite upto_nul_id in Pa by exact Za. rewrite upto_nul_id in Pb by exact Zb'.
  rewrite upto_nul_id in Pc by (apply no_nul_app; auto).
  rewrite Ea, Eb, Ec.
  rewrite (parse_unique _ _ Pc _ (parse_line _ _ Pa Hn _ _ Pb)).
  rewrite (items_line _ ea eb (Nat.le_refl _)), yields_app. reflexivity.
Qed.
Lemma read_nil : forall I, reader I -> yields true (I []) = [].
Proof.
  intros I HI. destruct (HI [] ltac:(constructor)) as [es [P E]]. rewrite E.
  rewrite (parse_unique _ _ P [] parse_nil). reflexivity.
Qed.
Lemma lines_read : forall k s, (List.length s <= k)%nat -> bytes_ok s -> no_nul s -> forall I, reader I ->
  flat_map (fun l => yields true (I l)) (getlines 10 s) = yields true (I s).
Proof.
  induction k as [|k IH]; intros s Hk Hs Hz I HI.
  - destruct s; [|cbn in Hk; lia]. rewrite read_nil by exact HI. reflexivity.
  - unfold getlines. destruct (getlines_from_cons s [] false (@in_nil _ 10)) as [l [r [A [B C]]]]. rewrite A. cbn [app].
    destruct r as [q|].
    + rewrite B in *. apply bytes_ok_app in Hs. destruct Hs as [Hl Hq]. inversion Hq as [|? ? H10 Hq']; subst.
      cbn [flat_map]. rewrite yields_line by assumption. f_equal. apply IH; try assumption.
      * rewrite app_length in Hk. cbn in Hk. lia.
      * apply no_nul_app in Hz. destruct Hz as [_ Hz]. inversion Hz; assumption.
    + rewrite app_nil_r in B. subst l. destruct s as [|b s].
      * rewrite read_nil by exact HI. reflexivity.
      * cbn [flat_map]. apply app_nil_r.
Qed.
