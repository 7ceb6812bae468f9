(** Lemmas about the statistics. *)
From Verif Require Import BaseFacts Utf8Proofs Utf8Lemmas Utf8CharProofs Utf8CharLemmas BlockProofs BlockProps MapProofs CountProofs StatsSpec.
Open Scope N_scope.
Arguments N.mul : simpl never. Arguments N.add : simpl never. Arguments N.sub : simpl never.

(** ** std::set *)
Section Sets.
  Context {A : Type} (lt : A -> A -> bool).
  Lemma descend_spec : forall k t, let '(a, b) := descend lt k t in
    inorder t = a ++ b
    /\ (forall p, (exists a', a = a' ++ [p]) -> lt k p = false)
    /\ (forall s, (exists b', b = s :: b') -> lt k s = true).
  Proof.
    intros k t. induction t as [|l IHl x r IHr].
    - cbn. split; [reflexivity|]. split; intros y [z H]; [destruct z|]; discriminate.
    - cbn [descend inorder]. destruct (lt k x) eqn:E.
      + destruct (descend lt k l) as [a b]. destruct IHl as (H1 & H2 & H3). split; [rewrite H1, app_assoc; reflexivity|].
        split; [exact H2|]. intros s [b' H]. destruct b as [|y b]; cbn [app] in H; inversion H; subst; [exact E|].
        apply H3. eauto.
      + destruct (descend lt k r) as [a b]. destruct IHr as (H1 & H2 & H3). split; [rewrite H1, <- app_assoc; reflexivity|].
        split; [|exact H3]. intros p [a' H]. destruct a as [|y a] using rev_ind.
        * rewrite app_nil_end, <- app_assoc in H. apply app_inj_tail in H. destruct H as [_ H]. 
          change ([x] ++ []) with ([] ++ [x]) in *. subst. exact E.
        * change (inorder l ++ x :: a ++ [y]) with (inorder l ++ (x :: a) ++ [y]) in H. rewrite app_assoc in H.
          apply app_inj_tail in H. destruct H as [_ <-]. apply H2. eauto.
  Qed.
End Sets.

(** ** The order of counts *)
Section Order.
  Variable mf : N.
  Lemma frequency_rank : forall c, mf < 65535 -> frequency mf c = rank mf c.
  Proof.
    intros c H. unfold frequency, rank, frequencyOrDefault, u16. destruct (kEntry c); [reflexivity|].
    rewrite N.mod_small by lia. reflexivity.
  Qed.
  Hypothesis Hmf : mf < 65535.

  Lemma less_rank : forall a b, less mf a b =
    (kCount b <? kCount a)
    || (((kCount a =? kCount b) && (rank mf a <? rank mf b))
        || (((rank mf a =? rank mf b) && (type a <? type b)) || ((type a =? type b) && blt (kName a) (kName b)))).
  Proof. intros. unfold less. rewrite !frequency_rank by exact Hmf. reflexivity. Qed.
  (** values that come later in the order of names are never equivalent *)
  Lemma less_later : forall p k, blt (kName p) (kName k) = true -> less mf k p = false -> less mf p k = true.
  Proof.
    intros p k Hn. rewrite !less_rank. rewrite Hn. intro H.
    apply orb_false_iff in H. destruct H as [H1 H]. apply orb_false_iff in H. destruct H as [H2 H].
    apply orb_false_iff in H. destruct H as [H3 _].
    destruct (kCount k <? kCount p) eqn:E1; [reflexivity|]. cbn [orb].
    assert (Ec : kCount k = kCount p) by lia. rewrite Ec, N.eqb_refl in *. cbn [andb] in *.
    destruct (rank mf p <? rank mf k) eqn:E2; [reflexivity|]. cbn [orb].
    assert (Er : rank mf k = rank mf p) by lia. rewrite Er, N.eqb_refl in *. cbn [andb] in *.
    destruct (type p <? type k) eqn:E3; [reflexivity|]. cbn [orb].
    assert (Et : type k = type p) by lia. rewrite Et, N.eqb_refl. reflexivity.
  Qed.
  Lemma less_before : forall p k, blt (kName p) (kName k) = true -> (rank mf p = rank mf k -> type p = type k) ->
    if less mf k p then before mf k p else before mf p k.
  Proof.
    intros p k Hn Ht. rewrite less_rank, (blt_asym _ _ Hn), andb_false_r, orb_false_r. unfold before.
    destruct (kCount p <? kCount k) eqn:E1; [left; lia|]. cbn [orb].
    destruct (kCount k =? kCount p) eqn:E2; cbn [andb].
    - destruct (rank mf k <? rank mf p) eqn:E3; [right; split; [lia|left; lia]|]. cbn [orb].
      destruct (rank mf k =? rank mf p) eqn:E4; cbn [andb].
      + replace (type k <? type p) with false by (rewrite Ht by lia; lia).
        right. split; [lia|]. right. split; [lia|exact Hn].
      + right. split; [lia|]. left. lia.
    - cbn [orb]. destruct ((rank mf k =? rank mf p) && (type k <? type p)) eqn:E3; [|left; lia].
      apply andb_true_iff in E3. destruct E3 as [E3 E4]. rewrite Ht in E4 by lia. lia.
  Qed.
  Lemma before_trans : forall a b c, before mf a b -> before mf b c -> before mf a c.
  Proof.
    intros a b c. unfold before. intros H1 H2.
    destruct H1 as [H1|[H1 [H1'|[H1' H1'']]]], H2 as [H2|[H2 [H2'|[H2' H2'']]]]; try (left; lia).
    - right. split; [lia|]. left. lia.
    - right. split; [lia|]. left. lia.
    - right. split; [lia|]. left. lia.
    - right. split; [lia|]. right. split; [lia|]. eapply blt_trans; eassumption.
  Qed.
  Lemma before_irrefl : forall a, ~ before mf a a.
  Proof. intro a. unfold before. rewrite blt_irrefl. intros [H|[_ [H|[_ H]]]]; try lia; discriminate. Qed.

  Lemma sorted_snoc : forall (R : SCount -> SCount -> Prop) l x, StronglySorted R (l ++ [x]) ->
    StronglySorted R l /\ Forall (fun a => R a x) l.
  Proof.
    intros R l x. induction l as [|a l IH]; intro H; [split; constructor|].
    cbn [app] in H. inversion H as [|? ? H1 H2]; subst. destruct (IH H1) as [H3 H4].
    apply Forall_app in H2. destruct H2 as [H2 H2']. split; [constructor; assumption|].
    constructor; [inversion H2'; assumption|exact H4].
  Qed.
  Lemma insert_new : forall k t, Forall (fun p => blt (kName p) (kName k) = true) (inorder t) ->
    let '(a, b) := descend (less mf) k t in insertPos (less mf) k t = a ++ k :: b.
  Proof.
    intros k t H. pose proof (descend_spec (less mf) k t) as D. unfold insertPos.
    destruct (descend (less mf) k t) as [a b]. destruct D as (D1 & D2 & _).
    destruct a as [|p a] using rev_ind; [reflexivity|]. rewrite rev_app_distr. cbn [rev app].
    rewrite less_later; [reflexivity| |apply D2; eauto].
    rewrite Forall_forall in H. apply H. rewrite D1. apply in_app_iff. left. apply in_app_iff. right. left. reflexivity.
  Qed.
  (** nothing is lost *)
  Lemma built_perm : forall ks t, built (less mf) ks t -> ascending ks -> Permutation (inorder t) ks.
  Proof.
    intros ks t H. induction H as [|ks t k t' H IH E]; intro Ha; [constructor|].
    destruct (sorted_snoc _ _ _ Ha) as [Ha1 Ha2]. specialize (IH Ha1).
    pose proof (insert_new k t (Permutation_Forall (Permutation_sym IH) Ha2)) as I.
    pose proof (descend_spec (less mf) k t) as D. destruct (descend (less mf) k t) as [a b].
    destruct D as (D1 & _ & _). rewrite E, I. rewrite D1 in IH.
    etransitivity; [symmetry; apply Permutation_middle|]. etransitivity; [|apply Permutation_cons_append].
    constructor. exact IH.
  Qed.
  Lemma sorted_middle : forall a k b, StronglySorted (before mf) (a ++ b) ->
    Forall (fun p => before mf p k) a -> Forall (before mf k) b -> StronglySorted (before mf) (a ++ k :: b).
  Proof.
    induction a as [|x a IH]; intros k b H Ha Hb; cbn [app] in *; [constructor; assumption|].
    inversion H as [|? ? H1 H2]; subst. inversion Ha as [|? ? Ha1 Ha2]; subst. apply Forall_app in H2. destruct H2 as [H2 H3].
    constructor; [apply IH; assumption|]. apply Forall_app. split; [exact H2|]. constructor; assumption.
  Qed.
  Lemma sorted_app_l : forall a b, StronglySorted (before mf) (a ++ b) -> StronglySorted (before mf) a.
  Proof.
    induction a as [|x a IH]; intros b H; [constructor|]. cbn [app] in H. inversion H as [|? ? H1 H2]; subst.
    constructor; [eapply IH; exact H1|]. apply Forall_app in H2. tauto.
  Qed.
  Lemma sorted_app_r : forall a b, StronglySorted (before mf) (a ++ b) -> StronglySorted (before mf) b.
  Proof. induction a as [|x a IH]; intros b H; [exact H|]. cbn [app] in H. inversion H. auto. Qed.
  Lemma built_sorted : forall ks t, built (less mf) ks t -> ascending ks -> one_type_per_rank mf ks ->
    StronglySorted (before mf) (inorder t).
  Proof.
    intros ks t H. induction H as [|ks t k t' H IH E]; intros Ha Ht; [constructor|].
    destruct (sorted_snoc _ _ _ Ha) as [Ha1 Ha2]. 
    assert (Ht1 : one_type_per_rank mf ks).
    { intros x y Hx Hy. apply Ht; apply in_app_iff; left; assumption. }
    specialize (IH Ha1 Ht1). pose proof (built_perm _ _ H Ha1) as P.
    pose proof (Permutation_Forall (Permutation_sym P) Ha2) as Hall.
    pose proof (insert_new k t Hall) as I. pose proof (descend_spec (less mf) k t) as D.
    destruct (descend (less mf) k t) as [a b]. destruct D as (D1 & D2 & D3). rewrite E, I. rewrite D1 in *.
    assert (K : forall p, In p (a ++ b) -> if less mf k p then before mf k p else before mf p k).
    { intros p Hp. apply less_before.
      - rewrite Forall_forall in Hall. exact (Hall p Hp).
      - apply Ht; apply in_app_iff; [left; apply (Permutation_in _ P); exact Hp|right; left; reflexivity]. }
    apply sorted_middle; [exact IH| |].
    - destruct a as [|p a _] using rev_ind; [constructor|].
      assert (Hp : before mf p k).
      { specialize (K p). rewrite (D2 p (ex_intro _ a eq_refl)) in K. apply K. rewrite !in_app_iff. left. right. left. reflexivity. }
      apply Forall_app. split; [|constructor; [exact Hp|constructor]].
      apply sorted_app_l in IH. destruct (sorted_snoc _ _ _ IH) as [_ F].
      eapply Forall_impl; [|exact F]. intros x Hx. exact (before_trans _ _ _ Hx Hp).
    - destruct b as [|s b]; [constructor|].
      assert (Hs : before mf k s).
      { specialize (K s). rewrite (D3 s (ex_intro _ b eq_refl)) in K. apply K. rewrite in_app_iff. right. left. reflexivity. }
      constructor; [exact Hs|]. apply sorted_app_r in IH. inversion IH as [|? ? _ F]; subst.
      eapply Forall_impl; [|exact F]. intros x Hx. exact (before_trans _ _ _ Hs Hx).
  Qed.
End Order.

(** ** Breakdown by type *)
Lemma fold_sum : forall (f : SCount -> N) l n, fold_left (fun n c => n + f c) l n = n + total (map f l).
Proof.
  intros f l. induction l as [|c l IH]; intro n; [cbn; lia|]. cbn [fold_left map total fold_right]. rewrite IH. unfold total. lia.
Qed.
Lemma typeTotal_sum : forall t l, typeTotal t l = total (map (fun c => if type c =? t then kCount c else 0) l).
Proof.
  intros t l. unfold typeTotal.
  assert (H : forall n, fold_left (fun n c => if type c =? t then n + kCount c else n) l n
    = n + total (map (fun c => if type c =? t then kCount c else 0) l)); [|rewrite H; lia].
  induction l as [|c l IH]; intro n; [cbn; lia|]. cbn [fold_left map total fold_right]. rewrite IH. unfold total.
  destruct (type c =? t); lia.
Qed.
Lemma typeUnique_sum : forall t l, typeUnique t l = count (fun c => type c =? t) l.
Proof.
  intros t l. unfold typeUnique.
  assert (H : forall n, fold_left (fun n c => if type c =? t then n + 1 else n) l n = n + count (fun c => type c =? t) l); [|rewrite H; lia].
  induction l as [|c l IH]; intro n; [unfold count, len; cbn; lia|]. cbn [fold_left]. rewrite IH, count_cons.
  destruct (type c =? t); lia.
Qed.
Lemma typeExamples_first : forall t l, typeExamples t l = firstn MaxExamples (filter (fun c => type c =? t) l).
Proof.
  intros t l. unfold typeExamples.
  assert (H : forall f, (List.length f <= MaxExamples)%nat ->
    fold_left (fun f c => if (type c =? t) && (List.length f <? MaxExamples)%nat then f ++ [c] else f) l f
    = f ++ firstn (MaxExamples - List.length f) (filter (fun c => type c =? t) l)).
  { induction l as [|c l IH]; intros f Hf; [cbn [fold_left filter]; rewrite firstn_nil, app_nil_r; reflexivity|].
    cbn [fold_left filter]. destruct (type c =? t); cbn [andb]; [|apply IH; exact Hf].
    destruct (List.length f <? MaxExamples)%nat eqn:E.
    - apply Nat.ltb_lt in E. rewrite IH by (rewrite app_length; cbn [List.length]; lia). rewrite app_length. cbn [List.length].
      replace (MaxExamples - List.length f)%nat with (S (MaxExamples - (List.length f + 1))) by lia.
      cbn [firstn]. rewrite <- app_assoc. reflexivity.
    - apply Nat.ltb_ge in E. rewrite IH by exact Hf. replace (MaxExamples - List.length f)%nat with 0%nat by lia. reflexivity. }
  rewrite H by (cbn [List.length]; lia). cbn [app List.length]. rewrite Nat.sub_0_r. reflexivity.
Qed.
Lemma types_partition : forall (f : SCount -> N) l ts, NoDup ts -> (forall c, In c l -> In (type c) ts) ->
  total (map (fun t => total (map (fun c => if type c =? t then f c else 0) l)) ts) = total (map f l).
Proof.
  intros f l ts Hn. induction l as [|c l IH]; intro H.
  - cbn [map total fold_right]. clear. induction ts as [|t ts IH]; [reflexivity|]. cbn [map total fold_right]. unfold total in IH. lia.
  - cbn [map total fold_right]. fold (total (map f l)). rewrite <- IH by (intros; apply H; right; assumption).
    assert (Hc : In (type c) ts) by (apply H; left; reflexivity). clear IH H.
    assert (K : forall us, NoDup us -> total (map (fun t => (if type c =? t then f c else 0)
        + total (map (fun c => if type c =? t then f c else 0) l)) us)
      = (if existsb (N.eqb (type c)) us then f c else 0) + total (map (fun t => total (map (fun c => if type c =? t then f c else 0) l)) us)).
    { induction us as [|u us IHu]; intro Hu; [reflexivity|]. inversion Hu as [|? ? U1 U2]; subst. cbn [map total fold_right existsb].
      unfold total in *. rewrite (IHu U2). destruct (type c =? u) eqn:E; cbn [orb]; [|lia].
      apply N.eqb_eq in E. replace (existsb (N.eqb (type c)) us) with false; [lia|].
      symmetry. apply not_true_iff_false. intro X. apply existsb_exists in X. destruct X as [y [Y1 Y2]].
      apply N.eqb_eq in Y2. subst y. apply U1. rewrite <- E. exact Y1. }
    specialize (K ts Hn). replace (existsb (N.eqb (type c)) ts) with true in K; [exact K|].
    symmetry. apply existsb_exists. exists (type c). split; [exact Hc|apply N.eqb_refl].
Qed.

(** ** The file with the highest count *)
Lemma highest_spec : forall tags : smap N, tags <> [] -> Forall (fun e => 0 < snd e) tags ->
  exists a n b, tags = a ++ (highestFile tags, n) :: b
    /\ Forall (fun e => snd e < n) a /\ Forall (fun e => snd e <= n) b.
Proof.
  intros tags Hne Hp.
  assert (H : forall l m, (exists a n b, m = a ++ (snd (fold_left (fun s (j : bytes * N) => if fst s <? snd j then (snd j, fst j) else s) m (0, [])), n) :: b
       /\ fst (fold_left (fun s (j : bytes * N) => if fst s <? snd j then (snd j, fst j) else s) m (0, [])) = n
       /\ Forall (fun e => snd e < n) a /\ Forall (fun e => snd e <= n) b) ->
     exists a n b, m ++ l = a ++ (highestFile (m ++ l), n) :: b /\ Forall (fun e => snd e < n) a /\ Forall (fun e => snd e <= n) b).
  { induction l as [|[k v] l IH]; intros m (a & n & b & E & En & Ha & Hb).
    - rewrite app_nil_r. exists a, n, b. split; [exact E|]. auto.
    - change (m ++ (k, v) :: l) with (m ++ [(k, v)] ++ l). rewrite app_assoc. apply IH. rewrite fold_left_app. cbn [fold_left fst snd].
      destruct (fst (fold_left (fun s (j : bytes * N) => if fst s <? snd j then (snd j, fst j) else s) m (0, [])) <? v) eqn:L.
      + exists m, v, []. cbn [fst snd]. split; [reflexivity|]. split; [reflexivity|]. split; [|constructor].
        rewrite E. apply Forall_app. split; [eapply Forall_impl; [|exact Ha]; cbn; intros; lia|].
        constructor; [cbn [snd]; lia|]. eapply Forall_impl; [|exact Hb]; cbn; intros; lia.
      + exists a, n, (b ++ [(k, v)]). split; [rewrite E at 1; rewrite <- app_assoc; reflexivity|]. split; [exact En|].
        split; [exact Ha|]. apply Forall_app. split; [exact Hb|]. constructor; [cbn [snd]; lia|constructor]. }
  destruct tags as [|[k v] l]; [congruence|]. inversion Hp as [|? ? H1 H2]; subst. cbn [snd] in H1.
  apply (H l [(k, v)]). cbn [fold_left fst snd]. replace (0 <? v) with true by lia. cbn [fst snd].
  exists [], v, []. repeat split; constructor.
Qed.

(** ** Rows *)
Lemma range_total : forall s one ts, bytes_ok s -> exists b, inWCharRange s one ts = Val b.
Proof.
  intros s one ts H. unfold inWCharRange. destruct (1 <? len s); [|eauto]. destruct (negb one).
  - destruct (decoder_total s 1 H) as [w [-> _]]. cbn [obind]. eauto.
  - destruct (len s <=? MaxMBSize * 2); [|eauto]. destruct (decoder_total s 3 H) as [w [-> _]]. cbn [obind]. eauto.
Qed.
Lemma rows_total : forall ucd row t, In row (rows ucd) -> bytes_ok t -> snd row t = Val (takes row t).
Proof.
  intros ucd row t Hin Ht. unfold takes.
  assert (K : exists b, snd row t = Val b); [|destruct K as [b ->]; reflexivity].
  unfold rows in Hin.
  repeat (destruct Hin as [<-|Hin]; [cbn [snd]|]); [..|destruct Hin];
    unfold oand, isHiragana, isKatakana, isCommonKanji, isRareKanji, isKanji, isMBSymbol, isMBLetter, isRecognizedUtf8;
    try (apply range_total; exact Ht);
    try match goal with |- exists z, obind (inWCharRange ?s ?o ?ts) _ = _ =>
      destruct (range_total s o ts Ht) as [x ->]; cbn [obind]; eauto end.
  unfold isMBPunctuation. destruct (startsWith t wideSpace); [eauto|apply range_total; exact Ht].
Qed.
Lemma token_one : forall P cs c r, token_of cs -> cs = c :: r -> (one_of P cs <-> P c).
Proof.
  intros P cs c r [d (_ & _ & _ & _ & H)] E. split.
  - intros [x [Hx [E'|[y [_ E']]]]]; rewrite E in E'; inversion E'; subst; exact Hx.
  - intro Hc. exists c. split; [exact Hc|]. destruct H as [H|[v [Hv H]]]; rewrite E in H; inversion H; subst; [left; reflexivity|].
    right. exists v. split; [|reflexivity]. left. unfold is_selector in Hv. unfold variation_selector, within. lia.
Qed.
Lemma iff_val : forall (f : out bool) (P : Prop) b, f = Val b -> (b = true <-> P) -> (f = Val true <-> P).
Proof. intros f P b -> H. rewrite <- H. split; [intro E; inversion E; reflexivity|intros ->; reflexivity]. Qed.
Lemma rows_mean : forall ucd cs c r, token_of cs -> cs = c :: r ->
  forall j row, nth_error (rows ucd) j = Some row ->
    exists P, nth_error (row_content (ucd (text cs)) c) j = Some P /\ (snd row (text cs) = Val true <-> P).
Proof.
  intros ucd cs c r Ht E j row Hj. pose proof (token_chars _ Ht) as Hc.
  destruct C14_one_character_tests as (D1 & D2 & _ & D3 & D4 & D5 & D6 & D7 & D8).
  assert (K : forall f P, decides f (one_of P) -> f (text cs) = Val true <-> P c).
  { intros f P D. destruct (D cs Hc) as [b [Hb Hi]]. rewrite (token_one P cs c r Ht E) in Hi. exact (iff_val _ _ _ Hb Hi). }
  assert (KA : forall f P g, decides f (one_of P) -> (oand (f (text cs)) g = Val true <-> P c /\ g = true)).
  { intros f P g D. pose proof (K f P D) as KK. destruct (D cs Hc) as [b [Hb Hi]]. unfold oand. rewrite Hb in *. cbn [obind].
    rewrite <- KK. destruct b, g; cbn [andb]; intuition; discriminate. }
  destruct j as [|[|[|[|[|[|[|[|[|j]]]]]]]]]; [.. |destruct j; discriminate];
    cbn [nth_error rows] in Hj; inversion Hj; subst row; clear Hj; cbn [nth_error row_content];
    eexists; (split; [reflexivity|]); cbn [snd].
  - exact (K _ _ D1).
  - exact (K _ _ D2).
  - exact (KA _ _ _ D3).
  - exact (KA _ _ _ D4).
  - rewrite <- negb_true_iff. exact (KA _ _ _ D5).
  - destruct (test_punct cs false true Hc) as [b [Hb Hi]]. apply (iff_val _ _ _ Hb). rewrite Hi.
    rewrite (token_one punctuation cs c r Ht E). rewrite E. split.
    + intros [[H1 H2]|[H _]]; [|discriminate]. split; [exact H2|]. intros ->. apply H1. eauto.
    + intros [H1 H2]. left. split; [|exact H1]. intros [q Hq]. inversion Hq. congruence.
  - exact (K _ _ D6).
  - exact (K _ _ D7).
  - destruct (D8 cs Hc) as [b [Hb Hi]]. rewrite Hb. cbn [obind]. rewrite (token_one recognized cs c r Ht E) in Hi.
    rewrite <- Hi. destruct b; cbn [negb]; intuition; try discriminate.
Qed.
Lemma recognized_cases : forall c, recognized c \/ ~ recognized c.
Proof. intro c. unfold recognized, hiragana, katakana, common_kanji, rare_kanji, punctuation, symbol, letter, within. lia. Qed.
(** the contents of different rows exclude each other, and only the wide space is in none *)
Lemma content_one : forall u c, c <> 0x3000 -> exists i, (i < 9)%nat /\ forall j P, nth_error (row_content u c) j = Some P -> (P <-> j = i).
Proof.
  intros u c Hc.
  assert (G : forall i, (i < 9)%nat -> (forall j P, nth_error (row_content u c) j = Some P -> if (j =? i)%nat then P else ~ P) ->
    exists i, (i < 9)%nat /\ forall j P, nth_error (row_content u c) j = Some P -> (P <-> j = i)).
  { intros i Hi H. exists i. split; [exact Hi|]. intros j P Hj. specialize (H j P Hj).
    destruct (j =? i)%nat eqn:E; [apply Nat.eqb_eq in E; tauto|apply Nat.eqb_neq in E; tauto]. }
  assert (T : forall i, (i < 9)%nat ->
     (let l := row_content u c in
      (if (0 =? i)%nat then nth 0 l False else ~ nth 0 l False) /\ (if (1 =? i)%nat then nth 1 l False else ~ nth 1 l False)
      /\ (if (2 =? i)%nat then nth 2 l False else ~ nth 2 l False) /\ (if (3 =? i)%nat then nth 3 l False else ~ nth 3 l False)
      /\ (if (4 =? i)%nat then nth 4 l False else ~ nth 4 l False) /\ (if (5 =? i)%nat then nth 5 l False else ~ nth 5 l False)
      /\ (if (6 =? i)%nat then nth 6 l False else ~ nth 6 l False) /\ (if (7 =? i)%nat then nth 7 l False else ~ nth 7 l False)
      /\ (if (8 =? i)%nat then nth 8 l False else ~ nth 8 l False)) ->
     exists i, (i < 9)%nat /\ forall j P, nth_error (row_content u c) j = Some P -> (P <-> j = i)).
  { intros i Hi H. apply (G i Hi). intros j P Hj.
    cbv zeta in H. destruct H as (H0 & H1 & H2 & H3 & H4 & H5 & H6 & H7 & H8).
    pose proof (nth_error_nth _ _ False Hj) as En. rewrite <- En.
    assert (Hl : (j < 9)%nat). { apply (proj1 (nth_error_Some (row_content u c) j)). congruence. }
    destruct j as [|[|[|[|[|[|[|[|[|j]]]]]]]]]; try assumption. lia. }
  destruct (recognized_cases c) as [R|R].
  - pose proof (fun i j P Q => C15_categories_are_disjoint c i j P Q) as X.
    unfold recognized in R.
    destruct R as [R|[R|[R|[R|[R|[R|R]]]]]].
    all: unfold row_content, kanji, recognized in *.
    + apply (T 0%nat); [lia|]. cbn [nth Nat.eqb]. unfold hiragana, katakana, common_kanji, rare_kanji, punctuation, symbol, letter, within in *. lia.
    + apply (T 1%nat); [lia|]. cbn [nth Nat.eqb]. unfold hiragana, katakana, common_kanji, rare_kanji, punctuation, symbol, letter, within in *. lia.
    + destruct u.
      * apply (T 2%nat); [lia|]. cbn [nth Nat.eqb]. unfold hiragana, katakana, common_kanji, rare_kanji, punctuation, symbol, letter, within in *.
        repeat split; auto; try (intros [_ K]; discriminate); lia.
      * apply (T 4%nat); [lia|]. cbn [nth Nat.eqb]. unfold hiragana, katakana, common_kanji, rare_kanji, punctuation, symbol, letter, within in *.
        repeat split; auto; try (intros [_ K]; discriminate); lia.
    + destruct u.
      * apply (T 3%nat); [lia|]. cbn [nth Nat.eqb]. unfold hiragana, katakana, common_kanji, rare_kanji, punctuation, symbol, letter, within in *.
        repeat split; auto; try (intros [_ K]; discriminate); lia.
      * apply (T 4%nat); [lia|]. cbn [nth Nat.eqb]. unfold hiragana, katakana, common_kanji, rare_kanji, punctuation, symbol, letter, within in *.
        repeat split; auto; try (intros [_ K]; discriminate); lia.
    + apply (T 5%nat); [lia|]. cbn [nth Nat.eqb]. unfold hiragana, katakana, common_kanji, rare_kanji, punctuation, symbol, letter, within in *. lia.
    + apply (T 6%nat); [lia|]. cbn [nth Nat.eqb]. unfold hiragana, katakana, common_kanji, rare_kanji, punctuation, symbol, letter, within in *. lia.
    + apply (T 7%nat); [lia|]. cbn [nth Nat.eqb]. unfold hiragana, katakana, common_kanji, rare_kanji, punctuation, symbol, letter, within in *. lia.
  - apply (T 8%nat); [lia|]. cbn [nth Nat.eqb row_content]. unfold recognized in R. unfold kanji, recognized. tauto.
Qed.
Lemma wide_token : forall cs c r, token_of cs -> cs = c :: r -> is_wide_space (text cs) = (c =? 0x3000).
Proof.
  intros cs c r Ht E. unfold is_wide_space. change (enc 0x3000) with wideSpace.
  destruct (c =? 0x3000) eqn:Ec.
  - apply N.eqb_eq in Ec. apply wide_space_first; [exact (token_chars _ Ht)|]. subst. eauto.
  - apply not_true_iff_false. intro H. apply wide_space_first in H; [|exact (token_chars _ Ht)].
    destruct H as [q Hq]. rewrite E in Hq. inversion Hq. apply N.eqb_neq in Ec. contradiction.
Qed.
Lemma token_head : forall cs, token_of cs -> exists c r, cs = c :: r.
Proof. intros cs [c (_ & _ & _ & _ & [->|[v [_ ->]]])]; eauto. Qed.
Lemma content_space : forall u j P, nth_error (row_content u 0x3000) j = Some P -> ~ P.
Proof.
  intros u j P H. destruct j as [|[|[|[|[|[|[|[|[|j]]]]]]]]]; [.. |destruct j; discriminate]; cbn [nth_error row_content] in H; inversion H; subst P; clear H;
    try (unfold kanji, hiragana, katakana, common_kanji, rare_kanji, symbol, letter, within; lia).
  intro K. apply K. unfold recognized, punctuation, within. do 4 right. left. lia.
Qed.
Lemma rows_takes : forall ucd t cs, t = text cs -> token_of cs ->
  if is_wide_space t then (forall j row, nth_error (rows ucd) j = Some row -> takes row t = false)
  else exists i, (i < 9)%nat /\ forall j row, nth_error (rows ucd) j = Some row -> takes row t = (j =? i)%nat.
Proof.
  intros ucd t cs -> Ht. destruct (token_head cs Ht) as [c [r E]].
  assert (V : forall j row, nth_error (rows ucd) j = Some row ->
    exists P, nth_error (row_content (ucd (text cs)) c) j = Some P /\ (takes row (text cs) = true <-> P)).
  { intros j row Hj. destruct (rows_mean ucd cs c r Ht E j row Hj) as [P [HP Hi]]. exists P. split; [exact HP|].
    rewrite <- Hi. rewrite (rows_total ucd row (text cs) (nth_error_In _ _ Hj) (text_ok _ (token_chars _ Ht))).
    split; [intros ->; reflexivity|intro K; inversion K; reflexivity]. }
  rewrite (wide_token cs c r Ht E). destruct (c =? 0x3000) eqn:Ec.
  - apply N.eqb_eq in Ec. intros j row Hj. destruct (V j row Hj) as [P [HP Hi]]. rewrite Ec in HP. apply content_space in HP.
    apply not_true_iff_false. tauto.
  - apply N.eqb_neq in Ec. destruct (content_one (ucd (text cs)) c Ec) as [i [Hi9 H]]. exists i. split; [exact Hi9|].
    intros j row Hj. destruct (V j row Hj) as [P [HP Hi]]. rewrite (H j P HP) in Hi.
    destruct (j =? i)%nat eqn:Ej.
    + apply Nat.eqb_eq in Ej. apply Hi. exact Ej.
    + apply Nat.eqb_neq in Ej. apply not_true_iff_false. tauto.
Qed.
Lemma rows_once : forall ucd t cs, t = text cs -> token_of cs ->
  total (map (fun row => if takes row t then 1 else 0) (rows ucd)) + (if is_wide_space t then 1 else 0) = 1.
Proof.
  intros ucd t cs Et Ht. pose proof (rows_takes ucd t cs Et Ht) as H. destruct (is_wide_space t).
  - assert (G : forall row, In row (rows ucd) -> takes row t = false).
    { intros row Hr. apply In_nth_error in Hr. destruct Hr as [j Hj]. exact (H j row Hj). }
    replace (total _) with 0; [reflexivity|]. revert G. generalize (rows ucd). intros l G. symmetry.
    induction l as [|x l IH]; [reflexivity|]. cbn [map total fold_right]. rewrite (G x (or_introl eq_refl)).
    unfold total in IH. rewrite IH; [reflexivity|]. intros y Hy. apply G. right. exact Hy.
  - destruct H as [i [Hi H]]. rewrite N.add_0_r.
    assert (L : List.length (rows ucd) = 9%nat) by reflexivity. rewrite <- L in Hi. clear L.
    assert (G : forall l k, (forall j row, nth_error l j = Some row -> takes row t = (k + j =? i)%nat) ->
       total (map (fun row => if takes row t then 1 else 0) l) = if (k <=? i)%nat && (i <? k + List.length l)%nat then 1 else 0).
    { clear. induction l as [|x l IH]; intros k H.
      - cbn [map total fold_right List.length]. rewrite Nat.add_0_r.
        destruct (k <=? i)%nat eqn:E1, (i <? k)%nat eqn:E2; try reflexivity.
        apply Nat.leb_le in E1. apply Nat.ltb_lt in E2. lia.
      - cbn [map total fold_right List.length]. pose proof (H 0%nat x eq_refl) as H0. rewrite Nat.add_0_r in H0. rewrite H0.
        specialize (IH (S k)). unfold total in IH. rewrite IH.
        2:{ intros j row Hj. rewrite (H (S j) row Hj). f_equal. lia. }
        destruct (k =? i)%nat eqn:E1; destruct (S k <=? i)%nat eqn:E2; destruct (i <? S k + List.length l)%nat eqn:E3;
          destruct (k <=? i)%nat eqn:E4; destruct (i <? k + S (List.length l))%nat eqn:E5; cbn [andb];
          rewrite ?Nat.eqb_eq, ?Nat.eqb_neq, ?Nat.leb_le, ?Nat.leb_gt, ?Nat.ltb_lt, ?Nat.ltb_ge in *; lia. }
    rewrite (G (rows ucd) 0%nat) by (intros j row Hj; rewrite (H j row Hj); reflexivity).
    cbn [Nat.leb Nat.add andb]. apply Nat.ltb_lt in Hi. rewrite Hi. reflexivity.
Qed.
Lemma rows_sum : forall ucd l, (forall t, In t l -> exists cs, t = text cs /\ token_of cs) ->
  total (map (fun row => len (filter (takes row) l)) (rows ucd)) + count is_wide_space l = len l.
Proof.
  intros ucd l. generalize (rows_once ucd). generalize (rows ucd). intros rs R. induction l as [|t l IH]; intro H.
  - clear R H. unfold count. cbn [filter]. rewrite len_nil, N.add_0_r.
    induction rs as [|x rs IH]; [reflexivity|]. cbn [map total fold_right]. unfold total in IH. rewrite IH. reflexivity.
  - rewrite count_cons, len_cons. destruct (H t (or_introl eq_refl)) as [cs [Et Hc]]. specialize (R t cs Et Hc).
    specialize (IH (fun x Hx => H x (or_intror Hx))).
    assert (S1 : forall rs : list (bytes * (bytes -> out bool)), total (map (fun row => len (filter (takes row) (t :: l))) rs)
      = total (map (fun row => if takes row t then 1 else 0) rs) + total (map (fun row => len (filter (takes row) l)) rs)).
    { clear. induction rs as [|x rs IH]; [reflexivity|]. cbn [map total fold_right]. unfold total in *. rewrite IH.
      cbn [filter]. destruct (takes x t); rewrite ?len_cons; lia. }
    rewrite S1. lia.
Qed.

(** ** Furigana *)
Lemma base_spec : forall c, furiganaBase c = true <-> base c.
Proof.
  intro c. unfold furiganaBase, inClass, base. rewrite existsb_app, orb_true_iff.
  assert (B : forall bs, existsb (fun b => inBlock b c) bs = true <-> bracket_matches (fillRange bs) c).
  { intro bs. rewrite fill_matches, existsb_exists. unfold inBlock. split; intros [b [H1 H2]]; exists b; (split; [exact H1|]); lia. }
  rewrite !B. destruct (C50_regex_ranges_match_the_categories c) as (K1 & _ & _ & _ & K5). rewrite K1, K5. tauto.
Qed.
Lemma fkana_spec : forall c, furiganaKana c = true <-> kana c.
Proof.
  intro c. unfold furiganaKana, inClass.
  assert (B : forall bs, existsb (fun b => inBlock b c) bs = true <-> bracket_matches (fillRange bs) c).
  { intro bs. rewrite fill_matches, existsb_exists. unfold inBlock. split; intros [b [H1 H2]]; exists b; (split; [exact H1|]); lia. }
  rewrite B. destruct (C50_regex_ranges_match_the_categories c) as (_ & K2 & _). exact K2.
Qed.
Lemma skipKana_split : forall cs, exists ks, cs = ks ++ skipKana cs /\ Forall kana ks
  /\ (forall c r, skipKana cs = c :: r -> ~ kana c).
Proof.
  induction cs as [|c r IH].
  - exists []. split; [reflexivity|]. split; [constructor|discriminate].
  - cbn [skipKana]. destruct (furiganaKana c) eqn:E.
    + destruct IH as (ks & H1 & H2 & H3). exists (c :: ks). cbn [app]. rewrite <- H1. split; [reflexivity|].
      split; [constructor; [apply fkana_spec; exact E|exact H2]|exact H3].
    + exists []. split; [reflexivity|]. split; [constructor|]. intros c' r' H. inversion H; subst.
      intro K. apply fkana_spec in K. congruence.
Qed.
Lemma skipKana_app : forall ks c r, Forall kana ks -> ~ kana c -> skipKana (ks ++ c :: r) = c :: r.
Proof.
  intros ks c r H Hc. induction H as [|k ks Hk H IH]; cbn [app skipKana].
  - destruct (furiganaKana c) eqn:E; [apply fkana_spec in E; contradiction|reflexivity].
  - apply fkana_spec in Hk. rewrite Hk. exact IH.
Qed.
Lemma bracket_not_kana : ~ kana 0xFF09 /\ ~ kana 0xFF08.
Proof. unfold kana, hiragana, katakana, within. lia. Qed.
Lemma match_spec : forall c r rest, matchFurigana (c :: r) = Some rest <-> base c /\ exists u, furigana u /\ r = u ++ rest.
Proof.
  intros c r rest. split.
  - intro H. unfold matchFurigana in H. destruct r as [|o [|k q]]; [discriminate|discriminate|].
    destruct (furiganaBase c && (o =? 0xFF08) && furiganaKana k) eqn:E; [|discriminate]. apply andb_true_iff in E.
    destruct E as [E1 E2]. apply andb_true_iff in E1. destruct E1 as [E1 Eo]. apply N.eqb_eq in Eo. subst o.
    apply base_spec in E1. apply fkana_spec in E2. split; [exact E1|].
    destruct (skipKana_split q) as (ks & H1 & H2 & _).
    destruct (skipKana q) as [|x y] eqn:Es; [discriminate|].
    destruct (x =? 0xFF09) eqn:Ex; [|discriminate]. apply N.eqb_eq in Ex. subst x. injection H as <-. exists (0xFF08 :: (k :: ks) ++ [0xFF09]). split.
    + exists (k :: ks). split; [discriminate|]. split; [constructor; assumption|reflexivity].
    + rewrite H1. cbn [app]. rewrite <- app_assoc. reflexivity.
  - intros [Hc [u [[ks (Hn & Hk & ->)] ->]]]. destruct ks as [|k ks]; [congruence|]. inversion Hk as [|? ? K1 K2]; subst.
    cbn [app]. unfold matchFurigana. apply base_spec in Hc. apply fkana_spec in K1. rewrite Hc, K1, N.eqb_refl. cbn [andb].
    rewrite <- app_assoc. cbn [app]. rewrite (skipKana_app ks 0xFF09 rest K2 (proj1 bracket_not_kana)), N.eqb_refl. reflexivity.
Qed.
Lemma remove_stripped : forall fuel cs, (List.length cs <= fuel)%nat -> stripped cs (removeLoop fuel cs).
Proof.
  induction fuel as [|fuel IH]; intros cs H.
  - destruct cs; [constructor|cbn in H; lia].
  - destruct cs as [|c r]; [constructor|]. cbn [removeLoop]. destruct (matchFurigana (c :: r)) as [rest|] eqn:E.
    + apply match_spec in E. destruct E as [Hb [u [Hu ->]]]. apply stripped_furigana; [exact Hb|exact Hu|]. apply IH.
      cbn [List.length] in H. rewrite app_length in H. lia.
    + apply stripped_keep; [|apply IH; cbn [List.length] in H; lia].
      intros [Hb [u [q [Hu ->]]]]. assert (K : matchFurigana (c :: u ++ q) = Some q) by (apply match_spec; eauto).
      congruence.
Qed.
Lemma stripped_unique : forall cs a, stripped cs a -> forall b, stripped cs b -> a = b.
Proof.
  intros cs a H. induction H as [|c u r r' Hb Hu H IH|c r r' Hn H IH]; intros b Hs.
  - inversion Hs. reflexivity.
  - inversion Hs as [|c2 u2 r2 r2' Hb2 Hu2 H2 E1 E2|c2 r2 r2' Hn2 H2 E1 E2]; subst.
    + assert (K : matchFurigana (c :: u ++ r) = Some r) by (apply match_spec; eauto).
      assert (K2 : matchFurigana (c :: u ++ r) = Some r2). { rewrite <- H0. apply match_spec. eauto. }
      rewrite K in K2. inversion K2; subst r2. f_equal. apply IH. exact H2.
    + exfalso. apply Hn2. eauto.
  - inversion Hs as [|c2 u2 r2 r2' Hb2 Hu2 H2 E1 E2|c2 r2 r2' Hn2 H2 E1 E2]; subst.
    + exfalso. apply Hn. eauto.
    + f_equal. apply IH. exact H2.
Qed.
Lemma kana_not : forall c, kana c -> not_kana c = false.
Proof. intros c H. unfold not_kana. unfold kana, hiragana, katakana, within in H. lia. Qed.
Lemma stripped_filter : forall cs ds, stripped cs ds -> filter not_kana ds = filter not_kana cs.
Proof.
  intros cs ds H. induction H as [|c u r r' Hb Hu H IH|c r r' Hn H IH]; [reflexivity| |].
  - assert (K : filter not_kana (u ++ r) = filter not_kana r).
    { rewrite filter_app. destruct Hu as [ks (_ & Hk & ->)]. cbn [filter]. rewrite filter_app.
      replace (filter not_kana ks) with (@nil N); [reflexivity|]. symmetry. clear - Hk.
      induction Hk as [|k ks H Hk IH]; [reflexivity|]. cbn [filter]. rewrite (kana_not k H). exact IH. }
    cbn [filter]. rewrite K, IH. reflexivity.
  - cbn [filter]. rewrite IH. reflexivity.
Qed.
Lemma stripped_same : forall cs ds, stripped cs ds -> (forall a b u r, base b -> furigana u -> cs <> a ++ b :: u ++ r) -> ds = cs.
Proof.
  intros cs ds H. induction H as [|c u r r' Hb Hu H IH|c r r' Hn H IH]; intro K; [reflexivity| |].
  - exfalso. exact (K [] c u r Hb Hu eq_refl).
  - f_equal. apply IH. intros a b u q Hb Hu E. apply (K (c :: a) b u q Hb Hu). rewrite E. reflexivity.
Qed.

(** ** All texts of a history are made of bytes *)
Lemma node_texts_ok : forall find k n, (node_size n <= k)%nat -> forall name addTag fileNames recurse,
  bytes_ok name -> node_ok n ->
  Forall (fun t => bytes_ok (fst t)) (node_texts (file_strings find) n name addTag fileNames recurse).
Proof.
  intros find. induction k as [|k IH]; intros n Hk name addTag fileNames recurse Hn Ho; [destruct n as [| |[|]|]; cbn in Hk; lia|].
  assert (Hown : Forall (fun t : bytes * option bytes => bytes_ok (fst t))
     (if fileNames then [(name, if addTag then Some name else None)] else [])).
  { destruct fileNames; [constructor; [exact Hn|constructor]|constructor]. }
  destruct n as [c|es|t|]; [| |constructor|constructor].
  - cbn [node_texts]. apply Forall_app. split; [|exact Hown]. apply Forall_map. cbn [fst]. exact (file_strings_ok find c Ho).
  - change (node_texts (file_strings find) (Dir es) name addTag fileNames recurse)
      with (flat_map (entry_texts find addTag fileNames recurse) es ++ (if fileNames then [(name, if addTag then Some name else None)] else [])).
    apply Forall_app. split; [|exact Hown]. apply Forall_flat_map. apply Forall_forall. intros e He.
    assert (He' : (node_size (snd e) <= k)%nat /\ bytes_ok (fst e) /\ node_ok (snd e)).
    { cbn [node_size] in Hk. cbn [node_ok] in Ho. clear - Hk Ho He.
      assert (Hk' : (fold_right (fun e k => node_size (snd e) + k) 0 es <= k)%nat) by lia. clear Hk.
      induction es as [|x es IHe]; [destruct He|]. cbn [fold_right] in *.
      destruct He as [->|He]; [split; [lia|apply Ho]|]. apply IHe; [apply Ho|exact He|lia]. }
    destruct He' as [A [B C]]. unfold entry_texts. pose proof (IH (snd e) A) as IHe. destruct (snd e) as [cc|ee|tt|]; try constructor.
    + apply IHe; assumption.
    + destruct recurse; [apply IHe; assumption|constructor].
Qed.
Lemma request_texts_ok : forall find rs, Forall request_ok rs -> forall s g,
  In (s, g) (flat_map (request_texts (file_strings find)) rs) -> bytes_ok s.
Proof.
  intros find rs H s g Hin. apply in_flat_map in Hin. destruct Hin as [r [H1 H2]]. rewrite Forall_forall in H. specialize (H r H1).
  destruct r as [s' tag|n name addTag fileNames recurse]; cbn [request_texts] in H2.
  - destruct H2 as [E|[]]. inversion E; subst. exact H.
  - destruct H as [Hn Ho]. destruct n as [n|]; [|destruct H2]. destruct (resolve n) as [t|] eqn:R; [|destruct H2].
    pose proof (resolve_ok (fun _ => true) (fun _ => Val true) (fun _ _ => eq_refl) _ _ _ (Nat.le_refl _) R Ho) as Ht.
    pose proof (node_texts_ok find _ t (Nat.le_refl _) name addTag fileNames recurse Hn Ht) as F.
    rewrite Forall_forall in F. exact (F (s, g) H2).
Qed.
(** the values of a row are inserted in ascending order *)
Lemma row_ascending : forall find isKanji m, msorted m -> ascending (rowCounts find isKanji m).
Proof.
  intros find isKanji m H. unfold ascending, rowCounts. induction m as [|e m IH]; [constructor|]. unfold msorted, keys in H. cbn [map] in *.
  inversion H as [|? ? H1 H2]; subst. constructor; [exact (IH H1)|]. apply Forall_map. apply Forall_map in H2.
  eapply Forall_impl; [|exact H2]. cbn [kName]. auto.
Qed.
