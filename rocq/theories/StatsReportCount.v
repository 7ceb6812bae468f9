(** Proofs about counting with a debug stream: the counter is the one of CountModel.v, and the text
    is that of the changed lines. *)
From Verif Require Import BaseFacts Utf8Proofs Utf8CharProofs Utf8CharLemmas MapProofs CountFile CountProofs StatsReportSpec.
Open Scope N_scope.
Arguments N.mul : simpl never.
Arguments N.add : simpl never.
Arguments N.sub : simpl never.

Section Count.
  Variable find : option (list N -> list N).
  Variable p : bytes -> bool.
  Variable I : bytes -> list item.
  Hypothesis HI : reader I.
  Variable allow : bytes -> out bool.
  Hypothesis Hallow : forall t, bytes_ok t -> allow t = Val (p t).
  Variable debug : bool.
  Notation ctext := (counted_text find).
  Notation toks := (counted find p I).

  Fixpoint last_tag (last : bytes) (ts : list (bytes * option bytes)) : bytes :=
    match ts with
    | [] => last
    | t :: r => last_tag (if changed find t then match snd t with Some g => g | None => last end else last) r
    end.
  Record GrownV (st : Counting) (ts : list (bytes * option bytes)) (nf nd : N) (st' : Counting) : Prop := {
    v_grown : Grown find p I (fst st) ts nf nd (fst st');
    v_tag : cLastReplaceTag (fst st') = last_tag (cLastReplaceTag (fst st)) ts;
    v_text : snd st' = snd st ++ (if debug then replacements_text find (cLastReplaceTag (fst st)) (cReplacements (fst st)) ts else [])
  }.
  Lemma last_tag_app : forall a b x, last_tag x (a ++ b) = last_tag (last_tag x a) b.
  Proof. induction a as [|t a IH]; intros b x; [reflexivity|]. cbn [app last_tag]. apply IH. Qed.
  Lemma text_app : forall a b x i, replacements_text find x i (a ++ b)
    = replacements_text find x i a ++ replacements_text find (last_tag x a) (i + count (changed find) a) b.
  Proof.
    induction a as [|[s g] a IH]; intros b x i.
    - cbn [app replacements_text last_tag]. unfold count. cbn [filter]. rewrite len_nil, N.add_0_r. reflexivity.
    - cbn [app replacements_text last_tag]. rewrite count_cons.
      change (changed find (s, g)) with (negb (beq (ctext s) s)). cbn [snd].
      destruct (beq (ctext s) s); cbn [negb].
      + rewrite IH. reflexivity.
      + rewrite IH. rewrite <- N.add_assoc. repeat (progress (rewrite <- ?app_assoc; cbn [app])). reflexivity.
  Qed.
  Lemma grownV_refl : forall st, GrownV st [] 0 0 st.
  Proof. intro st. constructor; [apply grown_refl|reflexivity|]. destruct debug; cbn [replacements_text]; rewrite app_nil_r; reflexivity. Qed.
  Lemma grownV_trans : forall c a n1 d1 c1 b n2 d2 c2, GrownV c a n1 d1 c1 -> GrownV c1 b n2 d2 c2 ->
    GrownV c (a ++ b) (n1 + n2) (d1 + d2) c2.
  Proof.
    intros c a n1 d1 c1 b n2 d2 c2 [G1 T1 X1] [G2 T2 X2]. constructor.
    - eapply (grown_trans find p I allow Hallow); [exact G1|exact G2].
    - rewrite T2, T1, last_tag_app. reflexivity.
    - rewrite X2, X1, T1, (g_repl _ _ _ _ _ _ _ _ G1). destruct debug; [rewrite text_app, app_assoc; reflexivity|].
      rewrite !app_nil_r. reflexivity.
  Qed.
  Lemma grownV_path : forall st nf nd, GrownV st [] nf nd (addPathV nf nd st).
  Proof.
    intros st nf nd. constructor; [apply grown_path|reflexivity|]. destruct debug; cbn [replacements_text]; rewrite app_nil_r; reflexivity.
  Qed.

  Lemma tokens_tag : forall l tag c, cLastReplaceTag (addTokens l tag c) = cLastReplaceTag c.
  Proof. induction l as [|k l IH]; intros tag c; [reflexivity|]. change (addTokens (k :: l) tag c) with (addTokens l tag (addToken k tag c)). rewrite IH. reflexivity. Qed.
  Lemma pad_same : forall (k : nat), putSetw false 32 (Z.of_nat k + 5) (b_ ": ") = b_ "  " ++ repeat 32 k ++ b_ " : ".
  Proof.
    intro k. unfold putSetw. replace (Z.to_nat (Z.of_nat k + 5) - List.length (b_ ": "))%nat with (2 + (k + 1))%nat by (cbn [List.length b_]; cbn; lia).
    rewrite repeat_app, repeat_app. cbn [repeat]. rewrite <- !app_assoc. reflexivity.
  Qed.

  Lemma addV_spec : forall s tag st, bytes_ok s -> exists st',
    addV find allow debug s tag st = Val (len (toks (s, tag)), st') /\ GrownV st [(s, tag)] 0 0 st'.
  Proof.
    intros s tag [c os] H. destruct (add_spec find p I HI allow Hallow s tag c H) as [c' [E G]].
    destruct (ctext_value find s H) as [n [Hn [Hc Hf]]].
    exists (c', os ++ (if debug then replacements_text find (cLastReplaceTag c) (cReplacements c) [(s, tag)] else [])).
    assert (K : addV find allow debug s tag (c, os) = Val (len (toks (s, tag)), (c', os ++ (if debug then replacements_text find (cLastReplaceTag c) (cReplacements c) [(s, tag)] else [])))
      /\ cLastReplaceTag c' = last_tag (cLastReplaceTag c) [(s, tag)]).
    { destruct (HI n Hn) as [es [Hp Hit]]. destruct (all_chars n es true Hn Hp) as [u [Hall _]]. unfold allChars in Hall.
      assert (L : forall c1, exists m, tokenLoop allow (S (List.length n)) (newUtf8Char n) tag 0 c1 = Val (m, u, addTokens (filter p (yields true (items es))) tag c1)).
      { intro c1. eexists. exact (tokenLoop_collect p allow Hallow _ _ _ _ tag 0 c1 Hall (tokens_ok _ _ Hp)). }
      cbn [last_tag]. unfold changed. cbn [fst snd]. rewrite Hc.
      assert (T : replacements_text find (cLastReplaceTag c) (cReplacements c) [(s, tag)] = if beq n s then [] else debugText s n tag c).
      { cbn [replacements_text]. rewrite Hc. destruct (beq n s); [reflexivity|]. unfold debugText. cbv zeta. rewrite pad_same.
        repeat (progress (rewrite <- ?app_assoc; cbn [app])). reflexivity. }
      rewrite T. clear T. unfold add in E. unfold addV. destruct find as [f|].
      - destruct Hf as [w [Hw Ht]]. rewrite Hw in *. cbn [obind] in *. rewrite Ht in *. cbn [obind] in *.
        destruct (beq n s).
        + destruct (L c) as [m Lm]. rewrite Lm in *. cbn [obind negb] in *. inversion E; subst.
          split; [destruct debug; rewrite app_nil_r; reflexivity|]. cbn [addEvents cLastReplaceTag]. apply tokens_tag.
        + destruct (L (addReplacement tag c)) as [m Lm]. rewrite Lm in *. cbn [obind negb] in *. inversion E; subst.
          split; [destruct debug; rewrite ?app_nil_r; reflexivity|]. cbn [addEvents cLastReplaceTag]. rewrite tokens_tag. reflexivity.
      - cbn [obind] in *. destruct (L c) as [m Lm]. rewrite <- Hf in E |- *. rewrite Lm in E |- *. cbn [obind] in *. inversion E; subst.
        rewrite ?beq_refl. cbn [negb]. split; [destruct debug; rewrite app_nil_r; reflexivity|]. cbn [addEvents cLastReplaceTag]. apply tokens_tag. }
    destruct K as [K1 K2]. split; [exact K1|]. constructor; [exact G|exact K2|reflexivity].
  Qed.

  (** ** Lines *)
  Lemma plainV_spec : forall l tag a c, Forall bytes_ok l -> exists c',
    plainLoop (fun s => addV find allow debug s tag) l a c
      = Val (a + len (flat_map toks (map (fun s => (s, tag)) l)), c')
    /\ GrownV c (map (fun s => (s, tag)) l) 0 0 c'.
  Proof.
    induction l as [|s l IH]; intros tag a c H.
    - exists c. cbn [plainLoop map flat_map]. rewrite len_nil, N.add_0_r. split; [reflexivity|apply grownV_refl].
    - inversion H as [|? ? H1 H2]; subst. cbn [plainLoop map flat_map].
      destruct (addV_spec s tag c H1) as [c1 [E1 G1]]. rewrite E1. cbn [obind].
      destruct (IH tag (a + len (toks (s, tag))) c1 H2) as [c2 [E2 G2]]. exists c2. rewrite E2.
      split; [rewrite len_app; f_equal; f_equal; lia|].
      exact (grownV_trans _ _ _ _ _ _ _ _ _ G1 G2).
  Qed.
  Lemma processFileV_spec : forall contents tag c, bytes_ok contents -> exists c',
    processFileV find allow debug contents tag c
      = Val (len (flat_map toks (map (fun s => (s, tag)) (file_strings find contents))), c')
    /\ GrownV c (map (fun s => (s, tag)) (file_strings find contents)) 0 0 c'.
  Proof.
    intros contents tag c H. pose proof ((file_strings_ok find) contents H) as Hok.
    destruct (plainV_spec _ tag 0 c Hok) as [c' [E G]]. exists c'. split; [|exact G].
    unfold processFileV. unfold file_strings in *. destruct find as [f|].
    - rewrite processFile_pieces. rewrite searched_pieces in *. exact E.
    - exact E.
  Qed.

  (** ** Trees *)
  Definition childV (e : bytes * node) (addTag fileNames recurse : bool) (c : Counting) : out (N * Counting) :=
    match snd e with
    | Link _ => Val (0, c)
    | File _ => doAddFileV find allow debug (snd e) (fst e) addTag fileNames recurse c
    | _ => if recurse then doAddFileV find allow debug (snd e) (fst e) addTag fileNames true c else Val (0, c)
    end.
  Fixpoint childrenV (es : list (bytes * node)) (addTag fileNames recurse : bool) (added : N) (c : Counting)
    : out (N * Counting) :=
    match es with
    | [] => Val (added, c)
    | e :: r => '(k, c') <- childV e addTag fileNames recurse c ;; childrenV r addTag fileNames recurse (added + k) c'
    end.
  Definition finishV (name : bytes) (addTag fileNames : bool) (added : N) (c : Counting) : out (N * Counting) :=
    if fileNames then '(k, c') <- addV find allow debug name (if addTag then Some name else None) c ;; Val (added + k, c')
    else Val (added, c).
  Lemma doAddFileV_dir : forall es name addTag fileNames recurse c,
    doAddFileV find allow debug (Dir es) name addTag fileNames recurse c =
    ('(added, c1) <- childrenV es addTag fileNames recurse 0 (addPathV 0 1 c) ;; finishV name addTag fileNames added c1).
  Proof.
    intros es name addTag fileNames recurse c. cbn [doAddFileV].
    match goal with |- obind (?f es 0 _) _ = _ => set (F := f) end.
    assert (E : forall es a c, F es a c = childrenV es addTag fileNames recurse a c).
    { clear. induction es as [|[nm e] r IH]; intros a c; [reflexivity|].
      change (obind (childV (nm, e) addTag fileNames recurse c) (fun x => let '(k, c') := x in F r (a + k) c')
        = obind (childV (nm, e) addTag fileNames recurse c)
            (fun x => let '(k, c') := x in childrenV r addTag fileNames recurse (a + k) c')).
      destruct (childV (nm, e) addTag fileNames recurse c) as [[k c']| | |]; try reflexivity. apply IH. }
    rewrite E. reflexivity.
  Qed.

  Lemma finishV_spec : forall name addTag fileNames a c, bytes_ok name -> exists c',
    finishV name addTag fileNames a c = Val (a + len (flat_map toks (own name addTag fileNames)), c')
    /\ GrownV c (own name addTag fileNames) 0 0 c'.
  Proof.
    intros name addTag fileNames a c H. unfold finishV, own. destruct fileNames.
    - destruct (addV_spec name (if addTag then Some name else None) c H) as [c' [E G]]. exists c'. rewrite E. cbn [obind flat_map].
      rewrite app_nil_r. split; [reflexivity|exact G].
    - exists c. cbn [flat_map]. rewrite len_nil, N.add_0_r. split; [reflexivity|apply grownV_refl].
  Qed.

  Notation texts := (node_texts (file_strings find)).
  Definition nodeV_good (n : node) : Prop := forall name addTag fileNames recurse c,
    bytes_ok name -> node_ok n -> exists c',
      doAddFileV find allow debug n name addTag fileNames recurse c
        = Val (len (flat_map toks (texts n name addTag fileNames recurse)), c')
      /\ GrownV c (texts n name addTag fileNames recurse) (node_files n recurse) (node_dirs n recurse) c'.

  Lemma nodeV_spec : forall k n, (node_size n <= k)%nat -> nodeV_good n.
  Proof.
    induction k as [|k IH]; intros n Hk; [destruct n as [| |[|]|]; cbn in Hk; lia|].
    intros name addTag fileNames recurse c Hname Hok. destruct n as [contents|es|t|].
    - change (doAddFileV find allow debug (File contents) name addTag fileNames recurse c)
        with ('(added, c1) <- processFileV find allow debug contents (if addTag then Some name else None) (addPathV 1 0 c) ;;
              finishV name addTag fileNames added c1).
      destruct (processFileV_spec contents (if addTag then Some name else None) (addPathV 1 0 c) Hok) as [c1 [E1 G1]].
      rewrite E1. cbn [obind].
      destruct (finishV_spec name addTag fileNames (len (flat_map toks (map (fun s => (s, if addTag then Some name else None)) (file_strings find contents)))) c1 Hname) as [c2 [E2 G2]].
      exists c2. rewrite E2. cbn [node_texts node_files node_dirs]. fold (own name addTag fileNames).
      rewrite flat_map_app', len_app. split; [reflexivity|].
      exact (grownV_trans _ _ _ _ _ _ _ _ _ (grownV_path c 1 0) (grownV_trans _ _ _ _ _ _ _ _ _ G1 G2)).
    - rewrite doAddFileV_dir.
      assert (Hes : forall e, In e es -> (node_size (snd e) <= k)%nat /\ bytes_ok (fst e) /\ node_ok (snd e)).
      { cbn [node_size] in Hk. cbn [node_ok] in Hok. clear - Hk Hok.
        assert (Hk' : (fold_right (fun e k => node_size (snd e) + k) 0 es <= k)%nat) by lia. clear Hk.
        induction es as [|e es IHe]; intros x Hx; [destruct Hx|]. cbn [fold_right] in *.
        destruct Hx as [->|Hx]; [split; [lia|apply Hok]|]. apply IHe; [apply Hok|lia|exact Hx]. }
      assert (C : forall a c, exists c', childrenV es addTag fileNames recurse a c
          = Val (a + len (flat_map toks (flat_map ((entry_texts find) addTag fileNames recurse) es)), c')
        /\ GrownV c (flat_map ((entry_texts find) addTag fileNames recurse) es)
             (total (map (entry_files recurse) es)) (total (map (entry_dirs recurse) es)) c').
      { clear Hk Hok. induction es as [|e es IHe]; intros a c0.
        - exists c0. cbn [childrenV flat_map]. rewrite len_nil, N.add_0_r. split; [reflexivity|apply grownV_refl].
        - assert (K : exists c', childV e addTag fileNames recurse c0 = Val (len (flat_map toks ((entry_texts find) addTag fileNames recurse e)), c')
             /\ GrownV c0 ((entry_texts find) addTag fileNames recurse e) (entry_files recurse e) (entry_dirs recurse e) c').
          { destruct (Hes e (or_introl eq_refl)) as [Hs [Hn Ho]]. pose proof (IH (snd e) Hs) as Hg.
            unfold childV, entry_texts, entry_files, entry_dirs. destruct (snd e) as [cc|ee|tt|] eqn:Es.
            - exact (Hg (fst e) addTag fileNames recurse c0 Hn Ho).
            - destruct recurse; [exact (Hg (fst e) addTag fileNames true c0 Hn Ho)|].
              exists c0. split; [reflexivity|apply grownV_refl].
            - exists c0. split; [reflexivity|apply grownV_refl].
            - exists c0. destruct recurse; (split; [reflexivity|apply grownV_refl]). }
          destruct K as [c1 [E1 G1]]. cbn [childrenV]. rewrite E1. cbn [obind].
          destruct (IHe (fun x Hx => Hes x (or_intror Hx)) (a + len (flat_map toks ((entry_texts find) addTag fileNames recurse e))) c1) as [c2 [E2 G2]].
          exists c2. rewrite E2. cbn [flat_map map]. split; [rewrite flat_map_app', len_app; f_equal; f_equal; lia|].
          exact (grownV_trans _ _ _ _ _ _ _ _ _ G1 G2). }
      destruct (C 0 (addPathV 0 1 c)) as [c1 [E1 G1]]. rewrite E1. cbn [obind].
      destruct (finishV_spec name addTag fileNames (0 + len (flat_map toks (flat_map ((entry_texts find) addTag fileNames recurse) es))) c1 Hname) as [c2 [E2 G2]].
      exists c2. rewrite E2.
      change (texts (Dir es) name addTag fileNames recurse)
        with (flat_map ((entry_texts find) addTag fileNames recurse) es ++ own name addTag fileNames).
      split; [rewrite flat_map_app', len_app; reflexivity|].
      pose proof (grownV_trans _ _ _ _ _ _ _ _ _ (grownV_path c 0 1) (grownV_trans _ _ _ _ _ _ _ _ _ G1 G2)) as G.
      cbn [app] in G.
      change (node_files (Dir es) recurse) with (total (map (entry_files recurse) es)).
      change (node_dirs (Dir es) recurse) with (1 + total (map (entry_dirs recurse) es)).
      rewrite !N.add_0_r, N.add_0_l in G. exact G.
    - exists c. split; [reflexivity|apply grownV_refl].
    - exists c. split; [reflexivity|apply grownV_refl].
  Qed.

  (** a path that exists *)
  Lemma addFileV_spec : forall n t name addTag st, resolve n = Some t -> bytes_ok name -> node_ok n -> exists st',
    addFileV find allow debug (Some n) name addTag true true st = Val (len (flat_map toks (texts t name addTag true true)), st')
    /\ GrownV st (texts t name addTag true true) (node_files t true) (node_dirs t true) st'.
  Proof.
    intros n t name addTag st R Hn Ho. unfold addFileV. rewrite R.
    exact (nodeV_spec _ t (le_n _) name addTag true true st Hn (resolve_ok p allow Hallow _ _ _ (le_n _) R Ho)).
  Qed.
End Count.
