(** Lemmas about the errors of loading: how often each is there. *)
From Coq Require Import Permutation.
From Verif Require Import BaseFacts MapProofs ListProofs DataModel DataSpec DataProofs LoadModel LoadSpec LoadProofs LoadAttr LoadPhases LoadLists LoadEnv LoadWhole LoadFacts.
From Verif Require Import ReportUcd LoadLogModel LoadLogSpec LoadLogTrace LoadLogLists LoadLogWhole LoadLogErrors.
Import DataProofs LoadSpec.
Arguments N.mul : simpl never. Arguments N.add : simpl never. Arguments N.sub : simpl never.
Arguments N.div : simpl never.

(** the Kanji whose name is new, each with those before *)
Fixpoint firsts (before ks : list Kanji) : list (list Kanji * Kanji) :=
  match ks with
  | [] => []
  | k :: r => if existsb (beq (kName k)) (names_of before) then firsts (before ++ [k]) r else (before, k) :: firsts (before ++ [k]) r
  end.
Fixpoint twices (before ks : list Kanji) : list bytes :=
  match ks with
  | [] => []
  | k :: r => if existsb (beq (kName k)) (names_of before) then kName k :: twices (before ++ [k]) r else twices (before ++ [k]) r
  end.
Definition wrongs (e : Env) (l : list (list Kanji * Kanji)) : list (bytes * Kanji) :=
  flat_map (fun p => map (fun s => (s, snd p)) (errors (sanityChecks e (snd p)))) l.
Definition is_hidden (p : list Kanji * Kanji) : bool := selected_name (snd p) && existsb (variant_of (compatibilityName (snd p))) (accepted (fst p)).
Definition hiddens (l : list (list Kanji * Kanji)) : list Kanji := map snd (filter is_hidden l).
Definition twice_text (n : bytes) : bytes := b_ "failed to insert '" ++ n ++ b_ "' into map".
Definition hidden_text (k : Kanji) : bytes := b_ "failed to insert variant '" ++ kName k ++ b_ "' into map".

Lemma saidAll_perm : forall e ks before, Permutation (errors (saidAll e before ks))
  (map twice_text (twices before ks) ++ map fst (wrongs e (firsts before ks)) ++ map hidden_text (hiddens (firsts before ks))).
Proof.
  intros e. induction ks as [|k ks IH]; intros before; cbn [saidAll firsts twices]; [constructor|].
  rewrite errors_app. unfold said. destruct (existsb (beq (kName k)) (names_of before)).
  - cbn [errors map app]. constructor. apply IH.
  - unfold wrongs, hiddens. cbn [flat_map filter fst snd]. rewrite errors_app. specialize (IH (before ++ [k])). rewrite IH. clear IH.
    set (tw := map twice_text _). set (wr := flat_map _ _). change (is_hidden (before, k)) with (selected_name k && existsb (variant_of (compatibilityName k)) (accepted before)).
    rewrite map_app, map_map. cbn [fst]. rewrite map_id.
    destruct (selected_name k && _); cbn [errors map snd app]; rewrite <- ?app_assoc; cbn [app].
    + fold (hidden_text k). set (sc := errors (sanityChecks e k)). fold (hiddens (firsts (before ++ [k]) ks)). set (hd := map hidden_text _). set (w := map fst wr).
      transitivity (tw ++ sc ++ hidden_text k :: w ++ hd); [|apply Permutation_app_head, Permutation_app_head, Permutation_middle].
      transitivity (sc ++ tw ++ hidden_text k :: w ++ hd); [apply Permutation_app_head, Permutation_middle|].
      rewrite !app_assoc. apply Permutation_app_tail. apply Permutation_app_comm.
    + rewrite !app_assoc. apply Permutation_app_tail, Permutation_app_tail. apply Permutation_app_comm.
Qed.
Lemma twices_count : forall n ks before, count_occ name_dec (twices before ks) n
  = (if existsb (beq n) (names_of before) then count_occ name_dec (names_of ks) n else pred (count_occ name_dec (names_of ks) n))%nat.
Proof.
  intros n. induction ks as [|k ks IH]; intros before; cbn [twices names_of map count_occ]; [destruct (existsb _ _); reflexivity|].
  assert (Ex : existsb (beq n) (names_of (before ++ [k])) = existsb (beq n) (names_of before) || beq n (kName k)).
  { unfold names_of. rewrite map_app, existsb_app. cbn [map existsb]. rewrite Bool.orb_false_r. reflexivity. }
  destruct (existsb (beq (kName k)) (names_of before)) eqn:X; cbn [count_occ]; rewrite IH, Ex; destruct (name_dec (kName k) n) as [E|E].
  - subst n. rewrite X. reflexivity.
  - replace (beq n (kName k)) with false by (symmetry; apply beq_neq; congruence). rewrite Bool.orb_false_r. reflexivity.
  - subst n. rewrite X, beq_refl. cbn [orb pred]. reflexivity.
  - replace (beq n (kName k)) with false by (symmetry; apply beq_neq; congruence). rewrite Bool.orb_false_r. reflexivity.
Qed.
Lemma firsts_In : forall ks before a k, In (a, k) (firsts before ks) <-> exists b c, a = before ++ b /\ ks = b ++ k :: c /\ ~ In (kName k) (names_of a).
Proof.
  induction ks as [|k0 ks IH]; intros before a k; cbn [firsts].
  - split; [intros []|]. intros [b [c [_ [H _]]]]. destruct b; discriminate.
  - destruct (existsb (beq (kName k0)) (names_of before)) eqn:X.
    + apply existsb_In in X. rewrite IH. split.
      * intros [b [c [-> [-> H]]]]. exists (k0 :: b), c. rewrite <- app_assoc in *. auto.
      * intros [b [c [-> [E H]]]]. destruct b as [|b0 b]; injection E as E1 E2; subst.
        -- rewrite app_nil_r in H. contradiction.
        -- exists b, c. rewrite <- app_assoc. auto.
    + assert (X' : ~ In (kName k0) (names_of before)) by (intro K; apply existsb_In in K; congruence). cbn [In]. rewrite IH. split.
      * intros [E|[b [c [-> [-> H]]]]]; [injection E as <- <-; exists [], ks; rewrite app_nil_r; auto|]. exists (k0 :: b), c. rewrite <- app_assoc in *. auto.
      * intros [b [c [-> [E H]]]]. destruct b as [|b0 b]; injection E as E1 E2; subst; [left; rewrite app_nil_r; reflexivity|].
        right. exists b, c. rewrite <- app_assoc. auto.
Qed.
Lemma firsts_names : forall ks before, NoDup (map (fun p => kName (snd p)) (firsts before ks))
  /\ forall n, In n (map (fun p => kName (snd p)) (firsts before ks)) -> ~ In n (names_of before).
Proof.
  induction ks as [|k ks IH]; intros before; cbn [firsts map]; [split; [constructor|intros n []]|]. destruct (IH (before ++ [k])) as [N1 N2].
  assert (Up : forall n, In n (names_of (before ++ [k])) <-> In n (names_of before) \/ n = kName k).
  { intro n. unfold names_of. rewrite map_app, in_app_iff. cbn [map In]. intuition congruence. }
  destruct (existsb (beq (kName k)) (names_of before)) eqn:X.
  - split; [exact N1|]. intros n H K. apply (N2 n H). apply Up. auto.
  - assert (X' : ~ In (kName k) (names_of before)) by (intro K; apply existsb_In in K; congruence). cbn [map snd]. split.
    + constructor; [|exact N1]. intro H. apply (N2 _ H). apply Up. auto.
    + intros n [<-|H] K; [contradiction|]. apply (N2 n H). apply Up. auto.
Qed.
Lemma sanity_one : forall e k, (List.length (errors (sanityChecks e k)) <= 1)%nat.
Proof.
  intros e k. unfold sanityChecks, sanityError. destruct (ucdFind (envUcd e) (kName k)) as [[u|]| | |]; cbn; try lia.
  destruct (kType k); cbn; try lia; [destruct (joyo u)|destruct (jinmei u)|destruct (jinmei u)]; cbn; try lia. destruct (hasLinks u); cbn; lia.
Qed.
Lemma wrongs_nodup : forall e l, NoDup (map (fun p => kName (snd p)) l) -> NoDup (wrongs e l).
Proof.
  intros e l. induction l as [|[a k] l IH]; intro H; cbn [wrongs flat_map snd]; [constructor|]. cbn [map snd] in H. inversion H as [|? ? H1 H2]; subst.
  specialize (IH H2). pose proof (sanity_one e k) as L1. destruct (errors (sanityChecks e k)) as [|s [|t r]]; cbn [map app]; [exact IH| |cbn in L1; lia].
  constructor; [|exact IH]. intro K. apply H1. apply in_flat_map in K. destruct K as [p [P1 P2]]. apply in_map_iff in P2. destruct P2 as [x [P2 _]].
  injection P2 as _ P2. apply in_map_iff. exists p. rewrite P2. auto.
Qed.
Lemma hiddens_nodup : forall l, NoDup (map (fun p => kName (snd p)) l) -> NoDup (hiddens l).
Proof.
  intros l H. unfold hiddens. induction l as [|[a k] l IH]; cbn [filter map]; [constructor|]. cbn [map snd] in H. inversion H as [|? ? H1 H2]; subst.
  destruct (is_hidden (a, k)); [|auto]. cbn [map snd]. constructor; [|auto]. intro K. apply H1. apply in_map_iff in K. destruct K as [p [P1 P2]].
  apply filter_In in P2. apply in_map_iff. exists p. rewrite P1. split; [reflexivity|apply P2].
Qed.

Section All.
  Variables (ltr : bool) (f : Files) (st : list_static) (m : N) (e : Env) (d : Data) (full : bool) (ms : list Msg).
  Variables (js ls os jm all xs : list Kanji) (pss : list places) (fps : places) (ws : list Kanji).
  Hypothesis Hf : files_ok f.
  Hypothesis Hu : Forall row_bytes (ucdRows f).
  Hypothesis Hl : loadData ltr f st m = Val (e, d).
  Hypothesis Hb : forall k, loaded_kanji d k -> bytes_ok (kName k).
  Hypothesis T : LoadTrace full f e d ms js ls os jm all xs pss fps ws.
  Lemma errors_exact : forall ns, line_names (linkedFile f) ns -> all_complaints (envUcd e) d ns (errors ms).
  Proof.
    intros ns Hn. assert (He : entries (envUcd e)) by (eapply loaded_entries; eauto).
    rewrite (lt_errors _ _ _ _ _ _ _ _ _ _ _ _ _ _ T). pose proof (trace_rep f e d full ms js ls os jm all xs pss fps ws T) as R.
    pose proof (official_count ltr f st m e d full ms js ls os jm all xs pss fps ws Hf Hl T ns) as Oc.
    assert (Eq : js ++ ls ++ os ++ all ++ xs ++ ws = (js ++ ls ++ os ++ all ++ xs) ++ ws) by (repeat rewrite <- app_assoc; reflexivity).
    pose proof (lt_ws_fresh _ _ _ _ _ _ _ _ _ _ _ _ _ _ T) as Fr.
    rewrite Eq. set (official := js ++ ls ++ os ++ all ++ xs) in *. set (ks := official ++ ws) in *.
    destruct (firsts_names ks []) as [Nd _].
    assert (Fl : forall a k, In (a, k) (firsts [] ks) -> loaded_kanji d k).
    { intros a k H. apply firsts_In in H. destruct H as [b [c [-> [H1 H2]]]]. apply (loaded_split _ d k R). exists b, c. auto. }
    assert (Lf : forall k, loaded_kanji d k -> exists a c, ks = a ++ k :: c /\ ~ In (kName k) (names_of a) /\ In (a, k) (firsts [] ks)).
    { intros k H. apply (loaded_split _ d k R) in H. destruct H as [a [c [H1 H2]]]. exists a, c. split; [exact H1|]. split; [exact H2|].
      apply firsts_In. exists a, c. auto. }
    exists (twices [] ks), (wrongs e (firsts [] ks)), (hiddens (firsts [] ks)).
    split; [apply saidAll_perm|]. split; [|split; [apply wrongs_nodup; exact Nd|split; [|split; [apply hiddens_nodup; exact Nd|]]]].
    - intro n. rewrite twices_count. cbn [names_of map existsb]. rewrite <- Oc by exact Hn. unfold ks. unfold names_of. rewrite map_app, count_occ_app.
      destruct (fresh_nodup ws _ Fr) as [N1 N2]. pose proof (proj1 (NoDup_count_occ name_dec _) N1 n) as C1.
      destruct (in_dec name_dec n (map kName ws)) as [I|I].
      + specialize (N2 n I). unfold names_of in N2. rewrite (proj1 (count_occ_not_In name_dec _ n) N2). cbn [plus]. lia.
      + rewrite (proj1 (count_occ_not_In name_dec _ n) I). rewrite Nat.add_0_r. reflexivity.
    - intros s k. unfold wrongs. rewrite in_flat_map. split.
      + intros [[a k'] [H1 H2]]. cbn [snd] in H2. apply in_map_iff in H2. destruct H2 as [s' [E H2]]. injection E as -> ->. pose proof (Fl _ _ H1) as Lk.
        split; [exact Lk|]. apply in_errors in H2. apply sanity_spec; auto.
      + intros [Lk W]. destruct (Lf k Lk) as [a [c [_ [_ I]]]]. exists (a, k). split; [exact I|]. cbn [snd]. apply in_map_iff. exists s. split; [reflexivity|].
        apply in_errors. apply sanity_spec; auto.
    - intros k. unfold hiddens. rewrite in_map_iff. split.
      + intros [[a k'] [E H]]. cbn [snd] in E. subst k'. apply filter_In in H. destruct H as [H1 H2]. split; [exact (Fl _ _ H1)|].
        apply firsts_In in H1. destruct H1 as [b [c [E1 [E2 H1]]]]. cbn [app] in E1. subst b. rewrite E2 in R. apply (variant_said a k c d R H1). exact H2.
      + intros [Lk V]. destruct (Lf k Lk) as [a [c [E2 [H1 I]]]]. exists (a, k). split; [reflexivity|]. apply filter_In. split; [exact I|].
        rewrite E2 in R. apply (variant_said a k c d R H1). exact V.
  Qed.
End All.
