(** A group quiz has one outcome, and which one is decided by the lines of the input. *)
From Verif Require Import BaseFacts QuizProofs GroupLemmas GroupProofs GroupQuizSpec GroupWhole.
Open Scope N_scope.

(** ** Lines read by prompts *)
Lemma reads_split : forall q ls a b rest, reads q ls (a ++ b) rest -> exists mid, reads q ls a mid /\ reads q mid b rest.
Proof.
  intros q ls a. revert ls. assert (G : forall ls ps rest, reads q ls ps rest -> forall a b, ps = a ++ b -> exists mid, reads q ls a mid /\ reads q mid b rest).
  { intros ls ps rest H. induction H as [ls|x ls p ps rest Hx Hn H IH|x ls p ps rest Hx H IH|p ps rest Hd H IH]; intros a0 b0 E.
    - destruct a0, b0; try discriminate. exists ls. split; constructor.
    - destruct a0 as [|p1 a0]; cbn [app] in E.
      + subst b0. exists (x :: ls). split; [constructor|]. apply reads_junk; assumption.
      + destruct (IH (p1 :: a0) b0 E) as [mid [I1 I2]]. exists mid. split; [|exact I2]. injection E as -> _. apply reads_junk; assumption.
    - destruct a0 as [|p1 a0]; cbn [app] in E.
      + subst b0. exists (x :: ls). split; [constructor|]. apply reads_key; assumption.
      + injection E as -> E. destruct (IH a0 b0 E) as [mid [I1 I2]]. exists mid. split; [|exact I2]. apply reads_key; assumption.
    - destruct a0 as [|p1 a0]; cbn [app] in E.
      + subst b0. exists []. split; [constructor|]. apply reads_end; assumption.
      + injection E as -> E. destruct (IH a0 b0 E) as [mid [I1 I2]]. exists mid. split; [|exact I2]. apply reads_end; assumption. }
  intros ls b rest H. exact (G ls _ rest H a b eq_refl).
Qed.
Lemma answers_same : forall ok def x c c', answers ok def x c -> answers ok def x c' -> c = c'.
Proof. intros ok def x c c' [[H1 _]|[H1 H2]] [[K1 _]|[K1 K2]]; congruence. Qed.
(** the same request is answered by the same key *)
Lemma reads_same : forall q ls p1 ps1 r1 p2 ps2 r2, reads q ls (p1 :: ps1) r1 -> reads q ls (p2 :: ps2) r2 -> sRequest p1 = sRequest p2 ->
  sKey p1 = sKey p2 /\ exists mid, reads q mid ps1 r1 /\ reads q mid ps2 r2.
Proof.
  intros q ls. induction ls as [|x ls IH]; intros p1 ps1 r1 p2 ps2 r2 H1 H2 E.
  - inversion H1; subst. inversion H2; subst. split; [congruence|]. exists []. auto.
  - inversion H1; subst; inversion H2; subst.
    + eapply IH; eassumption.
    + exfalso. rewrite E in *. firstorder.
    + exfalso. rewrite <- E in *. firstorder.
    + rewrite E in *. split; [eapply answers_same; eassumption|]. exists ls. auto.
Qed.
Lemma reads_rest : forall q ps ls r1 r2, reads q ls ps r1 -> reads q ls ps r2 -> r1 = r2.
Proof.
  intros q ps. induction ps as [|p ps IH]; intros ls r1 r2 H1 H2.
  - inversion H1; inversion H2; congruence.
  - destruct (reads_same q ls p ps r1 p ps r2 H1 H2 eq_refl) as [_ [mid [I1 I2]]]. exact (IH mid r1 r2 I1 I2).
Qed.
Lemma reads_none : forall q ls p ps r, no_answer (permitted q (sRequest p)) (rqDefault (sRequest p)) ls -> (ls <> [] \/ rqDefault (sRequest p) = None) ->
  ~ reads q ls (p :: ps) r.
Proof.
  intros q ls. induction ls as [|x ls IH]; intros p ps r N D H; inversion H; subst.
  - destruct D as [D|D]; congruence.
  - apply (IH p ps r); [intros l c Hl; apply N; right; exact Hl|left; assumption|assumption].
  - match goal with K : answers _ _ x _ |- _ => exact (N x _ (or_introl eq_refl) K) end.
Qed.

Section Outcome.
Variable R : Type.
Variable shuffle : list QKanji -> R -> list QKanji * R.
Variable l : Launcher.
Variable m : MemberType.
Variable gs : list Group.
Variable entry : QKanji -> bytes.
Notation Script := (script R shuffle l m gs entry).
Notation Played := (played R shuffle l m gs entry).
Notation After := (table_after R shuffle l m gs entry).
Notation Playable := (playable R shuffle l m gs entry launcherQuit).
Notation Finished := (finished R gs).
Notation Asks := (asks R l gs).

Lemma script_cons : forall t h k ks, Script t h (k :: ks) = (MkSeen h (Asks t) k :: fst (Script (fst (Played t k)) (snd (Played t k)) ks), snd (Script (fst (Played t k)) (snd (Played t k)) ks)).
Proof. intros t h k ks. cbn [script]. destruct (Played t k) as [t' x]. cbn [fst snd]. destruct (Script t' x ks). reflexivity. Qed.
Lemma playable_app : forall a b t, Playable t (a ++ b) <-> Playable t a /\ Playable (After t a) b.
Proof.
  induction a as [|k a IH]; intros b t; cbn [app playable table_after fold_left]; [tauto|]. rewrite (IH b (fst (Played t k))). fold (After (fst (Played t k)) a). tauto.
Qed.
(** of two lists of keys read from the same lines one continues the other *)
Lemma keys_prefix : forall ks1 ks2 t h ls r1 r2, reads launcherQuit ls (fst (Script t h ks1)) r1 -> reads launcherQuit ls (fst (Script t h ks2)) r2 ->
  (exists e h', ks2 = ks1 ++ e /\ reads launcherQuit r1 (fst (Script (After t ks1) h' e)) r2)
  \/ (exists e h', ks1 = ks2 ++ e /\ reads launcherQuit r2 (fst (Script (After t ks2) h' e)) r1).
Proof.
  induction ks1 as [|k1 ks1 IH]; intros ks2 t h ls r1 r2 H1 H2.
  - left. exists ks2, h. split; [reflexivity|]. inversion H1; subst. exact H2.
  - destruct ks2 as [|k2 ks2].
    + right. exists (k1 :: ks1), h. split; [reflexivity|]. inversion H2; subst. exact H1.
    + rewrite script_cons in H1, H2. cbn [fst] in H1, H2. destruct (reads_same _ _ _ _ _ _ _ _ H1 H2 eq_refl) as [E [mid [I1 I2]]]. cbn [sKey] in E. subst k2.
      destruct (IH ks2 _ _ _ _ _ I1 I2) as [[e [h' [-> K]]]|[e [h' [-> K]]]]; [left|right]; exists e, h'; (split; [reflexivity|exact K]).
Qed.

Section From.
Variable start : table R * bytes.
Variable ps0 : list seen.
Variable ls : list bytes.
Notation Completes := (completes R shuffle l m gs entry start ps0 ls).
Notation Overflows := (overflows R shuffle l m gs entry start ps0 ls).
Notation Starves := (starves R shuffle l m gs entry start ps0 ls).
Notation t0 := (fst start).

Lemma both : forall ks1 r1 ks2 r2, reads launcherQuit ls (ps0 ++ fst (Script t0 (snd start) ks1)) r1 -> reads launcherQuit ls (ps0 ++ fst (Script t0 (snd start) ks2)) r2 ->
  (exists e h', ks2 = ks1 ++ e /\ reads launcherQuit r1 (fst (Script (After t0 ks1) h' e)) r2)
  \/ (exists e h', ks1 = ks2 ++ e /\ reads launcherQuit r2 (fst (Script (After t0 ks2) h' e)) r1).
Proof.
  intros ks1 r1 ks2 r2 H1 H2. apply reads_split in H1, H2. destruct H1 as [m1 [A1 H1]]. destruct H2 as [m2 [A2 H2]].
  assert (m1 = m2) by (eapply reads_rest; eassumption). subst m2. exact (keys_prefix _ _ _ _ _ _ _ H1 H2).
Qed.
Lemma playable_more : forall t a k e, Playable t (a ++ k :: e) -> Finished (After t a) = false /\ ~ overfull R (After t a) k.
Proof. intros t a k e H. apply playable_app in H. destruct H as [_ [H1 [_ [H2 _]]]]. auto. Qed.

Lemma completes_same : forall ks1 r1 ks2 r2, Completes ks1 r1 -> Completes ks2 r2 -> ks1 = ks2 /\ r1 = r2.
Proof.
  intros ks1 r1 ks2 r2 [P1 [F1 H1]] [P2 [F2 H2]]. assert (ks1 = ks2).
  { destruct (both _ _ _ _ H1 H2) as [[[|k e] [h' [E _]]]|[[|k e] [h' [E _]]]]; subst; rewrite ?app_nil_r; try reflexivity.
    - destruct (playable_more _ _ _ _ P2). congruence.
    - destruct (playable_more _ _ _ _ P1). congruence. }
  subst ks2. split; [reflexivity|]. eapply reads_rest; eassumption.
Qed.
Lemma completes_overflows : forall ks r, Completes ks r -> Overflows -> False.
Proof.
  intros ks r [P1 [F1 H1]] [ks2 [k [r2 [P2 [F2 [_ [O H2]]]]]]]. destruct (both _ _ _ _ H1 H2) as [[e [h' [E _]]]|[e [h' [E _]]]].
  - destruct (exists_last (l := e)) as [e' [k' E']].
    + intro Z. rewrite Z, app_nil_r in E. subst ks. destruct (playable_more _ _ _ _ P1). contradiction.
    + rewrite E', app_assoc in E. apply app_inj_tail in E. destruct E as [E _]. subst ks2. destruct e' as [|k2 e']; [rewrite app_nil_r in F2; congruence|].
      destruct (playable_more _ _ _ _ P2). congruence.
  - subst ks. rewrite <- app_assoc in P1. destruct (playable_more _ _ _ _ P1). contradiction.
Qed.
Lemma completes_starves : forall ks r, Completes ks r -> Starves -> False.
Proof.
  intros ks r [P1 [F1 H1]] [ks2 [r2 [P2 [F2 [H2 [NA D]]]]]]. destruct (both _ _ _ _ H1 H2) as [[[|k e] [h' [E K]]]|[[|k e] [h' [E K]]]]; subst.
  - rewrite app_nil_r in F2. congruence.
  - destruct (playable_more _ _ _ _ P2). congruence.
  - rewrite app_nil_r in F1. congruence.
  - rewrite script_cons in K. cbn [fst] in K. revert K; apply reads_none; [exact NA|exact D].
Qed.
Lemma overflows_starves : Overflows -> Starves -> False.
Proof.
  intros [ks1 [k [r1 [P1 [F1 [_ [O H1]]]]]]] [ks2 [r2 [P2 [F2 [H2 [NA D]]]]]]. destruct (both _ _ _ _ H1 H2) as [[e [h' [E K]]]|[[|k' e] [h' [E K]]]]; subst.
  - rewrite <- app_assoc in P2. destruct (playable_more _ _ _ _ P2). contradiction.
  - rewrite app_nil_r in E. subst ks2. destruct (playable_more _ _ _ _ P2). contradiction.
  - rewrite script_cons in K. cbn [fst] in K. revert K; apply reads_none; [exact NA|exact D].
Qed.
End From.

(** ** Members shown *)
Hypothesis Hshuffle : shuffles shuffle.
Lemma moved_members : forall t p, p < len gs -> shows_members R m gs (moved R shuffle l m gs t p).
Proof.
  intros t p H. destruct (nth_error gs (N.to_nat p)) as [g|] eqn:Hg; [|apply nth_error_None in Hg; unfold len in H; lia].
  pose proof (dealt_facts R shuffle l m gs Hshuffle p (tRng R t) g Hg) as [P1 P2]. unfold moved. destruct (dealt R shuffle l m gs p (tRng R t)) as [[q x] r].
  exists g. split; [exact Hg|]. exists (filter (includeMember m) (gMembers g)). split; [exact P1|]. split; [exact P2|].
  intro k. rewrite filter_In, included_iff. tauto.
Qed.
Lemma settled_members : forall n t, shows_members R m gs t -> let t' := fst (settled R shuffle l m gs entry n t) in
  (n = 0%nat \/ Finished t' = true \/ tPos R t' < len gs) /\ (Finished t' = true \/ shows_members R m gs t').
Proof.
  induction n as [|n IH]; intros t H; cbv zeta; cbn [settled]; [auto|]. destruct (Finished t) eqn:F; [cbn [fst]; auto|].
  destruct (tQuestions R t) as [|q qs] eqn:Q.
  - destruct (judged R gs t) as [t1 x] eqn:J. destruct (settled R shuffle l m gs entry n (moved R shuffle l m gs t1 (tPos R t1 + 1))) as [t2 y] eqn:S. cbn [fst].
    destruct (N.lt_ge_cases (tPos R t1 + 1) (len gs)) as [L|L].
    + specialize (IH _ (moved_members t1 _ L)). rewrite S in IH. cbn [fst] in IH. destruct IH as [I1 I2]. split; [|exact I2].
      destruct I1 as [I1|I1]; [|right; exact I1]. subst n. cbn [settled] in S. injection S as <- _. right. right.
      unfold moved. destruct (dealt R shuffle l m gs (tPos R t1 + 1) (tRng R t1)) as [[a b] c]. exact L.
    + assert (X : Finished (moved R shuffle l m gs t1 (tPos R t1 + 1)) = true).
      { unfold moved. destruct (dealt R shuffle l m gs (tPos R t1 + 1) (tRng R t1)) as [[a b] c]. unfold finished. cbn [tQuit tPos]. replace (len gs <=? tPos R t1 + 1) with true by lia. apply orb_true_r. }
      assert (t2 = moved R shuffle l m gs t1 (tPos R t1 + 1)) by (destruct n; cbn [settled] in S; [|rewrite X in S]; congruence). subst t2. auto.
  - cbn [fst]. split; [|auto]. right. right. unfold finished in F. apply orb_false_elim in F. destruct F as [_ F]. apply N.leb_gt in F. exact F.
Qed.
Lemma opened_members : forall t p, Finished (fst (opened R shuffle l m gs entry t p)) = true \/ shows_members R m gs (fst (opened R shuffle l m gs entry t p)).
Proof.
  intros t p. unfold opened. destruct (N.lt_ge_cases p (len gs)) as [L|L].
  - apply (settled_members _ _ (moved_members t p L)).
  - left. cbn [settled].
    assert (X : Finished (moved R shuffle l m gs t p) = true).
    { unfold moved. destruct (dealt R shuffle l m gs p (tRng R t)) as [[a b] c]. unfold finished. cbn [tQuit tPos]. replace (len gs <=? p) with true by lia. apply orb_true_r. }
    rewrite X. exact X.
Qed.
Lemma played_members : forall t k, shows_members R m gs t -> Finished (fst (Played t k)) = true \/ shows_members R m gs (fst (Played t k)).
Proof.
  intros t k H. assert (S : forall t', tPos R t' = tPos R t -> tQuestions R t' = tQuestions R t -> tReadings R t' = tReadings R t -> shows_members R m gs t').
  { intros t' E1 E2 E3. unfold shows_members. rewrite E1, E2, E3. exact H. }
  unfold played. destruct (tPhase R t) as [| |e].
  - destruct (k =? 47); [right; apply S; reflexivity|]. destruct (k =? 45); [right; apply S; reflexivity|]. destruct (k =? 39); [right; exact H|].
    destruct (k =? 44); [apply opened_members|]. destruct (k =? 46); [apply opened_members|]. destruct (k =? 42); [right; apply S; reflexivity|].
    cbv zeta. destruct (length _ <? _)%nat; [right; apply S; reflexivity|].
    destruct (judged R gs (with_sheet R t (tSheet R t ++ [k]) Choosing)) as [t1 x]. pose proof (opened_members t1 (tPos R t1 + 1)) as K.
    destruct (opened R shuffle l m gs entry t1 (tPos R t1 + 1)) as [t2 y]. exact K.
  - right. apply S; reflexivity.
  - right. apply S; reflexivity.
Qed.
Lemma after_members : forall ks t, Playable t ks -> Finished t = true \/ shows_members R m gs t -> Finished (After t ks) = true \/ shows_members R m gs (After t ks).
Proof.
  induction ks as [|k ks IH]; intros t P H; cbn [table_after fold_left]; [exact H|]. destruct P as [F [_ [_ P]]].
  apply IH; [exact P|]. apply played_members. destruct H as [H|H]; [congruence|exact H].
Qed.
End Outcome.

(** ** The part of the list for a key *)
Lemma split_unique : forall (M : Group -> Prop) pre1 rest1 pre2 rest2, pre1 ++ rest1 = pre2 ++ rest2 ->
  Forall (fun g => ~ M g) pre1 -> Forall (fun g => ~ M g) pre2 ->
  match rest1 with [] => True | g :: _ => M g end -> match rest2 with [] => True | g :: _ => M g end -> rest1 = rest2 /\ pre1 = pre2.
Proof.
  intros M. induction pre1 as [|a pre1 IH]; intros rest1 pre2 rest2 E F1 F2 M1 M2.
  - destruct pre2 as [|b pre2]; [cbn [app] in E; auto|]. cbn [app] in E. subst rest1. inversion F2; subst. contradiction.
  - destruct pre2 as [|b pre2]; cbn [app] in E.
    + subst rest2. inversion F1; subst. contradiction.
    + injection E as -> E. inversion F1; subst. inversion F2; subst. destruct (IH _ _ _ E H2 H4 M1 M2) as [-> ->]. auto.
Qed.
Lemma part_unique : forall key lst p1 p2, part_for key lst p1 -> part_for key lst p2 -> p1 = p2.
Proof.
  intros key lst p1 p2 [pre1 [post1 [E1 [A1 B1]]]] [pre2 [post2 [E2 [A2 B2]]]].
  assert (T : p1 ++ post1 = p2 ++ post2 /\ match mark_of key with None => True | Some _ => match p1, p2 with [], [] => True | _ :: _, _ :: _ => True | _, _ => False end end).
  { destruct (mark_of key) as [mk|].
    - destruct A1 as [A1 C1]. destruct A2 as [A2 C2].
      destruct (split_unique (marked mk) pre1 (p1 ++ post1) pre2 (p2 ++ post2)) as [X _]; [congruence|exact A1|exact A2| | |].
      + destruct p1; [subst post1; exact I|exact C1].
      + destruct p2; [subst post2; exact I|exact C2].
      + split; [exact X|]. destruct p1, p2; try exact I; subst; discriminate.
    - subst pre1 pre2. cbn [app] in *. split; [congruence|exact I]. }
  destruct T as [T1 T2]. destruct (mark_of (key + 1)) as [mk|].
  - destruct B1 as [B1 D1]. destruct B2 as [B2 D2]. destruct (mark_of key).
    + destruct p1 as [|a p1], p2 as [|a2 p2]; try contradiction; [reflexivity|]. cbn [tl app] in *. injection T1 as -> T1.
      destruct (split_unique (marked mk) p1 post1 p2 post2 T1 B1 B2 D1 D2) as [_ ->]. reflexivity.
    + destruct (split_unique (marked mk) p1 post1 p2 post2 T1 B1 B2 D1 D2) as [_ ->]. reflexivity.
  - subst post1 post2. rewrite !app_nil_r in T1. exact T1.
Qed.
Lemma starts_same : forall R shuffleGroups l m lst r ls ps1 gs1 r1 q1 ps2 gs2 r2 q2,
  starts R shuffleGroups l m lst r ps1 gs1 r1 -> reads launcherQuit ls ps1 q1 -> starts R shuffleGroups l m lst r ps2 gs2 r2 -> reads launcherQuit ls ps2 q2 ->
  ps1 = ps2 /\ gs1 = gs2 /\ r1 = r2.
Proof.
  intros R shuffleGroups l m lst r ls ps1 gs1 r1 q1 ps2 gs2 r2 q2 S1 H1 S2 H2.
  assert (A : forall kept a b a' b', arranged R shuffleGroups l kept r a b -> arranged R shuffleGroups l kept r a' b' -> a = a' /\ b = b').
  { intros kept a b a' b' X Y. unfold arranged in *. destruct (questionOrder l); try (destruct X, Y; split; congruence). rewrite <- X in Y. injection Y as -> ->. auto. }
  destruct S1 as [g1 rest1 gs1 r1 E1 T1 A1|g1 rest1 k1 part1 gs1 r1 E1 T1 K1 P1 A1]; destruct S2 as [g2 rest2 gs2 r2 E2 T2 A2|g2 rest2 k2 part2 gs2 r2 E2 T2 K2 P2 A2]; try congruence.
  - destruct (A _ _ _ _ _ A1 A2). auto.
  - destruct (reads_same _ _ _ _ _ _ _ _ H1 H2 eq_refl) as [E _]. cbn [sKey] in E. subst k2. rewrite (part_unique _ _ _ _ P1 P2) in A1. destruct (A _ _ _ _ _ A1 A2). auto.
Qed.

(** ** The outcome *)
Section Runs.
Variable R : Type.
Variable shuffleGroups : list Group -> R -> list Group * R.
Variable shuffle : list QKanji -> R -> list QKanji * R.
Variable other : GroupType -> bytes -> option N.
Variable l : Launcher.
Variable question : N.
Variable m0 : bool.
Variable m : MemberType.
Variable lst : list Group.
Variable entry : QKanji -> bytes.
Variable i0 : istream.
Variable r0 : R.
Variable ls0 : list bytes.
Hypothesis Hfit : groups_fit shuffleGroups shuffle other l question m lst entry.
Hypothesis Hls : lines_left i0 ls0.
Notation run fuel := (groupQuiz R shuffleGroups shuffle other fuel l question m0 lst m i0 r0).
Notation printed s := (snd (transcript [] (events R s))).
Notation prompts s := (fst (transcript [] (events R s))).

Variable g : Group.
Hypothesis Hg : hd_error lst = Some g.
Variable ps0 : list seen.
Variable gs : list Group.
Variable r' : R.
Variable rest0 : list bytes.
Hypothesis Hstart : starts R shuffleGroups l m lst r0 ps0 gs r'.
Hypothesis Hread : reads launcherQuit ls0 ps0 rest0.
Hypothesis Hq : question <= len gs.
Notation start := (starting R shuffle l m gs entry (gType g) question m0 r').

Lemma run_ends : forall fuel, ends R shuffle l question m0 m entry ls0 (gType g) ps0 gs r' fuel (run fuel).
Proof.
  intro fuel. destruct (whole R shuffleGroups shuffle other l question m0 m lst entry i0 r0 ls0 Hfit Hls fuel) as [[E _]|[g1 [rest1 [E W]]]].
  { rewrite E in Hg. discriminate. }
  rewrite E in Hg. injection Hg as ->. destruct W as [[Ty W]|[ps1 [gs1 [r1 [S1 [[q1 RD1] W]]]]]].
  - exfalso. destruct Hstart as [g1 rest2 gs1 r1 E1 T1 A1|g1 rest2 k1 part1 gs1 r1 E1 T1 K1 P1 A1].
    + rewrite E in E1. injection E1 as <- _. congruence.
    + destruct W as [[_ [NE NA]]|[s' [rst [_ [W1 [_ [_ W2]]]]]]].
      * revert Hread. apply reads_none; [exact NA|left; exact NE].
      * rewrite W1 in W2. destruct (reads_same _ _ _ _ _ _ _ _ W2 Hread eq_refl) as [X _]. cbn [sKey] in X. lia.
  - destruct (starts_same _ _ _ _ _ _ _ _ _ _ _ _ _ _ _ S1 RD1 Hstart Hread) as [-> [-> ->]]. destruct W as [[W _]|[_ W]]; [lia|exact W].
Qed.

Lemma fuel_enough : exists fuel0, forall fuel, (fuel0 <= fuel)%nat ->
  (run fuel = NoReturn /\ starves R shuffle l m gs entry start ps0 ls0)
  \/ (run fuel = Undefined /\ overflows R shuffle l m gs entry start ps0 ls0)
  \/ exists ks rest s', run fuel = Ok tt s' /\ completes R shuffle l m gs entry start ps0 ls0 ks rest
       /\ prompts s' = ps0 ++ fst (script R shuffle l m gs entry (fst start) (snd start) ks)
       /\ printed s' = snd (script R shuffle l m gs entry (fst start) (snd start) ks) ++ group_score (isQuizMode l) question (table_after R shuffle l m gs entry (fst start) ks) ks
       /\ lines_left (input R s') rest.
Proof.
  exists (S ((2 * length ls0 + 1) * (length gs + 2) + length gs + 2))%nat. intros fuel Hf. destruct (run_ends fuel) as [[E W]|[[E W]|[ks [rest [s' [E [W1 [W2 [W3 [W4 [W5 W6]]]]]]]]]]].
  - left. split; [exact E|]. destruct W as [W|W]; [exact W|lia].
  - right. left. split; [exact E|exact W].
  - right. right. exists ks, rest, s'. split; [exact E|]. split; [|auto]. split; [exact W1|]. split; [exact W2|]. rewrite <- W3. exact W6.
Qed.
Lemma outcome : exists fuel0, forall fuel, (fuel0 <= fuel)%nat ->
  (starves R shuffle l m gs entry start ps0 ls0 /\ run fuel = NoReturn)
  \/ (overflows R shuffle l m gs entry start ps0 ls0 /\ run fuel = Undefined)
  \/ exists ks rest s', completes R shuffle l m gs entry start ps0 ls0 ks rest /\ run fuel = Ok tt s'
       /\ prompts s' = ps0 ++ fst (script R shuffle l m gs entry (fst start) (snd start) ks)
       /\ printed s' = snd (script R shuffle l m gs entry (fst start) (snd start) ks) ++ group_score (isQuizMode l) question (table_after R shuffle l m gs entry (fst start) ks) ks
       /\ lines_left (input R s') rest.
Proof.
  destruct fuel_enough as [f H]. exists f. intros fuel Hf. destruct (H fuel Hf) as [[A B]|[[A B]|[ks [rest [s' [A [B C]]]]]]]; [tauto|tauto|].
  right. right. exists ks, rest, s'. auto.
Qed.
(** the tables met *)
Lemma tables_sound : forall ks, playable R shuffle l m gs entry launcherQuit (fst start) ks ->
  let t := table_after R shuffle l m gs entry (fst start) ks in
  finished R gs t = true \/ (shows_members R m gs t /\ sound_sheet R t).
Proof.
  intros ks P t. destruct lst as [|g1 rest] eqn:EL; [discriminate|]. injection Hg as ->.
  destruct (fit_groups R shuffleGroups shuffle other l question m (g :: rest) entry r0 Hfit ps0 gs r' g rest Hstart eq_refl) as [G1 [G2 G3]]. destruct Hfit as [_ [F2 _]].
  assert (X1 : fst start = fst (opened R shuffle l m gs entry (empty_table R question m0 r') (question - 1))).
  { unfold starting. destruct (opened R shuffle l m gs entry (empty_table R question m0 r') (question - 1)). reflexivity. }
  destruct (opened_facts R shuffle other l (gType g) m gs entry F2 G1 G2 G3 _ (empty_table R question m0 r') (question - 1) (question - 1) eq_refl eq_refl) as [O1 [O2 [O3 O4]]]; [lia|].
  rewrite <- X1 in *. cbn [empty_table tRight tWrong] in O4. change (len (@nil bytes)) with 0 in O4. specialize (O4 ltac:(lia)).
  destruct (playable_facts R shuffle other l (gType g) m gs entry F2 G1 G2 G3 ks (fst start) (question - 1)) as [Q1 _]; [destruct O3 as [[O3 _]|[O3 _]]; [left|right]; exact O3|lia|intros _; exact O4|exact P|].
  destruct (finished R gs t) eqn:F; [left; reflexivity|right]. fold t in Q1. destruct Q1 as [Q1|Q1]; [congruence|]. split.
  - destruct (after_members R shuffle l m gs entry F2 ks (fst start) P) as [K|K]; [|fold t in K; congruence|exact K].
    rewrite X1. apply opened_members. exact F2.
  - split; [exact (W_nodup _ _ _ _ _ _ _ Q1)|]. split; [exact (W_incl _ _ _ _ _ _ _ Q1)|exact (W_short _ _ _ _ _ _ _ Q1)].
Qed.
(** the numbers of the score *)
Lemma score_adds : forall ks, isQuizMode l = true -> playable R shuffle l m gs entry launcherQuit (fst start) ks ->
  let t := table_after R shuffle l m gs entry (fst start) ks in
  tRight R t + len (tWrong R t) + (question - 1 + skips ks) = tPos R t /\ tPos R t <= len gs.
Proof.
  intros ks Q P t. destruct lst as [|g1 rest] eqn:EL; [discriminate|]. injection Hg as ->.
  destruct (fit_groups R shuffleGroups shuffle other l question m (g :: rest) entry r0 Hfit ps0 gs r' g rest Hstart eq_refl) as [G1 [G2 G3]]. destruct Hfit as [_ [F2 _]].
  assert (X1 : fst start = fst (opened R shuffle l m gs entry (empty_table R question m0 r') (question - 1))).
  { unfold starting. destruct (opened R shuffle l m gs entry (empty_table R question m0 r') (question - 1)). reflexivity. }
  destruct (opened_facts R shuffle other l (gType g) m gs entry F2 G1 G2 G3 _ (empty_table R question m0 r') (question - 1) (question - 1) eq_refl eq_refl) as [O1 [O2 [O3 O4]]]; [lia|].
  rewrite <- X1 in *. cbn [empty_table tRight tWrong] in O4. change (len (@nil bytes)) with 0 in O4. specialize (O4 ltac:(lia)).
  destruct (playable_facts R shuffle other l (gType g) m gs entry F2 G1 G2 G3 ks (fst start) (question - 1)) as [_ [Q2 Q3]]; [destruct O3 as [[O3 _]|[O3 _]]; [left|right]; exact O3|lia|intros _; exact O4|exact P|].
  specialize (Q3 Q). fold t in Q2, Q3. split; [lia|exact Q2].
Qed.
End Runs.
