(** Proofs about whole group quizzes: which groups and members they show, the score, and how they end. *)
From Verif Require Import BaseFacts Utf8Proofs BlockProofs StringProofs KanjiProofs DisplayProofs.
From Verif Require Export GroupProofs QuizWhole GroupQuizSpec.
Open Scope N_scope.
Arguments N.add : simpl never.
Arguments N.sub : simpl never.
Arguments N.mul : simpl never.
Arguments u16 : simpl never.
Arguments u64 : simpl never.

(** ** Members *)
Lemma included_iff : forall m k, includeMember m k = true <-> included m k.
Proof.
  intros m k. unfold includeMember, included, hasReading, hasLevel. destruct (qReading k) as [|b r]; cbn [nonEmpty andb].
  { split; [discriminate|]. intros [H _]. congruence. }
  assert (F : negb (kFrequency (qKanji k) =? 0) = true <-> kFrequency (qKanji k) <> 0) by (destruct (kFrequency (qKanji k) =? 0) eqn:E; cbn [negb]; split; intros; (discriminate || lia)).
  destruct (kType (qKanji k)), m, (kLevel (qKanji k)); cbn [memberRank orb andb] in *;
    change (0 <? 0) with false; change (0 <? 1) with true; change (0 <? 2) with true; change (0 <? 3) with true;
    change (1 <? 0) with false; change (1 <? 1) with false; change (1 <? 2) with true; change (1 <? 3) with true;
    change (2 <? 0) with false; change (2 <? 1) with false; change (2 <? 2) with false; change (2 <? 3) with true;
    cbn [orb andb]; rewrite ?orb_false_r, ?orb_true_r, ?F; intuition congruence.
Qed.

Lemma starts_iff : forall sub s, startsWith sub s = true <-> exists b, s = sub ++ b.
Proof.
  induction sub as [|x sub IH]; intros s; cbn [startsWith app]; [split; eauto|]. destruct s as [|y s]; [split; [discriminate|intros [b H]; discriminate]|].
  rewrite andb_true_iff, IH, N.eqb_eq. split.
  - intros [-> [b ->]]. exists b. reflexivity.
  - intros [b H]. injection H as -> ->. eauto.
Qed.
Lemma contains_iff : forall sub s, contains sub s = true <-> exists a b, s = a ++ sub ++ b.
Proof.
  intros sub. induction s as [|y s IH]; cbn [contains]; rewrite orb_true_iff, starts_iff.
  - split; [intros [[b H]|H]; [exists [], b; exact H|discriminate]|]. intros [a [b H]]. left. exists b. destruct a; [exact H|discriminate].
  - rewrite IH. split.
    + intros [[b H]|[a [b ->]]]; [exists [], b; exact H|exists (y :: a), b; reflexivity].
    + intros [[|z a] [b H]]; [left; exists b; exact H|]. injection H as <- ->. right. eauto.
Qed.
Lemma marked_iff : forall mk g, contains mk (gName g) = true <-> marked mk g.
Proof. intros. apply contains_iff. Qed.

(** ** Groups *)
Lemma keep_all : forall m lst, keepGroups m None true lst = filter (worth m) lst.
Proof. induction lst as [|g lst IH]; [reflexivity|]. cbn [keepGroups filter]. rewrite IH. unfold worth at 2. reflexivity. Qed.
Definition mark_at (i : N) : bytes := nth (N.to_nat i) PatternGroups [].
Lemma keep_up : forall m b lst, exists part post, lst = part ++ post /\ keepGroups m (Some b) true lst = filter (worth m) part
  /\ (if b <? len PatternGroups then Forall (fun g => ~ marked (mark_at b) g) part /\ (match post with [] => True | g :: _ => marked (mark_at b) g end) else post = []).
Proof.
  intros m b lst. induction lst as [|g lst IH].
  { exists [], []. split; [reflexivity|]. split; [reflexivity|]. destruct (b <? len PatternGroups); [split; [constructor|exact I]|reflexivity]. }
  cbn [keepGroups]. change (nth (N.to_nat b) PatternGroups []) with (mark_at b). destruct ((b <? len PatternGroups) && contains (mark_at b) (gName g)) eqn:E.
  - apply andb_prop in E. destruct E as [E1 E2]. exists [], (g :: lst). rewrite E1. split; [reflexivity|]. split; [reflexivity|]. split; [constructor|]. apply marked_iff. exact E2.
  - destruct IH as [part [post [E1 [E2 E3]]]]. exists (g :: part), post. split; [rewrite E1; reflexivity|]. split; [cbn [filter]; rewrite E2; unfold worth at 2; reflexivity|].
    destruct (b <? len PatternGroups); [|exact E3]. destruct E3 as [E3 E4]. split; [|exact E4]. constructor; [|exact E3]. intro K. apply marked_iff in K. rewrite K in E. discriminate.
Qed.
Lemma keep_from : forall m b lst, exists pre part post, lst = pre ++ part ++ post /\ keepGroups m (Some b) false lst = filter (worth m) part
  /\ Forall (fun g => ~ marked (mark_at (b - 1)) g) pre /\ (match part with [] => post = [] | g :: _ => marked (mark_at (b - 1)) g end)
  /\ (if b <? len PatternGroups then Forall (fun g => ~ marked (mark_at b) g) (tl part) /\ (match post with [] => True | g :: _ => marked (mark_at b) g end) else post = []).
Proof.
  intros m b lst. induction lst as [|g lst IH].
  { exists [], [], []. split; [reflexivity|]. split; [reflexivity|]. split; [constructor|]. split; [reflexivity|]. destruct (b <? len PatternGroups); [split; [constructor|exact I]|reflexivity]. }
  cbn [keepGroups]. change (nth (N.to_nat (b - 1)) PatternGroups []) with (mark_at (b - 1)). destruct (contains (mark_at (b - 1)) (gName g)) eqn:E.
  - destruct (keep_up m b lst) as [part [post [E1 [E2 E3]]]]. exists [], (g :: part), post. split; [rewrite E1; reflexivity|].
    split; [cbn [filter]; rewrite E2; unfold worth at 2; reflexivity|]. split; [constructor|]. split; [apply marked_iff; exact E|]. exact E3.
  - destruct IH as [pre [part [post [E1 [E2 [E3 E4]]]]]]. exists (g :: pre), part, post. split; [rewrite E1; reflexivity|]. split; [exact E2|]. split; [|exact E4].
    constructor; [|exact E3]. intro K. apply marked_iff in K. congruence.
Qed.
Lemma keep_part : forall m key lst, 49 <= key <= 54 ->
  exists part, part_for key lst part /\ keepGroups m (Some (key - 49)) (key - 49 =? 0) lst = filter (worth m) part.
Proof.
  intros m key lst H. assert (C : key = 49 \/ key = 50 \/ key = 51 \/ key = 52 \/ key = 53 \/ key = 54) by lia.
  unfold part_for. destruct C as [C|[C|[C|[C|[C|C]]]]]; subst key;
    match goal with |- context [keepGroups m (Some (?a - 49)) _ lst] => let b := eval vm_compute in (a - 49) in change (a - 49) with b; let c := eval vm_compute in (b =? 0) in change (b =? 0) with c end.
  - destruct (keep_up m 0 lst) as [part [post [E1 [E2 E3]]]]. exists part. split; [|exact E2]. exists [], post. split; [exact E1|]. split; [reflexivity|exact E3].
  - destruct (keep_from m 1 lst) as [pre [part [post [E1 [E2 [E3 [E4 E5]]]]]]]. exists part. split; [|exact E2]. exists pre, post. split; [exact E1|]. split; [split; [exact E3|exact E4]|exact E5].
  - destruct (keep_from m 2 lst) as [pre [part [post [E1 [E2 [E3 [E4 E5]]]]]]]. exists part. split; [|exact E2]. exists pre, post. split; [exact E1|]. split; [split; [exact E3|exact E4]|exact E5].
  - destruct (keep_from m 3 lst) as [pre [part [post [E1 [E2 [E3 [E4 E5]]]]]]]. exists part. split; [|exact E2]. exists pre, post. split; [exact E1|]. split; [split; [exact E3|exact E4]|exact E5].
  - destruct (keep_from m 4 lst) as [pre [part [post [E1 [E2 [E3 [E4 E5]]]]]]]. exists part. split; [|exact E2]. exists pre, post. split; [exact E1|]. split; [split; [exact E3|exact E4]|exact E5].
  - destruct (keep_from m 5 lst) as [pre [part [post [E1 [E2 [E3 [E4 E5]]]]]]]. exists part. split; [|exact E2]. exists pre, post. split; [exact E1|]. split; [split; [exact E3|exact E4]|exact E5].
Qed.
Lemma part_incl : forall key lst part, part_for key lst part -> incl part lst /\ len part <= len lst.
Proof.
  intros key lst part [pre [post [-> _]]]. split; [intros x Hx; apply in_or_app; right; apply in_or_app; left; exact Hx|].
  unfold len. rewrite !app_length. lia.
Qed.

(** ** What is shown of a member *)
Lemma ascii_size : forall s, Forall (fun b => 32 <= b <= 126) s -> displaySize s = Val (len s) /\ bytes_ok s /\ no_nul s /\ boundary s.
Proof.
  intros s H. assert (T : s = text s).
  { induction H as [|b s Hb _ IH]; [reflexivity|]. unfold text. cbn [flat_map]. fold (text s). rewrite <- IH. unfold enc. replace (b <? 128) with true by lia. reflexivity. }
  assert (C : chars s).
  { eapply Forall_impl; [|exact H]. intros b Hb. cbn beta in Hb. split; [|lia]. unfold scalar. lia. }
  assert (Z : DisplaySpec.total s (len s)).
  { clear -H. induction H as [|b s Hb _ IH]; [constructor|]. replace (len (b :: s)) with (1 + len s) by (unfold len; cbn [length]; lia). constructor; [|exact IH].
    destruct (japanese_columns b) as [_ [K _]]. apply K. unfold within. lia. }
  split; [rewrite T at 1; apply size_text; assumption|]. split; [rewrite T; apply text_ok; exact C|]. split.
  - apply Forall_forall. intros b Hb. rewrite Forall_forall in H. specialize (H b Hb). cbn beta in H. lia.
  - destruct H as [|b s Hb _]; [exact I|]. cbn [boundary]. lia.
Qed.
Lemma ascii_lit : forall s, forallb (fun b => (32 <=? b) && (b <=? 126)) s = true -> Forall (fun b => 32 <= b <= 126) s.
Proof. intros s H. apply Forall_forall. intros b Hb. rewrite forallb_forall in H. specialize (H b Hb). cbn beta in H. lia. Qed.
Definition Sized (s : bytes) (n : N) : Prop := bytes_ok s /\ no_nul s /\ boundary s /\ displaySize s = Val n.
Lemma sized_app : forall a b x y, Sized a x -> Sized b y -> Sized (a ++ b) (x + y).
Proof.
  intros a b x y [A1 [A2 [A3 A4]]] [B1 [B2 [B3 B4]]]. split; [apply Forall_app; split; assumption|]. split; [apply Forall_app; split; assumption|]. split.
  - destruct a; [exact B3|exact A3].
  - apply size_app; assumption.
Qed.
Lemma sized_ascii : forall s, Forall (fun b => 32 <= b <= 126) s -> Sized s (len s).
Proof. intros s H. destruct (ascii_size s H) as [A [B [C D]]]. split; [exact B|]. split; [exact C|]. split; assumption. Qed.
Lemma text_boundary : forall cs, chars cs -> boundary (text cs).
Proof.
  intros cs H. destruct H as [|c cs [Hc Hz] _]; [exact I|]. unfold text. cbn [flat_map]. unfold enc.
  destruct (c <? 128) eqn:E1; [cbn [app boundary]; lia|]. destruct (c <? 2048) eqn:E2; [cbn [app boundary]; lia|]. destruct (c <? 65536); cbn [app boundary]; lia.
Qed.
Lemma sized_text : forall cs n, chars cs -> DisplaySpec.total cs n -> Sized (text cs) n.
Proof.
  intros cs n H T. split; [apply text_ok; exact H|]. split; [apply text_no_nul; exact H|]. split; [apply text_boundary; exact H|]. apply size_text; assumption.
Qed.
Lemma sized_blanks : forall n, Sized (blanks n) n.
Proof.
  intro n. replace n with (len (blanks n)) at 2 by (unfold blanks, len; rewrite repeat_length; lia). apply sized_ascii. apply Forall_forall. intros b Hb. apply repeat_spec in Hb. subst. lia.
Qed.
Lemma sized_val : forall s n, Sized s n -> displaySize s = Val n.
Proof. intros s n H. apply H. Qed.
Lemma entry_spec : forall other l ty k e, entry_shown other (isQuizMode l) ty k e -> entryText other l ty k = Val e.
Proof.
  intros other l ty k e [c [cs [n [ps [p [G [C1 [Nm [T1 [C2 [Pn [T2 [P8 [E L]]]]]]]]]]]]]].
  unfold entryText. destruct (qualifiedName_spec (qKanji k)) as [c' [G' Q]]. rewrite G in G'. injection G' as <-. rewrite Q. cbn [obind].
  assert (Hc : Sized [c] 1).
  { apply (sized_ascii [c]). constructor; [|constructor]. clear -G. unfold KanjiSpec.group in G.
    destruct (kType (qKanji k)), (hasLevel (qKanji k)), (0 <? kFrequency (qKanji k)); try (injection G as <-; lia); destruct (kKyu (qKanji k)); injection G as <-; lia. }
  set (B := match ps with [] => blanks 12 | _ => b_ "  (" ++ text ps ++ b_ ")" ++ blanks (8 - p) end) in *.
  assert (HB : Sized B 12 /\ pinyinText (qKanji k) = Val B).
  { unfold pinyinText. rewrite Pn. destruct ps as [|x ps].
    - split; [apply sized_blanks|reflexivity].
    - assert (NE : nonEmpty (text (x :: ps)) = true).
      { unfold text. cbn [flat_map]. unfold enc. destruct (x <? 128); [reflexivity|]. destruct (x <? 2048); [reflexivity|]. destruct (x <? 65536); reflexivity. }
      rewrite NE. cbv zeta. assert (S1 : Sized (b_ "  (" ++ text (x :: ps) ++ b_ ")") (p + 4)).
      { replace (p + 4) with (3 + (p + 1)) by lia. apply sized_app; [apply (sized_ascii (b_ "  (")), ascii_lit; reflexivity|]. apply sized_app; [apply sized_text; assumption|].
        apply (sized_ascii (b_ ")")), ascii_lit. reflexivity. }
      rewrite (sized_val _ _ S1). cbn [obind]. unfold PinyinWidth. replace (12 <? p + 4) with false by lia. replace (12 - (p + 4)) with (8 - p) by lia. split.
      + unfold B. replace (b_ "  (" ++ text (x :: ps) ++ b_ ")" ++ blanks (8 - p)) with ((b_ "  (" ++ text (x :: ps) ++ b_ ")") ++ blanks (8 - p)) by (rewrite <- !app_assoc; reflexivity).
        replace 12 with (p + 4 + (8 - p)) by lia. apply sized_app; [exact S1|apply sized_blanks].
      + f_equal. unfold B, blanks. rewrite <- !app_assoc. reflexivity. }
  destruct HB as [HB EB]. rewrite EB. cbn [obind]. cbv zeta.
  assert (EO : (if isQuizMode l then [] else otherText other ty (qName k)) = other_text other (isQuizMode l) ty k).
  { unfold other_text, otherText. destruct (isQuizMode l); [reflexivity|]. destruct (other ty (qName k)); [|reflexivity]. destruct ty; reflexivity. }
  rewrite EO. set (O := other_text other (isQuizMode l) ty k) in *.
  assert (HO : Sized O (len O)).
  { apply sized_ascii. unfold O, other_text. destruct (isQuizMode l); [constructor|]. destruct (other ty (qName k)) as [x|]; [|constructor].
    apply Forall_app. split; [destruct ty; apply ascii_lit; reflexivity|]. eapply Forall_impl; [|apply to_string_digits]. intros b Hb. unfold is_digit in Hb. lia. }
  unfold qName in Nm. rewrite Nm. set (s := (text cs ++ [c]) ++ B ++ O).
  assert (HS : Sized s (n + 13 + len O)).
  { replace (n + 13 + len O) with (n + 1 + (12 + len O)) by lia. unfold s. apply sized_app; [apply sized_app; [apply sized_text; assumption|exact Hc]|]. apply sized_app; assumption. }
  assert (ES : e = s ++ blanks (22 - (n + 13 + len O))).
  { rewrite E. unfold s. rewrite <- !app_assoc. reflexivity. }
  destruct HS as [S1 [S2 [S3 S4]]].
  destruct (wideSetw_pads true s 22 _ S1 S2 S3 S4) as [w [W1 [_ W3]]].
  { rewrite ES in L. rewrite len_app in L. change (2 ^ 30) with 1073741824 in L. change (2 ^ 31) with 2147483648. lia. }
  unfold GroupEntryWidth. rewrite W1. cbn [obind]. rewrite W3, ES. reflexivity.
Qed.

(** ** The whole quiz *)
Section Whole.
Variable R : Type.
Variable shuffleGroups : list Group -> R -> list Group * R.
Variable shuffle : list QKanji -> R -> list QKanji * R.
Variable other : GroupType -> bytes -> option N.
Variable l : Launcher.
Variable question : N.
Variable m0 : bool.
Variable m : MemberType.
Variable lst : list Group.
Variable entry : QKanji -> bytes.
Variable i0 : istream.
Variable r0 : R.
Variable ls0 : list bytes.
Hypothesis Hfit : groups_fit shuffleGroups shuffle other l question m lst entry.
Hypothesis Hls : lines_left i0 ls0.
Notation State := (State R).
Implicit Type s : State.
Notation printed s := (snd (transcript [] (events R s))).
Notation prompts s := (fst (transcript [] (events R s))).
Notation run fuel := (groupQuiz R shuffleGroups shuffle other fuel l question m0 lst m i0 r0).

Definition refusal_score : bytes := if isQuizMode l then score_text 0 question question [] else [].

(** a quiz that ends before the first group *)
Lemma early : forall s, current R s = question -> correctAnswers R s = 0 -> mistakes R s = [] ->
  Printed R refusal_score s (finalScore R l s).
Proof.
  intros s C1 C2 C3. unfold refusal_score. destruct (isQuizMode l) eqn:Q.
  - destruct Hfit as [_ [_ [_ [_ [F _]]]]]. pose proof (final_text R l s question Q) as K. rewrite C1, C2, C3 in K. apply K; [exact F|]. change (len (@nil bytes)) with 0. lia.
  - unfold finalScore. rewrite Q. apply Printed_refl.
Qed.

(** the groups and the state in which they are started *)
Lemma prepared : forall bucket kept s, keepGroups m bucket (match bucket with None => true | Some b => b =? 0 end) lst = kept ->
  exists gs r', prepareList R shuffleGroups l m bucket lst s = (gs, setRng R r' s) /\ arranged R shuffleGroups l kept (rng R s) gs r'.
Proof.
  intros bucket kept s E. unfold prepareList, arranged. cbv zeta. rewrite E.
  assert (X : s = setRng R (rng R s) s) by (destruct s; reflexivity).
  destruct (questionOrder l).
  - exists kept, (rng R s). rewrite <- X. auto.
  - exists (rev kept), (rng R s). rewrite <- X. auto.
  - destruct (shuffleGroups kept (rng R s)) as [x r]. exists x, r. auto.
  - exists kept, (rng R s). rewrite <- X. auto.
Qed.
Lemma arranged_perm : forall kept r gs r', arranged R shuffleGroups l kept r gs r' -> Permutation kept gs.
Proof.
  intros kept r gs r' H. destruct Hfit as [F _]. unfold arranged in H. destruct (questionOrder l).
  - destruct H as [-> _]. apply Permutation_refl.
  - destruct H as [-> _]. apply Permutation_rev.
  - pose proof (F kept r) as K. rewrite <- H in K. exact K.
  - destruct H as [-> _]. apply Permutation_refl.
Qed.
Lemma starts_incl : forall ps0 gs r', starts R shuffleGroups l m lst r0 ps0 gs r' -> incl gs lst /\ len gs <= len lst.
Proof.
  assert (FI : forall (x : list Group) y, incl x y -> len x <= len y -> incl (filter (worth m) x) y /\ len (filter (worth m) x) <= len y).
  { intros x y I L. split; [intros z Hz; apply filter_In in Hz; apply I, (proj1 Hz)|]. unfold len in *. pose proof (filter_le _ (worth m) x). lia. }
  assert (PI : forall x y : list Group, Permutation x y -> incl x lst /\ len x <= len lst -> incl y lst /\ len y <= len lst).
  { intros x y P [I L]. split; [intros z Hz; apply I, (Permutation_in z (Permutation_sym P) Hz)|]. unfold len in *. rewrite <- (Permutation_length P). exact L. }
  intros ps0 gs r' [g rest gs' r1 E Ty A|g rest key part gs' r1 E Ty K P A].
  - apply (PI _ _ (arranged_perm _ _ _ _ A)). assert (B : incl lst lst /\ len lst <= len lst) by (split; [apply incl_refl|lia]).
    destruct (questionOrder l), m; first [exact B | apply FI; [apply incl_refl|lia]].
  - apply (PI _ _ (arranged_perm _ _ _ _ A)). destruct (part_incl _ _ _ P) as [I L]. apply FI; assumption.
Qed.

(** what becomes of a quiz whose groups were chosen *)
Definition ends (ty : GroupType) (ps0 : list seen) (gs : list Group) (r' : R) (fuel : nat) (x : res State unit) : Prop :=
  let t0 := fst (starting R shuffle l m gs entry ty question m0 r') in
  let h := snd (starting R shuffle l m gs entry ty question m0 r') in
  (x = NoReturn /\ (Stuck R shuffle l m gs entry t0 h ls0 ps0 \/ (fuel <= (2 * length ls0 + 1) * (length gs + 2) + length gs + 2)%nat))
  \/ (x = Undefined /\ Over R shuffle l m gs entry t0 h ls0 ps0)
  \/ exists ks rest s', x = Ok tt s' /\ playable R shuffle l m gs entry launcherQuit t0 ks
       /\ finished R gs (table_after R shuffle l m gs entry t0 ks) = true
       /\ prompts s' = ps0 ++ fst (script R shuffle l m gs entry t0 h ks)
       /\ printed s' = snd (script R shuffle l m gs entry t0 h ks) ++ group_score (isQuizMode l) question (table_after R shuffle l m gs entry t0 ks) ks
       /\ lines_left (input R s') rest /\ reads launcherQuit ls0 (prompts s') rest.

Lemma fit_groups : forall ps0 gs r' g rest, starts R shuffleGroups l m lst r0 ps0 gs r' -> lst = g :: rest ->
  len gs <= 65535 /\ Forall (fun g => (length (gMembers g) <= 58)%nat) gs
  /\ forall g1 k, In g1 gs -> In k (filter (includeMember m) (gMembers g1)) -> entryText other l (gType g) k = Val (entry k).
Proof.
  intros ps0 gs r' g rest S E. destruct (starts_incl _ _ _ S) as [I L]. destruct Hfit as [_ [_ [_ [F4 [F5 [F6 F7]]]]]]. split; [lia|]. split.
  - apply Forall_forall. intros x Hx. rewrite Forall_forall in F6. specialize (F6 x (I x Hx)). unfold len in F6. lia.
  - intros g1 k Hg Hk. apply filter_In in Hk. destruct Hk as [Hk1 Hk2]. apply included_iff in Hk2. apply entry_spec. apply (F7 g g1 k); [rewrite E; reflexivity|apply I; exact Hg|exact Hk1|exact Hk2].
Qed.

Lemma started : forall fuel ps0 gs r' g rest s, starts R shuffleGroups l m lst r0 ps0 gs r' -> lst = g :: rest ->
  current R s = question -> meanings R s = m0 -> correctAnswers R s = 0 -> mistakes R s = [] -> rng R s = r' ->
  prompts s = ps0 -> printed s = [] -> (exists rest, lines_left (input R s) rest /\ reads launcherQuit ls0 ps0 rest) ->
  let x := destroyed R l (startGroups R shuffle other fuel l (gType g) m gs s) in
  (len gs < question /\ exists s', x = Err DomainError s' /\ prompts s' = ps0 /\ printed s' = refusal_score /\ input R s' = input R s)
  \/ (question <= len gs /\ ends (gType g) ps0 gs r' fuel x).
Proof.
  intros fuel ps0 gs r' g rest s ST E C1 C2 C3 C4 C5 C6 C7 C8. cbv zeta. destruct (fit_groups _ _ _ _ _ ST E) as [G1 [G2 G3]].
  destruct (N.lt_ge_cases (len gs) question) as [H|H].
  - left. split; [exact H|]. unfold startGroups, beginQuizMessage. cbv zeta. rewrite C1. replace (question =? 0) with false by lia. replace (len gs <? question) with true by lia.
    cbn [rbind destroyed]. exists (finalScore R l s). pose proof (early s C1 C3 C4) as P. split; [reflexivity|].
    rewrite (P_prompts _ _ _ _ P), (P_text _ _ _ _ P), (P_in _ _ _ _ P), C6, C7. auto.
  - right. split; [exact H|]. set (start := question - 1).
    set (sb := print R (b_ ">>>
>>> Starting " ++ (if isQuizMode l then b_ "quiz" else b_ "review") ++ b_ " for " ++ to_string (len gs) ++ b_ " ") (setCurrent R start s)).
    assert (B : beginQuizMessage R l (len gs) s = Ok tt sb).
    { unfold beginQuizMessage, sb. cbv zeta. rewrite C1. destruct (question =? 0) eqn:E0.
      - apply N.eqb_eq in E0. unfold start. rewrite E0. change (0 - 1) with 0. rewrite <- C1 in E0. rewrite <- E0 at 1. destruct s; reflexivity.
      - replace (len gs <? question) with false by lia. replace (u16 (question + 65535)) with start; [reflexivity|]. unfold start, u16. change (2 ^ 16) with 65536.
        replace (question + 65535) with (question - 1 + 1 * 65536) by lia. rewrite N.mod_add, N.mod_small by lia. reflexivity. }
    unfold startGroups. rewrite B. cbn [rbind]. cbv zeta.
    set (sc := print R (groupTypeText (gType g) ++ b_ " groups
") sb).
    set (sd := if 0 <? memberRank m then print R (b_ ">>>   .=常用 '=JLPT ""=Freq ^=人名用 ~=LinkJ %=LinkO +=Extra @=検定 #=1級 *=Ucd
") sc else sc).
    assert (P : Printed R (opening_text l m gs (gType g)) (setCurrent R start s) sd).
    { eapply Printed_eq.
      - apply Printed_trans with (s1 := sb); [apply Printed_print|]. apply Printed_trans with (s1 := sc); [apply Printed_print|].
        instantiate (1 := match m with MJouyou => [] | _ => b_ ">>>   .=常用 '=JLPT ""=Freq ^=人名用 ~=LinkJ %=LinkO +=Extra @=検定 #=1級 *=Ucd" ++ newline end).
        unfold sd. destruct m; cbn [memberRank]; (apply Printed_refl || (eapply Printed_eq; [apply Printed_print|reflexivity])).
      - unfold opening_text. rewrite <- !app_assoc. destruct (isQuizMode l); reflexivity. }
    clearbody sd. clear sc sb B.
    assert (X : opened R shuffle l m gs entry (empty_table R question m0 r') start
      = (fst (starting R shuffle l m gs entry (gType g) question m0 r'), snd (opened R shuffle l m gs entry (empty_table R question m0 r') start))
      /\ snd (starting R shuffle l m gs entry (gType g) question m0 r') = opening_text l m gs (gType g) ++ snd (opened R shuffle l m gs entry (empty_table R question m0 r') start)).
    { unfold starting. fold start. destruct (opened R shuffle l m gs entry (empty_table R question m0 r') start) as [t x]. auto. }
    destruct X as [X1 X2]. unfold ends. cbv zeta.
    set (t0 := fst (starting R shuffle l m gs entry (gType g) question m0 r')) in *. set (h := snd (starting R shuffle l m gs entry (gType g) question m0 r')) in *.
    set (o := snd (opened R shuffle l m gs entry (empty_table R question m0 r') start)) in *.
    assert (EN : Enter R shuffle l m gs entry t0 h ls0 ps0 sd [] (empty_table R question m0 r') start).
    { split; [reflexivity|]. split; [unfold start; lia|]. rewrite X1. cbn [fst snd]. split; [reflexivity|]. split; [exact I|]. split.
      - constructor.
        + rewrite (P_prompts _ _ _ _ P). cbn [script fst]. rewrite app_nil_r. exact C6.
        + rewrite (P_text _ _ _ _ P). cbn [setCurrent events]. rewrite C7. cbn [script snd app]. symmetry. exact X2.
        + destruct C8 as [rst [C8 C9]]. exists rst. rewrite (P_in _ _ _ _ P), (P_prompts _ _ _ _ P). cbn [setCurrent events input]. rewrite C6. split; assumption.
      - rewrite (P_cur _ _ _ _ P), (P_mean _ _ _ _ P), (P_cor _ _ _ _ P), (P_mis _ _ _ _ P), (P_rng _ _ _ _ P). cbn [setCurrent current meanings correctAnswers mistakes rng empty_table tShown tRight tWrong tRng]. auto 6. }
    destruct Hfit as [F1 [F2 [F3 _]]].
    destruct (loop_spec R shuffle other l (gType g) m gs entry F2 F3 G1 G2 G3 t0 h ls0 ps0 fuel sd [] _ _ EN) as [[K SK]|[[K O]|[ks [s' [K [K1 [K2 [K3 [K4 K5 [rst [K6 K7]]]]]]]]]]]; rewrite K; cbn [destroyed].
    + left. split; [reflexivity|]. destruct SK as [SK|[ks [rst [S1 [S2 S3]]]]]; [left; exact SK|right].
      apply keys_bound in S1; [|exact G1]. cbn [length] in S3. assert (length ks * (length gs + 2) <= (2 * length ls0 + 1) * (length gs + 2))%nat by (apply Nat.mul_le_mono_r; exact S1). lia.
    + right. left. auto.
    + right. right. rewrite app_nil_r in K5. exists ks, rst, (finalScore R l s'). split; [reflexivity|]. split; [exact K1|]. split; [exact K2|].
      assert (PS : Printed R (group_score (isQuizMode l) question (table_after R shuffle l m gs entry t0 ks) ks) s' (finalScore R l s')).
      { unfold group_score. destruct (isQuizMode l) eqn:Q; [|unfold finalScore; rewrite Q; apply Printed_refl].
        destruct (opened_facts R shuffle other l (gType g) m gs entry F2 G1 G2 G3 _ (empty_table R question m0 r') start start eq_refl eq_refl) as [O1 [O2 [O3 O4]]]; [unfold start; lia|].
        rewrite X1 in O1, O2, O3, O4. cbn [fst empty_table tRight tWrong] in O1, O2, O3, O4. change (len (@nil bytes)) with 0 in O4. specialize (O4 ltac:(lia)).
        destruct (playable_facts R shuffle other l (gType g) m gs entry F2 G1 G2 G3 ks t0 start) as [_ [Q2 Q3]]; [destruct O3 as [[O3 _]|[O3 _]]; [left|right]; exact O3|lia|intros _; exact O4|exact K1|].
        specialize (Q3 Q). destruct K3 as [A1 A2 A3 A4 A5]. rewrite <- A1, <- A3, <- A4. apply final_text; [exact Q|lia|]. fold start. rewrite A1, A3, A4. lia. }
      rewrite (P_prompts _ _ _ _ PS), (P_text _ _ _ _ PS), (P_in _ _ _ _ PS), K5, K4. split; [reflexivity|]. split; [reflexivity|]. split; [exact K6|]. rewrite <- K4. exact K7.
Qed.

Lemma name_proper : proper launcherQuit name_request.
Proof.
  unfold name_request, proper, permitted. cbn [rqChoices rqRange rqUseQuit rqDefault map fst].
  split; [|split; [|split; [|split; [|split]]]].
  - unfold is_map. cbn [map fst]. repeat constructor; lia.
  - exists 49. left. left. reflexivity.
  - intros c [H|[[a [b [H _]]]|[_ [d [= <- _]]]]]; [|discriminate|unfold printable; lia]. cbn [In] in H. unfold printable. lia.
  - discriminate.
  - intros c d [= <- _]. split; [|discriminate]. cbn [In]. lia.
  - intros c [= <-]. left. left. reflexivity.
Qed.

(** how a group quiz ends *)
Lemma whole : forall fuel,
  (lst = [] /\ exists s', run fuel = Err DomainError s' /\ prompts s' = [] /\ printed s' = refusal_score /\ input R s' = i0)
  \/ exists g rest, lst = g :: rest /\
     ((gType g = PatternGroupType /\
       ((run fuel = NoReturn /\ ls0 <> [] /\ no_answer (permitted launcherQuit name_request) (Some 49) ls0)
        \/ exists s' rst, run fuel = Ok tt s' /\ prompts s' = [MkSeen [] name_request 47] /\ printed s' = refusal_score
             /\ lines_left (input R s') rst /\ reads launcherQuit ls0 (prompts s') rst))
      \/ exists ps0 gs r', starts R shuffleGroups l m lst r0 ps0 gs r' /\ (exists rst, reads launcherQuit ls0 ps0 rst) /\
           ((len gs < question /\ exists s' rst, run fuel = Err DomainError s' /\ prompts s' = ps0 /\ printed s' = refusal_score
                /\ lines_left (input R s') rst /\ reads launcherQuit ls0 ps0 rst)
            \/ (question <= len gs /\ ends (gType g) ps0 gs r' fuel (run fuel)))).
Proof.
  intro fuel. assert (D : lst = [] \/ exists g rest, lst = g :: rest) by (destruct lst as [|g rest]; [left|right; exists g, rest]; reflexivity).
  destruct D as [EL|[g [rest EL]]].
  { left. split; [exact EL|]. unfold groupQuiz. rewrite EL. cbn [destroyed]. set (s := initial R question m0 i0 r0). pose proof (early s eq_refl eq_refl eq_refl) as P.
    exists (finalScore R l s). split; [reflexivity|]. rewrite (P_prompts _ _ _ _ P), (P_text _ _ _ _ P), (P_in _ _ _ _ P). auto. }
  right. exists g, rest. split; [exact EL|].
  assert (RE : run fuel = destroyed R l
    match gType g with
    | PatternGroupType =>
        do c, s <- ask R (quitOption l) (MkRequest None (b_ "Pattern name") true PatternGroupChoices (Some 49)) (initial R question m0 i0 r0) ;;
        if isQuit (quitOption l) c then Ok tt s
        else let '(x, s) := prepareList R shuffleGroups l m (Some (c - 49)) lst s in startGroups R shuffle other fuel l (gType g) m x s
    | MeaningType =>
        match questionOrder l, m with
        | FromBeginning, MAll => startGroups R shuffle other fuel l (gType g) m lst (initial R question m0 i0 r0)
        | _, _ => let '(x, s) := prepareList R shuffleGroups l m None lst (initial R question m0 i0 r0) in startGroups R shuffle other fuel l (gType g) m x s
        end
    end) by (unfold groupQuiz; rewrite EL; reflexivity).
  rewrite RE. clear RE. destruct (gType g) eqn:Ty.
  - (* meaning groups *)
    right. set (s := initial R question m0 i0 r0).
    assert (K : exists gs r', starts R shuffleGroups l m lst r0 [] gs r'
      /\ (match questionOrder l, m with
          | FromBeginning, MAll => startGroups R shuffle other fuel l MeaningType m lst s
          | _, _ => let '(x, s) := prepareList R shuffleGroups l m None lst s in startGroups R shuffle other fuel l MeaningType m x s
          end) = startGroups R shuffle other fuel l (gType g) m gs (setRng R r' s)).
    { assert (D : (questionOrder l = FromBeginning /\ m = MAll) \/ match questionOrder l, m with FromBeginning, MAll => lst | _, _ => filter (worth m) lst end = filter (worth m) lst
         /\ match questionOrder l, m with
          | FromBeginning, MAll => startGroups R shuffle other fuel l MeaningType m lst s
          | _, _ => let '(x, s) := prepareList R shuffleGroups l m None lst s in startGroups R shuffle other fuel l MeaningType m x s
          end = let '(x, s) := prepareList R shuffleGroups l m None lst s in startGroups R shuffle other fuel l MeaningType m x s).
      { destruct (questionOrder l), m; auto. }
      destruct D as [[D1 D2]|[D1 D2]].
      - exists lst, r0. split.
        + eapply starts_meaning; [exact EL|exact Ty|]. rewrite D1, D2. unfold arranged. rewrite D1. auto.
        + rewrite D1, D2, Ty. reflexivity.
      - destruct (prepared None (filter (worth m) lst) s (keep_all m lst)) as [gs [r' [E A]]]. exists gs, r'. split.
        + eapply starts_meaning; [exact EL|exact Ty|]. rewrite D1. exact A.
        + rewrite D2, E, Ty. reflexivity. }
    destruct K as [gs [r' [S K]]]. rewrite K. exists [], gs, r'. split; [exact S|].
    assert (RD : exists rst, lines_left i0 rst /\ reads launcherQuit ls0 [] rst) by (exists ls0; split; [exact Hls|constructor]).
    split; [destruct RD as [rst [_ RD]]; exists rst; exact RD|]. rewrite <- Ty.
    destruct (started fuel [] gs r' g rest (setRng R r' s) S EL eq_refl eq_refl eq_refl eq_refl eq_refl eq_refl eq_refl RD) as [[H [s' [H1 [H2 [H3 H4]]]]]|H]; [left|right; exact H].
    split; [exact H|]. destruct RD as [rst [RD1 RD2]]. exists s', rst. rewrite H4. auto.
  - (* pattern groups *)
    set (s := initial R question m0 i0 r0).
    assert (RQ : MkRequest None (b_ "Pattern name") true PatternGroupChoices (Some 49) = name_request) by reflexivity. rewrite RQ. clear RQ.
    destruct Hfit as [_ [_ [F3 _]]]. rewrite F3.
    assert (C : (ask R launcherQuit name_request s = NoReturn /\ ls0 <> [] /\ no_answer (permitted launcherQuit name_request) (Some 49) ls0)
      \/ exists c i w rst, ask R launcherQuit name_request s = Ok c (addEvent R (Asked name_request c w) (setInput R i s))
           /\ permitted launcherQuit name_request c /\ lines_left i rst /\ reads launcherQuit ls0 [MkSeen [] name_request c] rst).
    { destruct (ask_cases R launcherQuit name_request s ls0 name_proper Hls) as [[junk [la [c [rest' [i [w [E [E2 [Ha [Hj Hl]]]]]]]]]]|[[E0 [d [w [Hd E]]]]|[E [NA ND]]]].
      - right. exists c, i, w, rest'. split; [exact E|]. split; [eapply answers_permitted; [exact name_proper|exact Ha]|]. split; [exact Hl|].
        apply (reads_snoc launcherQuit ls0 [] ls0 (MkSeen [] name_request c) junk la rest'); [constructor|exact E2|exact Ha|exact Hj].
      - right. injection Hd as <-. exists 49, (input R s), w, []. split; [exact E|]. split; [left; left; reflexivity|]. split; [rewrite <- E0; exact Hls|]. rewrite E0. apply reads_end; [reflexivity|constructor].
      - left. split; [exact E|]. split; [|exact NA]. destruct ND as [ND|ND]; [exact ND|discriminate]. }
    destruct C as [[E [NE NA]]|[c [i [w [rst [E [Pc [Hl Hr]]]]]]]]; rewrite E; cbn [rbind].
    + left. split; [reflexivity|]. left. split; [reflexivity|auto].
    + set (s1 := addEvent R (Asked name_request c w) (setInput R i s)).
      assert (T1 : prompts s1 = [MkSeen [] name_request c] /\ printed s1 = []) by (split; reflexivity). destruct T1 as [T1 T2].
      assert (Kc : c = 47 \/ 49 <= c <= 54).
      { destruct Pc as [H|[[a [b [H _]]]|[_ [d [= <- _]]]]]; [|discriminate|left; reflexivity]. cbn [name_request rqChoices map fst In] in H. lia. }
      unfold isQuit, launcherQuit. destruct Kc as [->|Kc].
      * cbn [N.eqb Pos.eqb]. left. split; [reflexivity|]. right. cbn [destroyed]. pose proof (early s1 eq_refl eq_refl eq_refl) as P. exists (finalScore R l s1), rst.
        rewrite (P_prompts _ _ _ _ P), (P_text _ _ _ _ P), (P_in _ _ _ _ P), T1, T2. auto 6.
      * replace (47 =? c) with false by lia. right. destruct (keep_part m c lst Kc) as [part [P1 P2]].
        destruct (prepared (Some (c - 49)) (filter (worth m) part) s1 P2) as [gs [r' [E1 A]]]. rewrite E1.
        assert (S : starts R shuffleGroups l m lst r0 [MkSeen [] name_request c] gs r') by (eapply starts_pattern; eassumption).
        exists [MkSeen [] name_request c], gs, r'. split; [exact S|]. split; [exists rst; exact Hr|].
        assert (RD : exists rst, lines_left (input R (setRng R r' s1)) rst /\ reads launcherQuit ls0 [MkSeen [] name_request c] rst) by (exists rst; split; [exact Hl|exact Hr]).
        rewrite <- Ty.
        destruct (started fuel _ gs r' g rest (setRng R r' s1) S EL eq_refl eq_refl eq_refl eq_refl eq_refl T1 T2 RD) as [[H [s' [H1 [H2 [H3 H4]]]]]|H]; [left|right; exact H].
        split; [exact H|]. exists s', rst. rewrite H4. auto.
Qed.
End Whole.
