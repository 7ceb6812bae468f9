(** Proofs about when list quizzes return. *)
From Verif Require Import BaseFacts.
From Verif Require Export QuizWhole.
Open Scope N_scope.
Arguments N.add : simpl never.
Arguments N.sub : simpl never.
Arguments N.mul : simpl never.
Arguments u16 : simpl never.

Lemma after_next : forall R (draw : N -> R -> N * R) n k r, after draw n (S k) r = after draw n k (snd (draw n r)).
Proof.
  intros R draw n k r. unfold after. induction k as [|k IH]; [reflexivity|]. cbn [Nat.iter nat_rect] in *. f_equal. f_equal. exact IH.
Qed.

Section Quiz.
Variable R : Type.
Variable draw : N -> R -> N * R.
Variable extraTypeInfo reviewDetails : QKanji -> bytes.
Notation State := (State R).
Implicit Type s : State.

(** ** More steps do not change a result *)
Lemma pick_mono : forall f f' qs seen s x s', pickAnswer R draw f qs seen s = Ok x s' -> (f <= f')%nat -> pickAnswer R draw f' qs seen s = Ok x s'.
Proof.
  induction f as [|f IH]; intros f' qs seen s x s' H L; [discriminate|]. destruct f' as [|f']; [lia|]. cbn [pickAnswer] in *.
  destruct (draw (u16 (len qs + 65535) + 1) (rng R s)) as [c r]. destruct (nth_error qs (N.to_nat c)) as [k|]; [|discriminate].
  destruct (existsb (beq (qReading k)) seen); [|exact H]. apply IH; [exact H|lia].
Qed.
Lemma picks_mono : forall n f f' i correct qs seen s x s', pickAnswers R draw f n i correct qs seen s = Ok x s' -> (f <= f')%nat ->
  pickAnswers R draw f' n i correct qs seen s = Ok x s'.
Proof.
  induction n as [|n IH]; intros f f' i correct qs seen s x s' H L; cbn [pickAnswers] in *; [exact H|]. destruct (i =? correct).
  - destruct (pickAnswers R draw f n (i + 1) correct qs seen s) as [a s1|e s1| |] eqn:E; try discriminate. rewrite (IH _ _ _ _ _ _ _ _ _ E L). exact H.
  - destruct (pickAnswer R draw f qs seen s) as [p s1|e s1| |] eqn:E; try discriminate. rewrite (pick_mono _ _ _ _ _ _ _ E L). cbn [rbind] in *.
    destruct (pickAnswers R draw f n (i + 1) correct qs (snd p) s1) as [a s2|e s2| |] eqn:E2; try discriminate. rewrite (IH _ _ _ _ _ _ _ _ _ E2 L). exact H.
Qed.
Lemma populate_mono : forall f f' l count k qs s x s', populateAnswers R draw f l count k qs s = Ok x s' -> (f <= f')%nat ->
  populateAnswers R draw f' l count k qs s = Ok x s'.
Proof.
  intros f f' l count k qs s x s' H L. unfold populateAnswers in *.
  destruct (if randomizeAnswers l then let '(c, r) := draw count (rng R s) in (c, setRng R r s) else (0, s)) as [c s1].
  destruct (count <=? c); [discriminate|].
  destruct (pickAnswers R draw f (N.to_nat count) 0 c qs [qReading k] s1) as [a s2|e s2| |] eqn:E; try discriminate.
  rewrite (picks_mono _ _ _ _ _ _ _ _ _ _ E L). exact H.
Qed.
Lemma question_mono : forall f f' l style fields ce k qs c a ch s x s',
  askQuestion R extraTypeInfo reviewDetails f l style fields ce k qs c a ch s = Ok x s' -> (f <= f')%nat ->
  askQuestion R extraTypeInfo reviewDetails f' l style fields ce k qs c a ch s = Ok x s'.
Proof.
  induction f as [|f IH]; intros f' l style fields ce k qs c a ch s x s' H L; [discriminate|]. destruct f' as [|f']; [lia|]. cbn [askQuestion] in *.
  cbv zeta in *. destruct (printChoices _ _ _ _ _ _ _) as [u s1|e s1| |]; try discriminate. cbn [rbind] in *.
  destruct (getAnswer _ _ _ _ _ _ _ _) as [[ch'|b] s2|e s2| |]; try discriminate; cbn [rbind] in *; [|exact H]. apply IH; [exact H|lia].
Qed.
Lemma start_mono : forall f f' l style fields count ce qs s x s',
  startLoop R draw extraTypeInfo reviewDetails f l style fields count ce qs s = Ok x s' -> (f <= f')%nat ->
  startLoop R draw extraTypeInfo reviewDetails f' l style fields count ce qs s = Ok x s'.
Proof.
  induction f as [|f IH]; intros f' l style fields count ce qs s x s' H L; [discriminate|]. destruct f' as [|f']; [lia|]. cbn [startLoop] in *.
  destruct (current R s <? len qs); [|exact H]. destruct (nth_error qs (N.to_nat (current R s))) as [k|]; [|discriminate].
  destruct (populateAnswers R draw f l count k qs s) as [p s1|e s1| |] eqn:E; try discriminate.
  rewrite (populate_mono _ f' _ _ _ _ _ _ _ E) by lia. cbn [rbind] in *.
  destruct (askQuestion R extraTypeInfo reviewDetails f l style fields ce k qs (fst p) (snd p) (getDefaultChoices R l (len qs) s) s1) as [b s2|e s2| |] eqn:E2; try discriminate.
  rewrite (question_mono _ f' _ _ _ _ _ _ _ _ _ _ _ _ E2) by lia. cbn [rbind] in *. cbv zeta in *. destruct b; [exact H|]. apply IH; [exact H|lia].
Qed.

(** ** Answers *)
Section Run.
Variable l : Launcher.
Variable style : QuizStyle.
Variable fields count start : N.
Variable qs : list QKanji.
Variable m0 : bool.
Variable ls0 : list bytes.
Hypothesis Hdraw : in_range draw.
Hypothesis Hquit : quitOption l = launcherQuit.
Hypothesis Hcount : 1 <= count <= 9.
Hypothesis Hlen : len qs <= 65535.
Notation quiz := (isQuizMode l).
Notation prompts s := (fst (transcript [] (events R s))).
Notation keys s := (map sKey (fst (transcript [] (events R s)))).
Notation qreq := (question_request quiz style count (len qs)).
Notation INV := (Inv R extraTypeInfo reviewDetails l style fields count start qs m0 ls0).

Notation various := (various count qs).
Notation answering := (answering count).

Lemma populate_various : forall fuel s kanji x s', nth_error qs (N.to_nat (current R s)) = Some kanji ->
  populateAnswers R draw fuel l count kanji qs s = Ok x s' -> various.
Proof.
  intros fuel s kanji x s' Hk E. destruct (populate_spec R draw extraTypeInfo reviewDetails Hdraw l count qs Hcount Hlen fuel s kanji Hk) as [H|[o [s1 [H [_ [_ G]]]]]]; [rewrite H in E; discriminate|].
  destruct G as [_ [GL [_ [ks [F ND]]]]]. exists (map qReading ks). split; [exact ND|]. split.
  - intros x0 Hx. apply in_map_iff in Hx. destruct Hx as [k [<- Hk2]]. apply in_map. clear -F Hk2. induction F as [|a b la lb E F IH]; [destruct Hk2|].
    destruct Hk2 as [<-|Hk2]; [apply nth_error_In with (1 := E)|apply IH; exact Hk2].
  - rewrite <- GL. unfold len. rewrite map_length. f_equal. symmetry. clear -F. induction F; cbn; lia.
Qed.
Lemma populate_never : forall fuel s kanji, nth_error qs (N.to_nat (current R s)) = Some kanji -> ~ various ->
  populateAnswers R draw fuel l count kanji qs s = NoReturn.
Proof.
  intros fuel s kanji Hk Hv. destruct (populate_spec R draw extraTypeInfo reviewDetails Hdraw l count qs Hcount Hlen fuel s kanji Hk) as [H|[o [s1 [H _]]]]; [exact H|].
  exfalso. apply Hv. eapply populate_various; eassumption.
Qed.

Hypothesis Hfair : fair draw.
Hypothesis Hvarious : various.

Lemma unseen : forall seen, len seen < count -> exists v k, v < len qs /\ nth_error qs (N.to_nat v) = Some k /\ ~ In (qReading k) seen.
Proof.
  intros seen L. destruct Hvarious as [rs [ND [IN LE]]].
  assert (X : exists x, In x rs /\ ~ In x seen).
  { destruct (existsb (fun x => negb (existsb (beq x) seen)) rs) eqn:E.
    - apply existsb_exists in E. destruct E as [x [Hx Hn]]. exists x. split; [exact Hx|]. intro K.
      assert (Y : existsb (beq x) seen = true) by (apply existsb_exists; exists x; split; [exact K|apply beq_refl]). rewrite Y in Hn. discriminate.
    - exfalso. assert (Y : incl rs seen).
      { intros x Hx. destruct (existsb (beq x) seen) eqn:E2.
        - apply existsb_exists in E2. destruct E2 as [y [Hy E2]]. apply beq_eq in E2. subst y. exact Hy.
        - exfalso. assert (Z : existsb (fun x => negb (existsb (beq x) seen)) rs = true) by (apply existsb_exists; exists x; split; [exact Hx|rewrite E2; reflexivity]). congruence. }
      pose proof (NoDup_incl_length ND Y). unfold len in *. lia. }
  destruct X as [x [Hx Hn]]. apply IN in Hx. apply in_map_iff in Hx. destruct Hx as [k [<- Hk]]. apply In_nth_error in Hk. destruct Hk as [j Hj].
  exists (N.of_nat j), k. rewrite Nat2N.id. split; [|split; assumption].
  assert (Y : (j < length qs)%nat) by (apply nth_error_Some; congruence). unfold len. lia.
Qed.

Lemma pick_returns : forall seen s, len seen < count -> exists f x s', pickAnswer R draw f qs seen s = Ok x s'.
Proof.
  intros seen s L. destruct (unseen seen L) as [v [k [Hv [Hk Hn]]]].
  assert (Hq : 0 < len qs) by lia. destruct (Hfair (len qs) (rng R s) v Hv) as [n Hd]. revert s Hd. induction n as [|n IH]; intros s Hd.
  - exists 1%nat. cbn [pickAnswer]. rewrite (bound_len count qs Hcount Hlen Hq). cbn in Hd. destruct (draw (len qs) (rng R s)) as [c r]. cbn [fst] in Hd. subst c.
    rewrite Hk. destruct (existsb (beq (qReading k)) seen) eqn:X; [|eexists; eexists; reflexivity].
    exfalso. apply existsb_exists in X. destruct X as [y [Hy X]]. apply beq_eq in X. subst y. contradiction.
  - rewrite after_next in Hd. destruct (draw (len qs) (rng R s)) as [c r] eqn:D. cbn [snd] in Hd.
    destruct (IH (setRng R r s) Hd) as [f [x [s' E]]]. exists (S f). cbn [pickAnswer]. rewrite (bound_len count qs Hcount Hlen Hq), D.
    assert (Hc : c < len qs) by (pose proof (Hdraw (len qs) (rng R s) Hq) as Y; rewrite D in Y; exact Y).
    destruct (nth_error qs (N.to_nat c)) as [k'|] eqn:E2; [|apply nth_error_None in E2; unfold len in Hc; lia].
    destruct (existsb (beq (qReading k')) seen); [exists x, s'; exact E|]. eexists. eexists. reflexivity.
Qed.

Lemma picks_return : forall n i correct seen s,
  len seen + N.of_nat n <= count + (if (i <=? correct) && (correct <? i + N.of_nat n) then 1 else 0) ->
  exists f x s', pickAnswers R draw f n i correct qs seen s = Ok x s'.
Proof.
  induction n as [|n IH]; intros i correct seen s L; [exists 0%nat, [], s; reflexivity|].
  destruct (i =? correct) eqn:E.
  - destruct (IH (i + 1) correct seen s) as [f [x [s' H]]].
    { replace ((i <=? correct) && (correct <? i + N.of_nat (S n))) with true in L by lia. replace ((i + 1 <=? correct) && (correct <? i + 1 + N.of_nat n)) with false by lia. lia. }
    exists f. cbn [pickAnswers]. rewrite E, H. cbn [rbind]. eexists. eexists. reflexivity.
  - assert (B : (i <=? correct) && (correct <? i + N.of_nat (S n)) = (i + 1 <=? correct) && (correct <? i + 1 + N.of_nat n)) by lia.
    rewrite B in L.
    assert (L1 : len seen < count).
    { destruct n as [|n]; [|destruct ((i + 1 <=? correct) && (correct <? i + 1 + N.of_nat (S n))); lia].
      replace ((i + 1 <=? correct) && (correct <? i + 1 + N.of_nat 0)) with false in L by lia. lia. }
    destruct (pick_returns seen s L1) as [f1 [p [s1 E1]]].
    assert (Lp : len (snd p) = len seen + 1).
    { assert (Hq : 0 < len qs) by (destruct (unseen seen L1) as [v [k [Hv _]]]; lia).
      destruct (pick_spec R draw Hdraw count qs Hcount Hlen f1 seen s Hq) as [K|[c [k [s2 [K _]]]]]; rewrite K in E1; [discriminate|]. injection E1 as <- _. cbn [snd]. unfold len. cbn [length]. lia. }
    destruct (IH (i + 1) correct (snd p) s1) as [f2 [x [s' E2]]]; [lia|].
    exists (Nat.max f1 f2). cbn [pickAnswers]. rewrite E. rewrite (pick_mono f1 (Nat.max f1 f2) _ _ _ _ _ E1) by lia. cbn [rbind].
    rewrite (picks_mono n f2 (Nat.max f1 f2) _ _ _ _ _ _ _ E2) by lia. cbn [rbind]. eexists. eexists. reflexivity.
Qed.
Lemma populate_returns : forall s kanji, nth_error qs (N.to_nat (current R s)) = Some kanji ->
  exists f o s', populateAnswers R draw f l count kanji qs s = Ok (oRight o, oList o) s' /\ rng_only R s s' /\ oQuestion o = current R s /\ good_offer count qs o.
Proof.
  intros s kanji Hk.
  assert (X : exists f x s', populateAnswers R draw f l count kanji qs s = Ok x s').
  { unfold populateAnswers.
    assert (X : exists correct s1, (if randomizeAnswers l then let '(c, r) := draw count (rng R s) in (c, setRng R r s) else (0, s)) = (correct, s1) /\ correct < count).
    { destruct (randomizeAnswers l); [|exists 0, s; split; [reflexivity|lia]]. pose proof (Hdraw count (rng R s)) as D. destruct (draw count (rng R s)) as [c r].
      exists c, (setRng R r s). split; [reflexivity|]. apply D. lia. }
    destruct X as [correct [s1 [-> Hc]]]. replace (count <=? correct) with false by lia.
    destruct (picks_return (N.to_nat count) 0 correct [qReading kanji] s1) as [f [x [s' E]]].
    { change (len [qReading kanji]) with 1. replace ((0 <=? correct) && (correct <? 0 + N.of_nat (N.to_nat count))) with true by lia. lia. }
    exists f. rewrite E. cbn [rbind]. eexists. eexists. reflexivity. }
  destruct X as [f [x [s' E]]]. exists f.
  destruct (populate_spec R draw extraTypeInfo reviewDetails Hdraw l count qs Hcount Hlen f s kanji Hk) as [K|[o [s1 [K G]]]]; [congruence|]. exists o, s1. split; [exact K|exact G].
Qed.

(** ** Input *)

(** the input is enough to get to the end *)
Definition enough (cur : N) (ls : list bytes) : Prop :=
  In [47] ls \/ (quiz = true /\ len qs <= cur + len (filter answering ls)).

Lemma quit_permitted : forall m pos, permitted launcherQuit (qreq m pos) 47.
Proof. intros. right. right. split; [reflexivity|]. exists (b_ "quit"). reflexivity. Qed.
Lemma answering_permitted : forall m pos line, quiz = true -> answering line = true -> exists c, line = [c] /\ permitted launcherQuit (qreq m pos) c.
Proof.
  intros m pos line Q H. destruct line as [|c [|? ?]]; try discriminate. exists c. split; [reflexivity|]. cbn [QuizSpec.answering] in H.
  destruct (c =? 46) eqn:E; cbn [orb] in H.
  - left. assert (c = 46) by lia. subst c. unfold question_request. cbn [rqChoices]. rewrite Q. cbn [negb andb app map fst In]. auto.
  - right. left. exists 49, (48 + count). unfold question_request. cbn [rqRange]. rewrite Q. split; [reflexivity|lia].
Qed.

(** after an answer there is still enough *)
Lemma enough_step : forall m pos cur junk c rest,
  Forall (fun l => forall x, ~ answers (permitted launcherQuit (qreq m pos)) None l x) junk -> permitted launcherQuit (qreq m pos) c -> c <> 47 ->
  enough cur (junk ++ [c] :: rest) -> enough (if toggles c then cur else if quiz then cur + 1 else cur) rest.
Proof.
  intros m pos cur junk c rest HJ Hp Hc [H|[Q H]].
  - left. apply in_app_or in H. destruct H as [H|[H|H]]; [|congruence|exact H].
    rewrite Forall_forall in HJ. exfalso. apply (HJ _ H 47). left. split; [reflexivity|apply quit_permitted].
  - right. split; [exact Q|].
    assert (EJ : filter answering junk = []).
    { clear H. induction junk as [|j junk IH]; [reflexivity|]. inversion HJ as [|? ? J1 J2]; subst. cbn [filter]. destruct (answering j) eqn:A; [|apply IH; exact J2].
      exfalso. destruct (answering_permitted m pos j Q A) as [x [-> Hx]]. apply (J1 x). left. auto. }
    rewrite filter_app, EJ in H. cbn [app filter] in H.
    pose proof (key_cases l style count qs Hcount Hlen m pos c Hp) as KC. rewrite Q. destruct (answering [c]) eqn:A; cbn [QuizSpec.answering] in A.
    + unfold toggles. replace (c =? 45) with false by lia. unfold len in *. cbn [length] in H. lia.
    + destruct KC as [K|[K|[K|[[K _]|[_ K]]]]]; try lia; [|congruence]. subst c. cbn [toggles N.eqb Pos.eqb]. exact H.
Qed.

Lemma answer_input : forall s1 ch c0 name r s', getAnswer R l style (48 + count) ch c0 name s1 = Ok r s' ->
  exists c s2, ask R launcherQuit (MkRequest (if quiz then Some (49, 48 + count) else None) (getPrompt l style) true ch None) s1 = Ok c s2
    /\ input R s' = input R s2
    /\ match r with inl _ => c = 45 | inr true => c = 47 | inr false => c <> 45 /\ c <> 47 end.
Proof.
  intros s1 ch c0 name r s' H. unfold getAnswer in H. rewrite Hquit in H.
  destruct (ask R launcherQuit (MkRequest (if quiz then Some (49, 48 + count) else None) (getPrompt l style) true ch None) s1) as [c s2|e s2| |]; try discriminate.
  cbn [rbind] in H. exists c, s2. split; [reflexivity|]. destruct (c =? MeaningsOption) eqn:E1; unfold MeaningsOption in E1.
  { injection H as <- <-. split; [reflexivity|]. lia. }
  destruct (isQuit launcherQuit c) eqn:E2; cbn [isQuit launcherQuit] in E2.
  { injection H as <- <-. split; [reflexivity|]. lia. }
  destruct (c =? PrevOption).
  { injection H as <- <-. split; [reflexivity|]. split; lia. }
  destruct (toChar_int (Z.of_N (49 + c0)) true) as [x|e| |]; try discriminate. destruct (x =? c); [|destruct (negb (c =? SkipOption))];
    injection H as <- <-; (split; [reflexivity|split; lia]).
Qed.
Lemma answer_fuel : forall s1 ch c0 name c s2,
  ask R launcherQuit (MkRequest (if quiz then Some (49, 48 + count) else None) (getPrompt l style) true ch None) s1 = Ok c s2 ->
  getAnswer R l style (48 + count) ch c0 name s1 <> NoReturn.
Proof.
  intros s1 ch c0 name c s2 E. unfold getAnswer. rewrite Hquit, E. cbn [rbind]. destruct (c =? MeaningsOption); [discriminate|].
  destruct (isQuit launcherQuit c); [discriminate|]. destruct (c =? PrevOption); [discriminate|]. unfold toChar_int.
  destruct (true && (Z.of_N (49 + c0) <? -128)%Z); [discriminate|]. destruct (negb true && (Z.of_N (49 + c0) <? 0)%Z); [discriminate|].
  destruct (255 <? Z.of_N (49 + c0))%Z; [discriminate|]. match goal with |- (if ?b then _ else _) <> _ => destruct b end; [discriminate|].
  destruct (negb (c =? SkipOption)); discriminate.
Qed.

Lemma question_returns : forall n rest s os o k, (length rest <= n)%nat -> lines_left (input R s) rest -> enough (current R s) rest ->
  INV s os -> unquit R s -> length os = S (visit (keys s)) -> nth_error os (visit (keys s)) = Some o ->
  oQuestion o = current R s -> nth_error qs (N.to_nat (current R s)) = Some k ->
  exists fuel b s' rest', askQuestion R extraTypeInfo reviewDetails fuel l style fields (48 + count) k qs (oRight o) (oList o)
      (rqChoices (qreq (meanings R s) (current R s))) s = Ok b s'
    /\ (b = false -> lines_left (input R s') rest' /\ (length rest' < length rest)%nat /\ enough (if quiz then current R s' + 1 else current R s') rest'
        /\ (quiz = true -> current R s' = current R s)).
Proof.
  induction n as [|n IH]; intros rest s os o k Ln Hl En I U L Ho Hq Hk.
  { exfalso. destruct rest; [|cbn in Ln; lia]. destruct En as [[]|[Q En]]. cbn in En.
    assert (X : (N.to_nat (current R s) < length qs)%nat) by (apply nth_error_Some; congruence). unfold len in En. cbn in En. lia. }
  assert (G : good_offer count qs o) by (pose proof (I_good _ _ _ _ _ _ _ _ _ _ _ s os I) as X; rewrite Forall_forall in X; apply X; apply nth_error_In with (1 := Ho)).
  assert (Hx : forall x, In x (oList o) -> exists k, nth_error qs (N.to_nat x) = Some k).
  { destruct G as [_ [_ [_ [ks [F _]]]]]. intros x Hx. clear -F Hx. induction F as [|a b la lb E F IHF]; [destruct Hx|].
    destruct Hx as [<-|Hx]; [exists b; exact E|apply IHF; exact Hx]. }
  destruct (put_question R extraTypeInfo reviewDetails l style fields qs s k o Hq Hx) as [s1 [E1 P1]].
  assert (Hcl : current R s < len qs).
  { assert (X : (N.to_nat (current R s) < length qs)%nat) by (apply nth_error_Some; congruence). unfold len. lia. }
  assert (RQ : MkRequest (if quiz then Some (49, 48 + count) else None) (getPrompt l style) true (rqChoices (qreq (meanings R s) (current R s))) None
             = qreq (meanings R s) (current R s)) by (rewrite (prompt_spec l style count qs m0); reflexivity).
  destruct (ask_cases R launcherQuit (qreq (meanings R s) (current R s)) s1 rest (request_proper l style count qs Hcount Hlen _ _)) as [A|[A|A]].
  { rewrite (P_in _ _ _ _ P1). exact Hl. }
  2:{ destruct A as [_ [d [w [A _]]]]. discriminate. }
  2:{ exfalso. destruct A as [_ [A _]]. destruct En as [En|[Q En]].
      - apply (A _ 47 En). left. split; [reflexivity|apply quit_permitted].
      - destruct (filter answering rest) as [|x xs] eqn:F; [unfold len in En; cbn in En; unfold len in Hcl; lia|].
        assert (Hin : In x (filter answering rest)) by (rewrite F; left; reflexivity). apply filter_In in Hin. destruct Hin as [Hin Hans].
        destruct (answering_permitted (meanings R s) (current R s) x Q Hans) as [c [-> Hc]]. apply (A _ c Hin). left. auto. }
  destruct A as [junk [la [c [rest' [i [w [A1 [A2 [A3 [A4 A5]]]]]]]]]].
  assert (Ela : la = [c] /\ permitted launcherQuit (qreq (meanings R s) (current R s)) c) by (destruct A3 as [A3|[_ A3]]; [exact A3|discriminate]).
  destruct Ela as [-> Hp].
  pose proof (answer_spec R extraTypeInfo reviewDetails l style fields count start qs m0 ls0 Hquit Hcount Hlen s os o k s1 I U Ho Hq Hk P1) as AS. cbv zeta in AS.
  assert (NR : getAnswer R l style (48 + count) (rqChoices (qreq (meanings R s) (current R s))) (oRight o) (qName k) s1 <> NoReturn).
  { eapply answer_fuel. rewrite RQ. exact A1. }
  assert (AI : forall r s', getAnswer R l style (48 + count) (rqChoices (qreq (meanings R s) (current R s))) (oRight o) (qName k) s1 = Ok r s' ->
     input R s' = i /\ match r with inl _ => c = 45 | inr true => c = 47 | inr false => c <> 45 /\ c <> 47 end).
  { intros r s' H. destruct (answer_input _ _ _ _ _ _ H) as [c' [s2 [B1 [B2 B3]]]]. rewrite RQ, A1 in B1. injection B1 as <- <-. cbn in B2. auto. }
  assert (LR : (length rest' < length rest)%nat) by (rewrite A2, app_length; cbn [length]; lia).
  destruct AS as [AS|[[s' [AS [I' [U' [V' C']]]]]|[[s' [AS [I' [C' [V' K']]]]]|[s' [AS [I' [U' V']]]]]]].
  - congruence.
  - destruct (AI _ _ AS) as [B1 B2]. subst c.
    destruct (IH rest' s' os o k) as [f [b [s2 [r2 [H1 H2]]]]]; try (rewrite ?V', ?C'; assumption).
    + lia.
    + rewrite B1. exact A5.
    + rewrite C'. rewrite A2 in En. eapply enough_step in En; [exact En|exact A4|exact Hp|lia].
    + exists (S f), b, s2, r2. cbn [askQuestion]. cbv zeta. rewrite E1. cbn [rbind]. rewrite AS. cbn [rbind]. split; [exact H1|]. intro Hb.
      destruct (H2 Hb) as [H3 [H4 [H5 H6]]]. split; [exact H3|]. split; [lia|]. split; [exact H5|]. intro Q. rewrite (H6 Q). exact C'.
  - exists 1%nat, true, s', rest'. cbn [askQuestion]. cbv zeta. rewrite E1. cbn [rbind]. rewrite AS. cbn [rbind]. split; [reflexivity|discriminate].
  - destruct (AI _ _ AS) as [B1 [B2 B3]]. exists 1%nat, false, s', rest'. cbn [askQuestion]. cbv zeta. rewrite E1. cbn [rbind]. rewrite AS. cbn [rbind].
    split; [reflexivity|]. intros _. split; [rewrite B1; exact A5|]. split; [exact LR|].
    rewrite A2 in En. eapply enough_step in En; [|exact A4|exact Hp|exact B3]. unfold toggles in En. replace (c =? 45) with false in En by lia.
    pose proof (key_cases l style count qs Hcount Hlen _ _ c Hp) as KC.
    destruct quiz eqn:Q.
    + assert (C' : current R s' = current R s); [|split; [rewrite C'; exact En|intros _; exact C']].
      unfold getAnswer in AS. rewrite Hquit, Q in AS. rewrite RQ, A1 in AS. cbn [rbind] in AS. unfold MeaningsOption, PrevOption in AS.
      replace (c =? 45) with false in AS by lia. cbn [isQuit launcherQuit] in AS. replace (47 =? c) with false in AS by lia.
      replace (c =? 44) with false in AS by (destruct KC as [K|[K|[K|[[K _]|[_ K]]]]]; try lia; congruence).
      pose proof (P_cur _ _ _ _ P1) as PC.
      destruct (toChar_int (Z.of_N (49 + oRight o)) true) as [x|e| |]; try discriminate. destruct (x =? c); [|destruct (negb (c =? SkipOption))];
        injection AS as <-; exact PC.
    + split; [|discriminate]. destruct En as [En|[En _]]; [|congruence]. left. exact En.
Qed.

Lemma start_returns : forall n rest s os, (length rest <= n)%nat -> lines_left (input R s) rest -> enough (current R s) rest ->
  INV s os -> unquit R s -> length os = visit (keys s) ->
  exists fuel s', startLoop R draw extraTypeInfo reviewDetails fuel l style fields count (48 + count) qs s = Ok tt s'.
Proof.
  induction n as [|n IH]; intros rest s os Ln Hl En I U L.
  all: destruct (current R s <? len qs) eqn:E; [|exists 1%nat, s; cbn [startLoop]; rewrite E; reflexivity].
  { exfalso. destruct rest; [|cbn in Ln; lia]. destruct En as [[]|[Q En]]. unfold len in En, E. cbn in En. lia. }
  destruct (nth_error qs (N.to_nat (current R s))) as [k|] eqn:Hk.
  2:{ exfalso. apply nth_error_None in Hk. unfold len in E. lia. }
  destruct (populate_returns s k Hk) as [f1 [o [s1 [H [RO [Hq G]]]]]].
  assert (I1 : INV s1 (os ++ [o])) by (eapply inv_rng; [exact RO|]; apply inv_ext; assumption).
  assert (X : getDefaultChoices R l (len qs) s = rqChoices (qreq (meanings R s1) (current R s1))).
  { destruct RO as [r0 ->]. cbn [setRng meanings current]. rewrite <- (choices_spec R l style count qs). destruct s; reflexivity. }
  assert (U1 : unquit R s1) by (destruct RO as [r0 ->]; exact U).
  assert (K1 : keys s1 = keys s) by (destruct RO as [r0 ->]; reflexivity).
  assert (C1 : current R s1 = current R s) by (destruct RO as [r0 ->]; reflexivity).
  assert (N1 : input R s1 = input R s) by (destruct RO as [r0 ->]; reflexivity).
  assert (Ho : nth_error (os ++ [o]) (visit (keys s1)) = Some o) by (rewrite K1, <- L, nth_error_app2, Nat.sub_diag by lia; reflexivity).
  assert (LO : length (os ++ [o]) = S (visit (keys s1))) by (rewrite K1, app_length; cbn [length]; lia).
  rewrite <- C1 in Hq, En, Hk. rewrite <- N1 in Hl.
  destruct (question_returns (S n) rest s1 (os ++ [o]) o k Ln Hl En I1 U1 LO Ho Hq Hk) as [f2 [b [s2 [rest' [H2 H3]]]]].
  rewrite C1 in Hk, En.
  destruct b.
  - exists (S (Nat.max f1 f2)). eexists. cbn [startLoop]. rewrite E, Hk. rewrite (populate_mono _ (Nat.max f1 f2) _ _ _ _ _ _ _ H) by lia. cbn [rbind fst snd].
    rewrite X, (question_mono _ (Nat.max f1 f2) _ _ _ _ _ _ _ _ _ _ _ _ H2) by lia. cbn [rbind]. reflexivity.
  - destruct (H3 eq_refl) as [H4 [H5 [H6 H8]]].
    destruct (question_spec R extraTypeInfo reviewDetails l style fields count start qs m0 ls0 Hquit Hcount Hlen f2 s1 (os ++ [o]) o k I1 U1 LO Ho Hq) as [Y|[[s' [Y _]]|[s' [Y [I' [U' V']]]]]].
    { rewrite C1. exact Hk. }
    { rewrite Y in H2. discriminate. }
    { rewrite Y in H2. discriminate. }
    rewrite Y in H2. injection H2 as ->.
    destruct (IH rest' (setCurrent R (u16 (current R s2 + 1)) s2) (os ++ [o])) as [f3 [s3 H7]]; try assumption.
    + lia.
    + cbn [setCurrent current]. destruct H6 as [H6|[Q H6]]; [left; exact H6|right]. split; [exact Q|]. rewrite Q in H6.
      rewrite (H8 Q), C1 in *. unfold u16. change (2 ^ 16) with 65536. rewrite N.mod_small by lia. exact H6.
    + exists (S (Nat.max f1 (Nat.max f2 f3))), s3. cbn [startLoop]. rewrite E, Hk. rewrite (populate_mono _ (Nat.max f1 (Nat.max f2 f3)) _ _ _ _ _ _ _ H) by lia. cbn [rbind fst snd].
      rewrite X, (question_mono _ (Nat.max f1 (Nat.max f2 f3)) _ _ _ _ _ _ _ _ _ _ _ _ Y) by lia. cbn [rbind]. cbv zeta.
      eapply start_mono; [exact H7|lia].
Qed.
End Run.

(** ** Whole quizzes *)
Section Whole.
Variable shuffle : list QKanji -> R -> list QKanji * R.
Variable l : Launcher.
Variable style : QuizStyle.
Variable fields count question : N.
Variable m0 : bool.
Variable lst : list QKanji.
Variable i0 : istream.
Variable r0 : R.
Variable ls0 : list bytes.
Hypothesis Hdraw : in_range draw.
Hypothesis Hshuffle : shuffles shuffle.
Hypothesis Hquit : quitOption l = launcherQuit.
Hypothesis Hcount : 1 <= count <= 9.
Hypothesis Hlen : len lst <= 65535.
Hypothesis Hquestion : question <= len lst.
Hypothesis Hread : Forall (fun k => qReading k <> []) lst.
Hypothesis Hls : lines_left i0 ls0.
Notation run fuel := (listQuiz R draw shuffle extraTypeInfo reviewDetails fuel l question m0 lst fields count style i0 r0).

Lemma various_perm : forall a b, Permutation a b -> various count a -> various count b.
Proof.
  intros a b P [rs [ND [IN L]]]. exists rs. split; [exact ND|]. split; [|exact L]. intros x Hx. apply IN in Hx.
  eapply Permutation_in; [|exact Hx]. apply Permutation_map. exact P.
Qed.

Lemma quiz_returns : fair draw -> various count lst ->
  (In [47] ls0 \/ (isQuizMode l = true /\ len lst <= question - 1 + len (filter (answering count) ls0))) ->
  exists fuel s', forall more, (fuel <= more)%nat -> run more = Ok tt s'.
Proof.
  intros Hf Hv En. assert (Hq : question <= 65535) by lia.
  destruct (begin_spec R draw shuffle extraTypeInfo reviewDetails l style fields count question m0 lst i0 r0 ls0 Hshuffle Hcount Hlen Hq Hls Hread Hquestion) as [s1 [E [I [_ [K [_ [C N]]]]]]].
  pose proof (chosen_perm R shuffle l lst r0 Hshuffle) as CP. pose proof (chosen_len R shuffle l lst r0 Hshuffle) as CL.
  set (qs := fst (chosen R shuffle l lst r0)) in *.
  destruct (start_returns l style fields count (question - 1) qs m0 ls0 Hdraw Hquit Hcount) with (n := length ls0) (rest := ls0) (s := s1) (os := @nil offer) as [f [s' H]].
  - rewrite CL. exact Hlen.
  - exact Hf.
  - eapply various_perm; [exact CP|exact Hv].
  - lia.
  - rewrite N. exact Hls.
  - unfold enough. rewrite C, CL. exact En.
  - exact I.
  - unfold unquit. rewrite K. constructor.
  - rewrite K. reflexivity.
  - exists f, (finalScore R l s'). intros more Hm. rewrite E, (start_mono _ _ _ _ _ _ _ _ _ _ _ H Hm). reflexivity.
Qed.

(** with too few different readings the first question is never shown *)
Lemma quiz_never : question - 1 < len lst -> ~ various count lst -> forall fuel, run fuel = NoReturn.
Proof.
  intros Hs Hv fuel. assert (Hq : question <= 65535) by lia.
  destruct (begin_spec R draw shuffle extraTypeInfo reviewDetails l style fields count question m0 lst i0 r0 ls0 Hshuffle Hcount Hlen Hq Hls Hread Hquestion) as [s1 [E [I [_ [K [_ [C N]]]]]]].
  pose proof (chosen_perm R shuffle l lst r0 Hshuffle) as CP. pose proof (chosen_len R shuffle l lst r0 Hshuffle) as CL.
  set (qs := fst (chosen R shuffle l lst r0)) in *. rewrite E. destruct fuel as [|fuel]; [reflexivity|]. cbn [startLoop].
  rewrite C, CL. replace (question - 1 <? len lst) with true by lia.
  destruct (nth_error qs (N.to_nat (question - 1))) as [k|] eqn:Hk.
  2:{ exfalso. apply nth_error_None in Hk. unfold len in CL, Hs. lia. }
  rewrite <- C in Hk. rewrite (populate_never l count qs Hdraw Hcount) with (2 := Hk); [reflexivity|rewrite CL; exact Hlen|].
  intro V. apply Hv. eapply various_perm; [|exact V]. apply Permutation_sym. exact CP.
Qed.
End Whole.
End Quiz.
