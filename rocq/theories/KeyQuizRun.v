(** Proofs about quizzes answered with keys: every part of a quiz only reads answers. *)
From Verif Require Import BaseFacts ChoiceModel ChoiceSpec QuizModel GroupModel StartModel MainModel TermModel TermSpec TermProps KeyQuizModel KeyQuizSpec KeyQuizProofs.
Open Scope N_scope.
Arguments N.mul : simpl never. Arguments N.add : simpl never. Arguments N.sub : simpl never. Arguments N.pow : simpl never.

Section Walk.
Variables ic ec : N.
Variable R : Type.
Variable draw : N -> R -> N * R.
Variable shuffle : list QKanji -> R -> list QKanji * R.
Variable shuffleGroups : list Group -> R -> list Group * R.
Variable otherNumber : GroupType -> bytes -> option N.
Variable extraTypeInfo reviewDetails : QKanji -> bytes.
Notation State := (State R).
Notation Traced := (Traced ic ec R).
Notation keeps := (keeps ic ec R).
Variable t0 : Term.

Ltac tr := cbv zeta; repeat match goal with
  | H : Traced t0 ?s |- Traced t0 ?s => exact H
  | |- Traced t0 (print _ _ _) => apply traced_print
  | |- Traced t0 (setCurrent _ _ _) => apply traced_current
  | |- Traced t0 (setMeanings _ _ _) => apply traced_meanings
  | |- Traced t0 (setCorrect _ _ _) => apply traced_correct
  | |- Traced t0 (addMistake _ _ _) => apply traced_mistake
  | |- Traced t0 (setRng _ _ _) => apply traced_rng
  | |- Traced t0 (match ?b with _ => _ end) => destruct b
  end.
Ltac kp := cbv zeta; repeat (cbv beta iota zeta; match goal with
  | |- keeps t0 Undefined => exact I
  | |- keeps t0 NoReturn => exact I
  | |- keeps t0 (Ok _ _) => cbn [KeyQuizProofs.keeps]
  | |- keeps t0 (Err _ _) => cbn [KeyQuizProofs.keeps]
  | |- keeps t0 (rbind _ _) => apply keeps_bind; [|intros]
  | |- keeps t0 (ask _ _ _ _) => apply keeps_ask; [assumption|]
  | |- keeps t0 (match ?b with _ => _ end) => destruct b
  | |- Traced t0 _ => progress tr
  end).

Lemma tr_meaning : forall k a b s, Traced t0 s -> Traced t0 (printMeaning R k a b s).
Proof. intros. unfold printMeaning. tr. Qed.
Lemma tr_begin : forall l n s, Traced t0 s -> Traced t0 (beginQuestionMessage R l n s).
Proof. intros. unfold beginQuestionMessage. tr. Qed.
Lemma tr_right : forall s, Traced t0 s -> Traced t0 (correctMessage R s).
Proof. intros. unfold correctMessage. tr. Qed.
Lemma tr_wrong : forall n s, Traced t0 s -> Traced t0 (incorrectMessage R n s).
Proof. intros. unfold incorrectMessage. tr. Qed.
Lemma tr_score : forall l s, Traced t0 s -> Traced t0 (finalScore R l s).
Proof. intros. unfold finalScore. tr. Qed.
Lemma kp_destroyed : forall A l (m : res State A), keeps t0 m -> keeps t0 (destroyed R l m).
Proof. intros A l [a s|e s| |] H; cbn [destroyed KeyQuizProofs.keeps] in *; try exact I; apply tr_score; exact H. Qed.
Lemma kp_begin : forall l n s, Traced t0 s -> keeps t0 (beginQuizMessage R l n s).
Proof. intros. unfold beginQuizMessage. kp. Qed.
Lemma tr_toggle : forall m s, Traced t0 s -> Traced t0 (snd (toggleMeanings R m s)).
Proof. intros. unfold toggleMeanings. cbn [snd]. tr. Qed.
Lemma kp_pick : forall f qs seen s, Traced t0 s -> keeps t0 (pickAnswer R draw f qs seen s).
Proof. induction f as [|f IH]; intros qs seen s H; [exact I|]. cbn [pickAnswer]. destruct (draw _ _) as [c r]. kp. apply IH. tr. Qed.
Lemma kp_picks : forall f n i c qs seen s, Traced t0 s -> keeps t0 (pickAnswers R draw f n i c qs seen s).
Proof.
  intros f. induction n as [|n IH]; intros i c qs seen s H; [exact H|]. cbn [pickAnswers]. destruct (i =? c).
  - apply keeps_bind; [apply IH; exact H|]. intros. kp.
  - apply keeps_bind; [apply kp_pick; exact H|]. intros. apply keeps_bind; [apply IH; assumption|]. intros. kp.
Qed.
Lemma kp_populate : forall f l n k qs s, Traced t0 s -> keeps t0 (populateAnswers R draw f l n k qs s).
Proof.
  intros f l n k qs s H. unfold populateAnswers. destruct (randomizeAnswers l); [destruct (draw n (rng R s)) as [c r]|]; (destruct (_ <=? _); [exact I|]);
    (apply keeps_bind; [apply kp_picks; tr|intros; kp]).
Qed.
Lemma tr_question : forall l st fi k s, Traced t0 s -> Traced t0 (printQuestion R extraTypeInfo l st fi k s).
Proof. intros. unfold printQuestion. apply tr_meaning. tr. Qed.
Lemma kp_answers : forall st qs l i s, Traced t0 s -> keeps t0 (printAnswers R st i l qs s).
Proof. intros st qs. induction l as [|a l IH]; intros i s H; [exact H|]. cbn [printAnswers]. destruct (nth_error _ _); [|exact I]. apply IH. tr. Qed.
Lemma kp_choices : forall l st an k qs s, Traced t0 s -> keeps t0 (printChoices R reviewDetails l st an k qs s).
Proof. intros. unfold printChoices. destruct (isQuizMode l); [apply kp_answers; assumption|kp]. Qed.
Lemma kp_answer : forall l st e ch c n s, quitOption l = launcherQuit -> Traced t0 s -> keeps t0 (getAnswer R l st e ch c n s).
Proof.
  intros l st e ch c n s Q H. unfold getAnswer. apply keeps_bind; [apply keeps_ask; assumption|]. intros a s1 H1. unfold toggleMeanings. kp.
  - apply tr_right. exact H1.
  - apply tr_wrong. exact H1.
Qed.
Lemma kp_ask_question : forall f l st fi e k qs c an ch s, quitOption l = launcherQuit -> Traced t0 s ->
  keeps t0 (askQuestion R extraTypeInfo reviewDetails f l st fi e k qs c an ch s).
Proof.
  induction f as [|f IH]; intros l st fi e k qs c an ch s Q H; [exact I|]. cbn [askQuestion]. cbv zeta.
  apply keeps_bind; [apply kp_choices; apply tr_question; apply tr_begin; exact H|]. intros _ s1 H1.
  apply keeps_bind; [apply kp_answer; assumption|]. intros [x|x] s2 H2; [apply IH; assumption|exact H2].
Qed.
Lemma kp_start : forall f l st fi n e qs s, quitOption l = launcherQuit -> Traced t0 s ->
  keeps t0 (startLoop R draw extraTypeInfo reviewDetails f l st fi n e qs s).
Proof.
  induction f as [|f IH]; intros l st fi n e qs s Q H; [exact I|]. cbn [startLoop]. cbv zeta. destruct (_ <? _); [|exact H]. destruct (nth_error _ _); [|exact I].
  apply keeps_bind; [apply kp_populate; exact H|]. intros p s1 H1. apply keeps_bind; [apply kp_ask_question; assumption|]. intros b s2 H2.
  destruct b; [exact H2|]. apply IH; [exact Q|exact H2].
Qed.
Lemma kp_list : forall f l q m lst fi n st i r, quitOption l = launcherQuit -> lines_left i (map typed (tReads t0)) \/ inEof i = true ->
  keeps t0 (listQuiz R draw shuffle extraTypeInfo reviewDetails f l q m lst fi n st i r).
Proof.
  intros f l q m lst fi n st i r Q Hi. unfold listQuiz. apply kp_destroyed.
  assert (H : Traced t0 (initial R q m i r)) by (destruct Hi as [Hi|Hi]; [right; exists t0; split; [constructor|exact Hi]|left; exact Hi]).
  destruct (toChar_int _ _) as [e| | |]; try exact I; [|exact H]. destruct (forallb hasReading lst); [|exact H].
  assert (X : forall qs r', keeps t0 (rbind (beginQuizMessage R l (len qs) (setRng R r' (initial R q m i r))) (fun _u s =>
     let s := print R (b_ "kanji
>>>
") s in
           let s := if isKanjiToReading st then printLegend R fi s else s in
           startLoop R draw extraTypeInfo reviewDetails f l st fi n e qs s))).
  { intros qs r'. apply keeps_bind; [apply kp_begin; exact H|]. intros _ s1 H1. cbv zeta. apply kp_start; [exact Q|]. destruct (isKanjiToReading st); [unfold printLegend|]; tr. }
  destruct (questionOrder l); [apply X|apply X| |apply X]. destruct (shuffle lst r) as [qs r']. apply X.
Qed.

(** ** Groups *)
Lemma kp_lift : forall A (m : out A) s, Traced t0 s -> keeps t0 (lift R m s).
Proof. intros A [a|e| |] s H; cbn; try exact I; exact H. Qed.
Lemma tr_prepare : forall l m b lst s, Traced t0 s -> Traced t0 (snd (prepareList R shuffleGroups l m b lst s)).
Proof. intros. unfold prepareList. destruct (questionOrder l); try assumption. destruct (shuffleGroups _ _). cbn [snd]. tr. Qed.
Lemma kp_members : forall l t qs n rs an rp ch s, Traced t0 s -> keeps t0 (showMembers R otherNumber l t n qs rs an rp ch s).
Proof.
  intros l t. induction qs as [|k qs IH]; intros n rs an rp ch s H; cbn [showMembers]; [kp|].
  apply keeps_bind; [apply kp_lift; exact H|]. intros c s1 H1. cbv zeta. apply keeps_bind; [apply kp_lift; tr|]. intros x s2 H2. destruct rs as [|r rs]; [exact I|].
  cbv zeta. apply IH. apply tr_meaning. tr.
Qed.
Lemma kp_edit : forall l ch an s, quitOption l = launcherQuit -> Traced t0 s -> keeps t0 (editAnswer R l ch an s).
Proof. intros l ch an s Q H. unfold editAnswer, getAnswerToEdit. kp. Qed.
Lemma tr_assigned : forall an s, Traced t0 s -> Traced t0 (printAssignedAnswers R an s).
Proof. intros. unfold printAssignedAnswers. tr. Qed.
Lemma kp_group_answer : forall f l t s, quitOption l = launcherQuit -> Traced t0 s -> keeps t0 (getGroupAnswer R f l t s).
Proof.
  induction f as [|f IH]; intros l t s Q H; [exact I|]. cbn [getGroupAnswer]. cbv zeta.
  apply keeps_bind; [apply keeps_ask; [exact Q|apply tr_assigned; exact H]|]. intros a s1 H1.
  assert (G : forall t s, Traced t0 s -> keeps t0 (if negb (tSkip t) && negb (tRefresh t) then getGroupAnswer R f l t s else Ok (false, t) s))
    by (intros t' s' H'; destruct (_ && _); [apply IH; assumption|exact H']).
  destruct (a =? RefreshOption); [apply G; exact H1|]. destruct (a =? MeaningsOption); [unfold toggleMeanings; cbv beta iota zeta; apply G; tr|].
  destruct (a =? PrevOption); [apply G; tr|]. destruct (a =? SkipOption); [apply G; exact H1|].
  destruct (a =? EditOption); [apply keeps_bind; [apply kp_edit; assumption|intros; apply G; assumption]|]. destruct (isQuit _ _); exact H1.
Qed.
Lemma kp_group_answers : forall f n l ch an s, quitOption l = launcherQuit -> Traced t0 s -> keeps t0 (getGroupAnswers R f n l ch an s).
Proof.
  intros f. induction n as [|n IH]; intros l ch an s Q H; [exact H|]. cbn [getGroupAnswers]. apply keeps_bind; [apply kp_group_answer; assumption|].
  intros p s1 H1. cbv zeta. destruct (fst p); [apply IH; assumption|exact H1].
Qed.
Lemma kp_check : forall qs rs n an s, Traced t0 s -> keeps t0 (checkAnswers R qs rs n an s).
Proof.
  intros. unfold checkAnswers. apply keeps_bind; [apply kp_lift; assumption|]. intros x s1 H1. destruct (x =? len an); cbn [KeyQuizProofs.keeps].
  - apply tr_right. exact H1.
  - apply traced_print. apply tr_wrong. exact H1.
Qed.
Lemma kp_ask_group : forall f l ty n g qs rs ch an rp s, quitOption l = launcherQuit -> Traced t0 s -> keeps t0 (askGroup R otherNumber f l ty n g qs rs ch an rp s).
Proof.
  induction f as [|f IH]; intros l ty n g qs rs ch an rp s Q H; [exact I|]. cbn [askGroup]. cbv zeta.
  apply keeps_bind; [apply kp_members; apply traced_print; apply tr_begin; exact H|]. intros c s1 H1.
  apply keeps_bind; [apply kp_group_answers; assumption|]. intros [[given t] stop] s2 H2.
  destruct given; [apply keeps_bind; [apply kp_check; exact H2|intros; assumption]|]. destruct (_ && _); [apply IH; assumption|exact H2].
Qed.
Lemma kp_group_loop : forall f l ty m lst s, quitOption l = launcherQuit -> Traced t0 s -> keeps t0 (groupLoop R shuffle otherNumber f l ty m lst s).
Proof.
  induction f as [|f IH]; intros l ty m lst s Q H; [exact I|]. cbn [groupLoop]. cbv zeta. destruct (_ <? _); [|exact H]. destruct (nth_error _ _) as [g|]; [|exact I].
  assert (G : forall qs rs s, Traced t0 s -> keeps t0 (rbind (askGroup R otherNumber f l ty (len lst) g qs rs (getDefaultChoices R l (len lst) s) [] false s)
     (fun stop s => if stop then Ok tt s else groupLoop R shuffle otherNumber f l ty m lst (setCurrent R (u16 (current R s + 1)) s)))).
  { intros qs rs s' H'. apply keeps_bind; [apply kp_ask_group; assumption|]. intros b s2 H2. destruct b; [exact H2|]. apply IH; [exact Q|exact H2]. }
  destruct (isQuizMode l && randomizeAnswers l); [|apply G; exact H].
  destruct (shuffle _ (rng R s)) as [q r1]. destruct (shuffle _ r1) as [x r2]. apply G. exact H.
Qed.
Lemma kp_start_groups : forall f l t m lst s, quitOption l = launcherQuit -> Traced t0 s -> keeps t0 (startGroups R shuffle otherNumber f l t m lst s).
Proof.
  intros f l t m lst s Q H. unfold startGroups. apply keeps_bind; [apply kp_begin; exact H|]. intros _ s1 H1. cbv zeta. apply kp_group_loop; [exact Q|].
  destruct (_ <? _); tr.
Qed.
Lemma kp_groups : forall f l q b lst m i r, quitOption l = launcherQuit -> lines_left i (map typed (tReads t0)) \/ inEof i = true ->
  keeps t0 (groupQuiz R shuffleGroups shuffle otherNumber f l q b lst m i r).
Proof.
  intros f l q b lst m i r Q Hi. unfold groupQuiz. cbv zeta. apply kp_destroyed.
  assert (H : Traced t0 (initial R q b i r)) by (destruct Hi as [Hi|Hi]; [right; exists t0; split; [constructor|exact Hi]|left; exact Hi]).
  assert (G : forall g bk s, Traced t0 s -> keeps t0 (let '(x, s) := prepareList R shuffleGroups l m bk lst s in startGroups R shuffle otherNumber f l (gType g) m x s)).
  { intros g bk s Hs. pose proof (tr_prepare l m bk lst s Hs) as P. destruct (prepareList _ _ _ _ _ _ _) as [x s1]. apply kp_start_groups; [exact Q|exact P]. }
  destruct lst as [|g lst]; [exact H|]. destruct (gType g) eqn:Eg.
  - destruct (questionOrder l), m; try (rewrite <- Eg; apply G; exact H); rewrite <- Eg; apply kp_start_groups; assumption.
  - apply keeps_bind; [apply keeps_ask; assumption|]. intros c s1 H1. destruct (isQuit _ _); [exact H1|]. rewrite <- Eg. apply G. exact H1.
Qed.
End Walk.

Section Whole.
Variables ic ec : N.
Variable R : Type.
Variable draw : N -> R -> N * R.
Variable shuffle : list QKanji -> R -> list QKanji * R.
Variable shuffleGroups : list Group -> R -> list Group * R.
Variable otherNumber : GroupType -> bytes -> option N.
Variable extraTypeInfo reviewDetails : QKanji -> bytes.
Notation Traced := (Traced ic ec R).
Notation keeps := (keeps ic ec R).

Lemma loop_none : forall f m def p t w c t' w', keyLoop ic ec f m def p t w = Val (c, t', w') -> tReads t = [] -> tReads t' = [].
Proof.
  induction f as [|f IH]; intros m def p t w c t' w' E H; [discriminate E|].
  destruct (key_step ic ec f m def p t w) as (t1 & T1 & K). rewrite K in E. rewrite H in T1. cbn [tl] in T1.
  destruct (typed _) as [|x [|y l]].
  - destruct def; [injection E as _ <- _; exact T1|]. eapply IH; eassumption.
  - destruct def; (destruct (hasKey x m); [injection E as _ <- _; exact T1|]; eapply IH; eassumption).
  - destruct def; eapply IH; eassumption.
Qed.
Lemma key_none_left : forall f q msg u m def t c t' w', getKey ic ec f q msg u m def t = Val (c, t', w') -> tReads t = [] -> tReads t' = [].
Proof.
  intros f q msg u m def t c t' w' E H. unfold getKey in E. destruct (prepare q msg u m def) as [[m' p]| | |]; try discriminate E. cbn [obind] in E.
  eapply loop_none; eassumption.
Qed.
Lemma run_none : forall es t t', key_run ic ec es t t' -> tReads t = [] -> tReads t' = [].
Proof.
  intros es t t' H. induction H as [t|x es t t' H IH|rq c p n f es t t1 t' E H IH]; intro K; [exact K|apply IH; exact K|]. apply IH. unfold askKey in E.
  destruct (rqRange rq) as [[a b]|]; [|eapply key_none_left; eassumption]. unfold getRangeKey in E.
  destruct (checkPrintableAscii a) as [[]| | |]; try discriminate E. cbn [obind] in E.
  destruct (checkPrintableAscii b) as [[]| | |]; try discriminate E. cbn [obind] in E. destruct (b <? a); [discriminate E|].
  destruct (addRange (N.to_nat (b - a + 1)) a (rqChoices rq)) as [m| | |]; try discriminate E. cbn [obind] in E. eapply key_none_left; eassumption.
Qed.
Lemma kp_after : forall t0 s run, Traced t0 s -> (forall t1 i r, lines_left i (map typed (tReads t1)) \/ inEof i = true -> keeps t1 (run i r)) ->
  keeps t0 (after R s run).
Proof.
  intros t0 s run H K. unfold after.
  assert (X : forall s', (forall t1, lines_left (input R s) (map typed (tReads t1)) \/ inEof (input R s) = true -> Traced t1 s') ->
    Traced t0 (MkState R 0 false 0 [] (input R s') (events R s ++ events R s') (rng R s'))).
  { intros s' G. destruct H as [H|(t & H1 & H2)].
    - left. destruct (G (MkTerm None [] [] []) (or_intror H)) as [G1|(t & G1 & G2)]; [exact G1|]. apply run_none in G1; [|reflexivity].
      rewrite G1 in G2. apply left_ended. exact G2.
    - destruct (G t (or_introl H2)) as [G1|(t' & G1 & G2)]; [left; exact G1|]. right. exists t'. split; [|exact G2]. eapply key_run_app; eassumption. }
  assert (Y : forall t1, lines_left (input R s) (map typed (tReads t1)) \/ inEof (input R s) = true -> keeps t1 (run (input R s) (rng R s))) by (intros; apply K; assumption).
  destruct (run (input R s) (rng R s)) as [u s'|e s'| |]; try exact I; cbn [KeyQuizProofs.keeps] in *; apply X; exact Y.
Qed.

Variable d : Data.
Variable meaningGroups patternGroups : list Group.
Variable fuel : nat.
Variable t0 : Term.
Lemma kp_asked : forall rq s, Traced t0 s -> keeps t0 (asked R rq s).
Proof. intros. unfold asked. apply keeps_ask; [reflexivity|assumption]. Qed.
Lemma kp_or : forall o rq s, Traced t0 s -> keeps t0 (orAsked R o rq s).
Proof. intros [c|] rq s H; [exact H|apply kp_asked; exact H]. Qed.
Lemma kp_lifted : forall A (m : out A) s, Traced t0 s -> keeps t0 (lifted R m s).
Proof. intros A [a|e| |] s H; cbn; try exact I; exact H. Qed.
Lemma kp_list_quiz : forall l q b x lst s, quitOption l = launcherQuit -> Traced t0 s ->
  keeps t0 (startListQuiz R draw shuffle extraTypeInfo reviewDetails fuel l q b x lst s).
Proof.
  intros l q b x lst s Q H. unfold startListQuiz. cbv zeta.
  assert (G : forall n st s, Traced t0 s -> keeps t0 (after R s (listQuiz R draw shuffle extraTypeInfo reviewDetails fuel l q b (map detailed lst) (N.lxor Info_All x) n (toQuizStyle st))))
    by (intros n st s' H'; apply kp_after; [exact H'|]; intros; apply kp_list; assumption).
  destruct (isQuizMode l); [|apply G; exact H]. apply keeps_bind; [apply kp_asked; exact H|]. intros c s1 H1. destruct (quits c); [exact H1|].
  apply keeps_bind; [apply kp_asked; exact H1|]. intros st s2 H2. destruct (quits st); [exact H2|]. apply G. exact H2.
Qed.
Lemma kp_group_quiz : forall l q b o lst s, quitOption l = launcherQuit -> Traced t0 s ->
  keeps t0 (startGroupQuiz R shuffle shuffleGroups otherNumber fuel l q b o lst s).
Proof.
  intros l q b o lst s Q H. unfold startGroupQuiz. apply keeps_bind; [apply kp_or; exact H|]. intros c s1 H1. destruct (quits c); [exact H1|].
  destruct (memberType c); [|exact I]. apply kp_after; [exact H1|]. intros. apply kp_groups; assumption.
Qed.
Lemma kp_type : forall l ty o q b s, quitOption l = launcherQuit -> Traced t0 s ->
  keeps t0 (startType R draw shuffle shuffleGroups otherNumber extraTypeInfo reviewDetails d meaningGroups patternGroups fuel l ty o q b s).
Proof.
  intros l ty o q b s Q H. unfold startType. cbv zeta.
  assert (G : forall rq x lst s, Traced t0 s -> keeps t0 (rbind (orAsked R o rq s) (fun c s => if quits c then Ok tt s
     else rbind (lifted R (lst c) s) (fun y s => startListQuiz R draw shuffle extraTypeInfo reviewDetails fuel l q b x y s)))).
  { intros rq x lst s' H'. apply keeps_bind; [apply kp_or; exact H'|]. intros c s1 H1. destruct (quits c); [exact H1|].
    apply keeps_bind; [apply kp_lifted; exact H1|]. intros. apply kp_list_quiz; assumption. }
  apply keeps_bind; [apply kp_or; exact H|]. intros c s1 H1.
  destruct (c =? 102); [apply G; exact H1|]. destruct (c =? 103); [apply G; exact H1|]. destruct (c =? 107); [apply G; exact H1|]. destruct (c =? 108); [apply G; exact H1|].
  destruct (c =? 109); [apply kp_group_quiz; assumption|]. destruct (c =? 112); [apply kp_group_quiz; assumption|exact H1].
Qed.
Lemma kp_quiz : forall m o ty ql q b rz s, Traced t0 s ->
  keeps t0 (startQuiz R draw shuffle shuffleGroups otherNumber extraTypeInfo reviewDetails d meaningGroups patternGroups fuel m o ty ql q b rz s).
Proof.
  intros m o ty ql q b rz s H. unfold startQuiz. apply keeps_bind.
  { destruct m; try exact H. apply keeps_bind; [apply kp_asked; exact H|]. intros. assumption. }
  intros m' s1 H1.
  assert (G : forall m1, keeps t0 (rbind (match o with
                  | NoOrder => rbind (asked R orderRequest s1) (fun c s => Ok (if c =? 98 then FromBeginning else if c =? 101 then FromEnd
                                   else if c =? 114 then RandomOrder else NoOrder) s)
                  | _ => Ok o s1 end) (fun o s => match o with
      | NoOrder => Ok (m1, NoOrder) s
      | _ => let l := MkLauncher (match m1 with QuizMode => true | _ => false end) o rz launcherQuit in
          rbind (startType R draw shuffle shuffleGroups otherNumber extraTypeInfo reviewDetails d meaningGroups patternGroups fuel l ty ql q b s) (fun _u s => Ok (NoMode, NoOrder) s)
      end))).
  { intro m1. apply keeps_bind.
    - destruct o; try exact H1. apply keeps_bind; [apply kp_asked; exact H1|]. intros. assumption.
    - intros o' s2 H2. destruct o'; try exact H2; cbv zeta; (apply keeps_bind; [apply kp_type; [reflexivity|exact H2]|intros; assumption]). }
  destruct m'; first [exact H1|exact (G Review)|exact (G QuizMode)].
Qed.
Lemma kp_options : forall p i r, lines_left i (map typed (tReads t0)) ->
  keeps t0 (startOptions R draw shuffle shuffleGroups otherNumber extraTypeInfo reviewDetails d meaningGroups patternGroups fuel p i r).
Proof. intros p i r H. unfold startOptions. apply kp_quiz. right. exists t0. split; [constructor|exact H]. Qed.
End Whole.
