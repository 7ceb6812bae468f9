(** Proofs about quizzes answered with keys. *)
From Verif Require Import BaseFacts ChoiceModel ChoiceSpec ChoiceProofs QuizModel GroupModel StartModel MainModel TermModel TermSpec TermProps KeyQuizModel KeyQuizSpec.
Open Scope N_scope.
Arguments N.mul : simpl never. Arguments N.add : simpl never. Arguments N.sub : simpl never. Arguments N.pow : simpl never.

(** ** One question *)
Lemma ask_ended : forall f m def p line i w c i' w', askLoop f m def p line i w = Val (c, i', w') -> inEof i = true -> inEof i' = true.
Proof.
  induction f as [|f IH]; intros m def p line i w c i' w' E H; [discriminate E|]. cbn [askLoop] in E. unfold getline in E. rewrite H in E.
  destruct line as [|x [|y l]].
  - destruct def; [injection E as _ <- _; exact H|]. eapply IH; eassumption.
  - destruct def; (destruct (hasKey x m); [injection E as _ <- _; exact H|]; eapply IH; eassumption).
  - destruct def; eapply IH; eassumption.
Qed.
Lemma left_ended : forall i, lines_left i [] -> inEof i = true.
Proof. intros i H. unfold lines_left in H. destruct (inEof i); [reflexivity|]. destruct H as [H _]. congruence. Qed.
Lemma ask_like_key : forall ic ec m def p f line i w c i' w' t wk, askLoop f m def p line i w = Val (c, i', w') -> lines_left i (map typed (tReads t)) ->
  inEof i' = true \/ exists t' n, keyLoop ic ec f m def p t wk = Val (c, t', wk ++ concat (repeat (p ++ [10]) n))
    /\ w' = w ++ concat (repeat p n) /\ lines_left i' (map typed (tReads t')).
Proof.
  intros ic ec m def p. induction f as [|f IH]; intros line i w c i' w' t wk E Hl; [discriminate E|].
  destruct (tReads t) as [|r rs] eqn:Er.
  - left. apply (ask_ended _ _ _ _ _ _ _ _ _ _ E). apply left_ended. exact Hl.
  - cbn [map] in Hl. destruct (getline_line i line _ _ Hl) as (i1 & G & Hi1). cbn [askLoop] in E. rewrite G in E.
    destruct (key_step ic ec f m def p t wk) as (t1 & T1 & K). rewrite Er in T1, K. unfold TermProps.next in K. cbn [tl hd] in T1, K. rewrite K. rewrite <- T1 in Hi1.
    assert (Go : askLoop f m def p (typed r) i1 (w ++ p) = Val (c, i', w') ->
      inEof i' = true \/ exists t' n, keyLoop ic ec f m def p t1 (wk ++ p ++ [10]) = Val (c, t', wk ++ concat (repeat (p ++ [10]) n))
        /\ w' = w ++ concat (repeat p n) /\ lines_left i' (map typed (tReads t'))).
    { intro E'. destruct (IH _ _ _ _ _ _ t1 (wk ++ p ++ [10]) E' Hi1) as [X|(t' & n & X1 & X2 & X3)]; [left; exact X|]. right. exists t', (S n).
      rewrite X1, X2. cbn [repeat concat]. rewrite <- !app_assoc. split; [reflexivity|]. split; [reflexivity|exact X3]. }
    assert (Now : forall d, Val (d, i1, w ++ p) = Val (c, i', w') ->
      inEof i' = true \/ exists t' n, Val (d, t1, wk ++ p ++ [10]) = Val (c, t', wk ++ concat (repeat (p ++ [10]) n))
        /\ w' = w ++ concat (repeat p n) /\ lines_left i' (map typed (tReads t'))).
    { intros d E'. injection E' as -> <- <-. right. exists t1, 1%nat. cbn [repeat concat]. rewrite !app_nil_r. split; [reflexivity|]. split; [reflexivity|exact Hi1]. }
    destruct (typed r) as [|x [|y l]].
    + destruct def as [d|]; [apply Now; exact E|apply Go; exact E].
    + destruct def; (destruct (hasKey x m); [apply Now; exact E|apply Go; exact E]).
    + destruct def; apply Go; exact E.
Qed.
Lemma get_like_key : forall ic ec f q msg u m def i c i' w' t, get f q msg u m def i = Val (c, i', w') -> lines_left i (map typed (tReads t)) ->
  inEof i' = true \/ exists t' p n, getKey ic ec f q msg u m def t = Val (c, t', concat (repeat (p ++ [10]) n))
    /\ w' = concat (repeat p n) /\ lines_left i' (map typed (tReads t')).
Proof.
  intros ic ec f q msg u m def i c i' w' t E Hl. unfold get in E. unfold getKey. destruct (prepare q msg u m def) as [[m' p]| | |]; try discriminate E. cbn [obind] in *.
  destruct (ask_like_key ic ec _ _ _ _ _ _ _ _ _ _ t [] E Hl) as [X|(t' & n & X1 & X2 & X3)]; [left; exact X|]. right. exists t', p, n. auto.
Qed.
Lemma get_ended : forall f q msg u m def i c i' w', get f q msg u m def i = Val (c, i', w') -> inEof i = true -> inEof i' = true.
Proof.
  intros f q msg u m def i c i' w' E H. unfold get in E. destruct (prepare q msg u m def) as [[m' p]| | |]; try discriminate E. cbn [obind] in E.
  eapply ask_ended; eassumption.
Qed.
Lemma key_run_app : forall ic ec es es' t t1 t2, key_run ic ec es t t1 -> key_run ic ec es' t1 t2 -> key_run ic ec (es ++ es') t t2.
Proof.
  intros ic ec es es' t t1 t2 H. revert es' t2. induction H; intros es' t2 H'; cbn [app]; [exact H'|constructor; apply IHkey_run; exact H'|].
  econstructor; [eassumption|apply IHkey_run; exact H'].
Qed.

Section Traced.
Variables ic ec : N.
Variable R : Type.
Notation State := (State R).
Notation input := (input R).
Notation events := (events R).
(** the events so far can be had with the keys, if the input has not ended *)
Definition Traced (t0 : Term) (s : State) : Prop :=
  inEof (input s) = true \/ exists t, key_run ic ec (events s) t0 t /\ lines_left (input s) (map typed (tReads t)).
Definition keeps {A} (t0 : Term) (m : res State A) : Prop := match m with Ok _ s => Traced t0 s | Err _ s => Traced t0 s | _ => True end.
Variable t0 : Term.
Lemma keeps_bind : forall A B (m : res State A) (k : A -> State -> res State B), keeps t0 m -> (forall a s, Traced t0 s -> keeps t0 (k a s)) -> keeps t0 (rbind m k).
Proof. intros A B [a s|e s| |] k H K; cbn [rbind keeps] in *; auto. Qed.
Lemma traced_event : forall e s, match e with Print _ => True | _ => False end -> Traced t0 s -> Traced t0 (addEvent R e s).
Proof.
  intros [x|] s He [H|(t & H1 & H2)]; [left; exact H| |destruct He|destruct He]. right. exists t. split; [|exact H2].
  apply (key_run_app _ _ _ _ _ t); [exact H1|]. constructor. constructor.
Qed.
Lemma traced_print : forall x s, Traced t0 s -> Traced t0 (print R x s).
Proof. intros. apply traced_event; [exact I|assumption]. Qed.
Lemma traced_current : forall n s, Traced t0 s -> Traced t0 (setCurrent R n s). Proof. intros n s H. exact H. Qed.
Lemma traced_meanings : forall n s, Traced t0 s -> Traced t0 (setMeanings R n s). Proof. intros n s H. exact H. Qed.
Lemma traced_correct : forall n s, Traced t0 s -> Traced t0 (setCorrect R n s). Proof. intros n s H. exact H. Qed.
Lemma traced_mistake : forall n s, Traced t0 s -> Traced t0 (addMistake R n s). Proof. intros n s H. exact H. Qed.
Lemma traced_rng : forall n s, Traced t0 s -> Traced t0 (setRng R n s). Proof. intros n s H. exact H. Qed.
Lemma keeps_ask : forall q rq s, q = launcherQuit -> Traced t0 s -> keeps t0 (ask R q rq s).
Proof.
  intros q rq s -> H. unfold ask. set (fu := S (S _)). cbv zeta.
  set (x := match rqRange rq with Some (a, b) => getRange fu launcherQuit a b (rqMsg rq) (rqUseQuit rq) (rqChoices rq) (rqDefault rq) (input s)
            | None => get fu launcherQuit (rqMsg rq) (rqUseQuit rq) (rqChoices rq) (rqDefault rq) (input s) end).
  assert (X : forall c i w, x = Val (c, i, w) ->
    (inEof (input s) = true -> inEof i = true) /\ (forall t, lines_left (input s) (map typed (tReads t)) -> inEof i = true \/
       exists t' p n, askKey ic ec fu launcherQuit rq t = Val (c, t', concat (repeat (p ++ [10]) n)) /\ w = concat (repeat p n) /\ lines_left i (map typed (tReads t')))).
  { intros c i w E. subst x. unfold askKey. destruct (rqRange rq) as [[a b]|].
    - unfold getRange in E. unfold getRangeKey. destruct (checkPrintableAscii a) as [[]| | |]; try discriminate E. cbn [obind] in *.
      destruct (checkPrintableAscii b) as [[]| | |]; try discriminate E. cbn [obind] in *. destruct (b <? a); [discriminate E|].
      destruct (addRange (N.to_nat (b - a + 1)) a (rqChoices rq)) as [m| | |]; try discriminate E. cbn [obind] in *. split.
      + eapply get_ended. exact E.
      + intros t Ht. eapply get_like_key; eassumption.
    - split; [eapply get_ended; exact E|]. intros t Ht. eapply get_like_key; eassumption. }
  destruct x as [[[c i] w]| | |]; cbn [keeps]; try exact I; [|exact H]. destruct (X c i w eq_refl) as [X1 X2].
  destruct H as [H|(t & H1 & H2)]; [left; apply X1; exact H|]. destruct (X2 t H2) as [Y|(t' & p & n & Y1 & -> & Y3)]; [left; exact Y|].
  right. exists t'. split; [|exact Y3]. apply (key_run_app _ _ _ _ _ t); [exact H1|]. econstructor; [exact Y1|constructor].
Qed.
End Traced.
