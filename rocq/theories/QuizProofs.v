(** Proofs about list quizzes. *)
From Verif Require Import BaseFacts.
From Verif Require Export QuizAsk.
Open Scope N_scope.
Arguments N.add : simpl never.
Arguments N.sub : simpl never.
Arguments N.mul : simpl never.
Arguments u16 : simpl never.
Arguments u64 : simpl never.

(** ** Lists *)

Lemma combine_snoc : forall A B (a : list A) (b : list B) x y, nth_error b (length a) = Some y ->
  combine (a ++ [x]) b = combine a b ++ [(x, y)].
Proof.
  induction a as [|h a IH]; intros b x y H; destruct b as [|k b]; try discriminate; cbn [length nth_error] in H; cbn [app combine].
  - injection H as ->. reflexivity.
  - rewrite (IH b x y H). reflexivity.
Qed.
Lemma combine_ext : forall A B (a : list A) (b c : list B), (length a <= length b)%nat -> combine a (b ++ c) = combine a b.
Proof.
  induction a as [|h a IH]; intros b c H; [reflexivity|]. destruct b as [|k b]; [cbn in H; lia|]. cbn [app combine]. rewrite IH by (cbn in H; lia). reflexivity.
Qed.
Lemma nth_error_snoc : forall A (l : list A) x j y, nth_error (l ++ [x]) j = Some y ->
  nth_error l j = Some y /\ (j < length l)%nat \/ j = length l /\ y = x.
Proof.
  intros A l x j y H. destruct (Nat.lt_ge_cases j (length l)) as [L|L].
  - left. rewrite nth_error_app1 in H by exact L. auto.
  - right. rewrite nth_error_app2 in H by exact L. destruct (j - length l)%nat as [|d] eqn:E; cbn [nth_error] in H.
    + injection H as ->. split; [lia|reflexivity].
    + destruct d; discriminate.
Qed.

Lemma filter_le : forall A (f : A -> bool) l, (length (filter f l) <= length l)%nat.
Proof. induction l as [|x l IH]; [apply Nat.le_refl|]. cbn [filter]. destruct (f x); cbn [length]; lia. Qed.

(** ** Keys *)

Lemma position_snoc : forall start ks k, position start (ks ++ [k]) = move (position start ks) k.
Proof. intros. unfold position. rewrite fold_left_app. reflexivity. Qed.
Lemma toggled_snoc : forall m ks k, toggled m (ks ++ [k]) = if toggles k then negb (toggled m ks) else toggled m ks.
Proof. intros. unfold toggled. rewrite fold_left_app. reflexivity. Qed.
Lemma ending_snoc : forall ks k, ending (ks ++ [k]) = if toggles k then ending ks else ending ks ++ [k].
Proof. intros. unfold ending. rewrite filter_app. cbn [filter]. destruct (toggles k); cbn [negb]; [apply app_nil_r|reflexivity]. Qed.
Lemma visit_snoc : forall ks k, visit (ks ++ [k]) = if toggles k then visit ks else S (visit ks).
Proof. intros. unfold visit. rewrite ending_snoc. destruct (toggles k); [reflexivity|]. rewrite app_length. cbn. lia. Qed.
Lemma rights_snoc : forall os ks k o, nth_error os (visit ks) = Some o -> toggles k = false ->
  rights os (ks ++ [k]) = rights os ks + (if isRight (judge k o) then 1 else 0).
Proof.
  intros os ks k o H T. unfold rights, answered. rewrite ending_snoc, T, (combine_snoc _ _ _ _ _ _ H), filter_app.
  cbn [filter fst snd]. unfold len. rewrite app_length. destruct (isRight (judge k o)); cbn [length]; lia.
Qed.
Lemma wrong_snoc : forall os ks k o, nth_error os (visit ks) = Some o -> toggles k = false ->
  wrong os (ks ++ [k]) = wrong os ks ++ (if isWrong (judge k o) then [oQuestion o] else []).
Proof.
  intros os ks k o H T. unfold wrong, answered. rewrite ending_snoc, T, (combine_snoc _ _ _ _ _ _ H), filter_app, map_app.
  cbn [filter fst snd]. destruct (isWrong (judge k o)); reflexivity.
Qed.
Lemma rights_toggle : forall os ks k, toggles k = true -> rights os (ks ++ [k]) = rights os ks.
Proof. intros. unfold rights, answered. rewrite ending_snoc, H. reflexivity. Qed.
Lemma wrong_toggle : forall os ks k, toggles k = true -> wrong os (ks ++ [k]) = wrong os ks.
Proof. intros. unfold wrong, answered. rewrite ending_snoc, H. reflexivity. Qed.
Lemma rights_ext : forall os o ks, (visit ks <= length os)%nat -> rights (os ++ o) ks = rights os ks.
Proof. intros. unfold rights, answered. rewrite combine_ext by exact H. reflexivity. Qed.
Lemma wrong_ext : forall os o ks, (visit ks <= length os)%nat -> wrong (os ++ o) ks = wrong os ks.
Proof. intros. unfold wrong, answered. rewrite combine_ext by exact H. reflexivity. Qed.
Lemma rights_le : forall os ks, rights os ks <= N.of_nat (visit ks).
Proof.
  intros. unfold rights, answered, len. apply N2Z.inj_le. rewrite !nat_N_Z. apply inj_le.
  etransitivity; [apply filter_le|]. rewrite combine_length. unfold visit. lia.
Qed.
Lemma judge_toggle : forall k o, toggles k = true -> judge k o = Skip.
Proof. intros k o H. unfold toggles in H. unfold judge. replace ((44 <=? k) && (k <=? 47)) with true by lia. reflexivity. Qed.
Lemma reply_snoc : forall h start os ks k, reply h start os (ks ++ [k]) =
  match nth_error os (visit ks) with
  | None => []
  | Some o =>
      match judge k o with
      | Right => b_ "  Correct! (" ++ to_string (rights os (ks ++ [k])) ++ b_ "/" ++ to_string (position start (ks ++ [k])) ++ b_ ")" ++ newline
      | Wrong => b_ "  Incorrect (correct answer is " ++ [rightKey o] ++ b_ ")" ++ newline
      | Skip => []
      end
  end.
Proof. intros. unfold reply. rewrite rev_unit, rev_involutive. reflexivity. Qed.
Lemma reply_ext : forall h start os o ks, (visit ks <= length os)%nat -> reply h start (os ++ o) ks = reply h start os ks.
Proof.
  intros h start os o ks. destruct ks as [|k ks] using rev_ind; [reflexivity|]. intro H. rewrite !reply_snoc.
  rewrite visit_snoc in H. destruct (toggles k) eqn:T.
  - assert (J : forall x : option offer, match x with None => [] | Some o0 => match judge k o0 with
        | Right => b_ "  Correct! (" ++ to_string (rights (os ++ o) (ks ++ [k])) ++ b_ "/" ++ to_string (position start (ks ++ [k])) ++ b_ ")" ++ newline
        | Wrong => b_ "  Incorrect (correct answer is " ++ [rightKey o0] ++ b_ ")" ++ newline
        | Skip => [] end end = []) by (intros [x|]; [rewrite (judge_toggle k x T)|]; reflexivity).
    rewrite J. destruct (nth_error os (visit ks)) as [x|]; [rewrite (judge_toggle k x T)|]; reflexivity.
  - rewrite nth_error_app1 by lia. rewrite rights_ext by (rewrite visit_snoc, T; lia). reflexivity.
Qed.
Lemma position_quiz : forall start ks, Forall (fun k => k <> 44) ks -> Forall (fun k => k <> 47) ks ->
  position start ks = start + N.of_nat (visit ks).
Proof.
  intros start ks. induction ks as [|k ks IH] using rev_ind; intros H1 H2; [cbn; lia|].
  apply Forall_app in H1. apply Forall_app in H2. destruct H1 as [H1 K1], H2 as [H2 K2]. inversion K1; inversion K2; subst.
  rewrite position_snoc, visit_snoc, IH by assumption. unfold move, toggles.
  replace (k =? 44) with false by lia. replace (k =? 47) with false by lia. destruct (k =? 45); cbn [orb]; lia.
Qed.

(** ** Transcripts *)

Lemma transcript_app : forall es es2 p, transcript p (es ++ es2) =
  (fst (transcript p es) ++ fst (transcript (snd (transcript p es)) es2), snd (transcript (snd (transcript p es)) es2)).
Proof.
  induction es as [|[t|rq k w] es IH]; intros es2 p; cbn [app transcript].
  - cbn [fst snd app]. destruct (transcript p es2); reflexivity.
  - apply IH.
  - rewrite IH. destruct (transcript [] es) as [l e]. cbn [fst snd]. reflexivity.
Qed.

Section Quiz.
Variable R : Type.
Variable draw : N -> R -> N * R.
Variable extraTypeInfo reviewDetails : QKanji -> bytes.
Hypothesis Hdraw : in_range draw.
Notation State := (State R).
Implicit Type s : State.
Notation printed s := (snd (transcript [] (events R s))).
Notation prompts s := (fst (transcript [] (events R s))).
Notation keys s := (map sKey (fst (transcript [] (events R s)))).

Lemma printed_print : forall t s, transcript [] (events R (print R t s)) = (prompts s, printed s ++ t).
Proof. intros. cbn [print addEvent events]. rewrite transcript_app. cbn [transcript fst snd]. rewrite app_nil_r. reflexivity. Qed.
Lemma printed_ask : forall rq c w i s, transcript [] (events R (addEvent R (Asked rq c w) (setInput R i s)))
  = (prompts s ++ [MkSeen (printed s) rq c], []).
Proof. intros. cbn [addEvent setInput events]. rewrite transcript_app. reflexivity. Qed.

(** [s'] is [s] after printing [t] *)
Record Printed (t : bytes) (s s' : State) : Prop := MkPrinted {
  P_cur : current R s' = current R s; P_mean : meanings R s' = meanings R s; P_cor : correctAnswers R s' = correctAnswers R s;
  P_mis : mistakes R s' = mistakes R s; P_in : input R s' = input R s; P_rng : rng R s' = rng R s;
  P_prompts : prompts s' = prompts s; P_text : printed s' = printed s ++ t }.
Lemma Printed_refl : forall s, Printed [] s s.
Proof. intros. constructor; try reflexivity. symmetry. apply app_nil_r. Qed.
Lemma Printed_print : forall t s, Printed t s (print R t s).
Proof. intros. constructor; try reflexivity; rewrite printed_print; reflexivity. Qed.
Lemma Printed_trans : forall t1 t2 s s1 s2, Printed t1 s s1 -> Printed t2 s1 s2 -> Printed (t1 ++ t2) s s2.
Proof.
  intros t1 t2 s s1 s2 [A1 A2 A3 A4 A5 A6 A7 A8] [B1 B2 B3 B4 B5 B6 B7 B8]. constructor; try congruence. rewrite B8, A8, app_assoc. reflexivity.
Qed.
Lemma Printed_eq : forall t t' s s', Printed t s s' -> t = t' -> Printed t' s s'.
Proof. intros; subst; assumption. Qed.

Lemma len_nonempty : forall (l : bytes), (0 <? len l) = nonEmpty l.
Proof. intros [|x l]; [reflexivity|]. unfold len. cbn [length nonEmpty]. lia. Qed.

Lemma print_answers : forall style qs a i s,
  (forall x, In x a -> exists k, nth_error qs (N.to_nat x) = Some k) ->
  exists s', printAnswers R style (N.of_nat i) a qs s = Ok tt s'
    /\ Printed (flat_map (fun p => b_ "    " ++ to_string (N.of_nat (fst p) + 1) ++ b_ ".  "
                     ++ (match nth_error qs (N.to_nat (snd p)) with Some k => answer_text style k | None => [] end) ++ newline)
           (combine (seq i (length a)) a)) s s'.
Proof.
  induction a as [|x a IH]; intros i s H; cbn [printAnswers length seq combine flat_map].
  - exists s. split; [reflexivity|apply Printed_refl].
  - destruct (H x (or_introl eq_refl)) as [k Hk]. cbn [fst snd]. rewrite Hk.
    destruct (IH (S i) (print R (b_ "    " ++ to_string (N.of_nat i + 1) ++ b_ ".  " ++ (if isKanjiToReading style then qReading k else qName k) ++ b_ "
") s)) as [s' [E P]].
    { intros y Hy. apply H. right. exact Hy. }
    replace (N.of_nat i + 1) with (N.of_nat (S i)) in * by lia.
    exists s'. split; [exact E|]. eapply Printed_trans; [|exact P].
    eapply Printed_eq; [apply Printed_print|]. destruct style; reflexivity.
Qed.

Section Run.
Variable l : Launcher.
Variable style : QuizStyle.
Variable fields count start : N.
Variable qs : list QKanji.
Variable m0 : bool.
Variable ls0 : list bytes.
Hypothesis Hquit : quitOption l = launcherQuit.
Hypothesis Hcount : 1 <= count <= 9.
Hypothesis Hlen : len qs <= 65535.
Notation quiz := (isQuizMode l).
Notation hdr := (header_text quiz style fields (len qs)).
Notation qtext := (question_text extraTypeInfo reviewDetails quiz style fields qs).
Notation qreq := (question_request quiz style count (len qs)).
Notation Shows := (shows extraTypeInfo reviewDetails quiz style fields count qs start m0).

(** *** the text of a question *)
Lemma put_question : forall s k o, oQuestion o = current R s ->
  (forall x, In x (oList o) -> exists k, nth_error qs (N.to_nat x) = Some k) ->
  exists s', printChoices R reviewDetails l style (oList o) k qs
      (printQuestion R extraTypeInfo l style fields k (beginQuestionMessage R l (len qs) s)) = Ok tt s'
    /\ Printed (qtext (meanings R s) k o) s s'.
Proof.
  intros s k o Ho Hx. unfold printChoices.
  set (s1 := printQuestion R extraTypeInfo l style fields k (beginQuestionMessage R l (len qs) s)).
  assert (P1 : Printed ((newline ++ (if quiz then b_ "Question " else []) ++ to_string (oQuestion o + 1) ++ b_ "/" ++ to_string (len qs) ++ b_ ":  ")
                 ++ front_text extraTypeInfo quiz style fields k ++ meaning_text quiz (meanings R s) k) s s1).
  { unfold s1, printQuestion. apply Printed_trans with (s1 := beginQuestionMessage R l (len qs) s).
    { unfold beginQuestionMessage. eapply Printed_eq; [apply Printed_print|]. rewrite Ho. destruct quiz; reflexivity. }
    set (s2 := beginQuestionMessage R l (len qs) s).
    assert (X : exists s3, (if isKanjiToReading style
        then let s4 := print R (qName k) s2 in
             let s5 := match info (qKanji k) fields with [] => s4 | _ :: _ => print R (b_ "  " ++ info (qKanji k) fields) s4 end in
             if quiz then s5 else print R (extraTypeInfo k) s5
        else print R (b_ "Reading:  " ++ qReading k) s2) = s3 /\ Printed (front_text extraTypeInfo quiz style fields k) s2 s3).
    { eexists. split; [reflexivity|]. unfold front_text. destruct style; cbn [isKanjiToReading]; [|apply Printed_print]. cbv zeta.
      eapply Printed_trans; [apply Printed_print|]. rewrite len_nonempty.
      assert (Y : Printed (if nonEmpty (info (qKanji k) fields) then b_ "  " ++ info (qKanji k) fields else []) (print R (qName k) s2)
         (match info (qKanji k) fields with [] => print R (qName k) s2 | _ :: _ => print R (b_ "  " ++ info (qKanji k) fields) (print R (qName k) s2) end)).
      { destruct (info (qKanji k) fields); [apply Printed_refl|apply Printed_print]. }
      eapply Printed_trans; [exact Y|]. destruct quiz; [apply Printed_refl|apply Printed_print]. }
    destruct X as [s3 [E3 P3]]. fold s2. 
    assert (D : printQuestion R extraTypeInfo l style fields k s2 = printMeaning R k (negb quiz) (meanings R s3) s3)
      by (rewrite <- E3; unfold printQuestion; destruct (info (qKanji k) fields); reflexivity).
    unfold printQuestion in D. rewrite D.
    eapply Printed_trans; [exact P3|]. unfold printMeaning. eapply Printed_eq; [apply Printed_print|].
    rewrite (P_mean _ _ _ P3). unfold meaning_text, s2, hasMeaning. cbn [beginQuestionMessage print addEvent meanings].
    rewrite len_nonempty. destruct quiz; reflexivity. }
  destruct quiz eqn:Q.
  - destruct (print_answers style qs (oList o) 0 s1 Hx) as [s' [E P]]. exists s'. split; [exact E|].
    eapply Printed_eq; [eapply Printed_trans; [exact P1|exact P]|]. unfold question_text, answer_lines. rewrite <- !app_assoc. reflexivity.
  - eexists. split; [reflexivity|]. eapply Printed_eq; [eapply Printed_trans; [exact P1|apply Printed_print]|].
    unfold question_text. rewrite <- !app_assoc. reflexivity.
Qed.

(** *** the offered answers *)
Definition rng_only s s' : Prop := exists r, s' = setRng R r s.
Lemma rng_only_refl : forall s, rng_only s s.
Proof. intros [a b c d e f g]. exists g. reflexivity. Qed.
Lemma rng_only_trans : forall s s1 s2, rng_only s s1 -> rng_only s1 s2 -> rng_only s s2.
Proof. intros s s1 s2 [r ->] [r' ->]. exists r'. reflexivity. Qed.

Lemma bound_len : 0 < len qs -> u16 (len qs + 65535) + 1 = len qs.
Proof. intro H. unfold u16. change (2 ^ 16) with 65536. replace (len qs + 65535) with (len qs - 1 + 1 * 65536) by lia. rewrite N.mod_add, N.mod_small by lia. lia. Qed.

Lemma pick_spec : forall fuel seen s, 0 < len qs ->
  pickAnswer R draw fuel qs seen s = NoReturn
  \/ exists c k s', pickAnswer R draw fuel qs seen s = Ok (c, qReading k :: seen) s' /\ rng_only s s'
       /\ nth_error qs (N.to_nat c) = Some k /\ ~ In (qReading k) seen.
Proof.
  induction fuel as [|f IH]; intros seen s Hq; cbn [pickAnswer]; [left; reflexivity|].
  rewrite bound_len by exact Hq. pose proof (Hdraw (len qs) (rng R s) Hq) as D. destruct (draw (len qs) (rng R s)) as [c r]. cbn [fst] in D.
  destruct (nth_error qs (N.to_nat c)) as [k|] eqn:E.
  2:{ exfalso. apply nth_error_None in E. unfold len in D. lia. }
  destruct (existsb (beq (qReading k)) seen) eqn:X.
  - destruct (IH seen (setRng R r s) Hq) as [H|[c' [k' [s' [H1 [H2 H3]]]]]]; [left; exact H|right].
    exists c', k', s'. split; [exact H1|]. split; [|exact H3]. eapply rng_only_trans; [|exact H2]. exists r. reflexivity.
  - right. exists c, k, (setRng R r s). split; [reflexivity|]. split; [exists r; reflexivity|]. split; [exact E|].
    intro K. assert (Y : existsb (beq (qReading k)) seen = true); [|congruence].
    apply existsb_exists. exists (qReading k). split; [exact K|]. apply beq_refl.
Qed.

Lemma picks_spec : forall fuel n i correct seen s kanji, 0 < len qs ->
  nth_error qs (N.to_nat (current R s)) = Some kanji -> In (qReading kanji) seen ->
  pickAnswers R draw fuel n i correct qs seen s = NoReturn
  \/ exists a s' ks, pickAnswers R draw fuel n i correct qs seen s = Ok a s' /\ rng_only s s'
       /\ length a = n /\ Forall2 (fun x k => nth_error qs (N.to_nat x) = Some k) a ks /\ NoDup (map qReading ks)
       /\ (forall x, In x (map qReading ks) -> In x seen -> x = qReading kanji /\ i <= correct)
       /\ (i <= correct < i + N.of_nat n -> nth_error a (N.to_nat (correct - i)) = Some (current R s)).
Proof.
  intros fuel n. induction n as [|n IH]; intros i correct seen s kanji Hq Hk Hs; cbn [pickAnswers].
  - right. exists [], s, []. split; [reflexivity|]. split; [apply rng_only_refl|]. split; [reflexivity|]. split; [constructor|]. split; [constructor|].
    split; [intros x []|]. lia.
  - destruct (i =? correct) eqn:E.
    + destruct (IH (i + 1) correct seen s kanji Hq Hk Hs) as [H|[a [s' [ks [H1 [H2 [H3 [H4 [H5 [H6 H7]]]]]]]]]]; [left; rewrite H; reflexivity|right].
      rewrite H1. cbn [rbind]. destruct H2 as [r ->]. exists (current R s :: a), (setRng R r s), (kanji :: ks).
      split; [reflexivity|]. split; [exists r; reflexivity|]. split; [cbn; lia|]. split; [constructor; assumption|]. cbn [map]. split; [|split].
      * constructor; [|exact H5]. intro K. destruct (H6 _ K Hs) as [_ K2]. lia.
      * intros x [<-|Hx] Hx2; [split; [reflexivity|lia]|]. destruct (H6 x Hx Hx2). split; [assumption|lia].
      * intros _. replace (correct - i) with 0 by lia. reflexivity.
    + destruct (pick_spec fuel seen s Hq) as [H|[c [k [s' [H1 [[r ->] [H3 H4]]]]]]]; [left; rewrite H; reflexivity|].
      rewrite H1. cbn [rbind fst snd].
      destruct (IH (i + 1) correct (qReading k :: seen) (setRng R r s) kanji Hq Hk (or_intror Hs)) as [G|[a [s' [ks [G1 [G2 [G3 [G4 [G5 [G6 G7]]]]]]]]]]; [left; rewrite G; reflexivity|right].
      rewrite G1. cbn [rbind]. destruct G2 as [r' ->]. exists (c :: a), (setRng R r' s), (k :: ks).
      split; [reflexivity|]. split; [exists r'; reflexivity|]. split; [cbn; lia|]. split; [constructor; assumption|]. cbn [map]. split; [|split].
      * constructor; [|exact G5]. intro K. destruct (G6 _ K (or_introl eq_refl)) as [K2 _]. apply H4. rewrite K2. exact Hs.
      * intros x [<-|Hx] Hx2; [contradiction|]. destruct (G6 x Hx (or_intror Hx2)). split; [assumption|lia].
      * intros Hc. replace (N.to_nat (correct - i)) with (S (N.to_nat (correct - (i + 1)))) by lia. cbn [nth_error]. apply G7. lia.
Qed.

Lemma populate_spec : forall fuel s kanji, nth_error qs (N.to_nat (current R s)) = Some kanji ->
  populateAnswers R draw fuel l count kanji qs s = NoReturn
  \/ exists o s', populateAnswers R draw fuel l count kanji qs s = Ok (oRight o, oList o) s' /\ rng_only s s'
       /\ oQuestion o = current R s /\ good_offer count qs o.
Proof.
  intros fuel s kanji Hk. assert (Hq : 0 < len qs) by (destruct qs; [destruct (N.to_nat (current R s)); discriminate|unfold len; cbn; lia]).
  unfold populateAnswers.
  assert (X : exists correct s1, (if randomizeAnswers l then let '(c, r) := draw count (rng R s) in (c, setRng R r s) else (0, s)) = (correct, s1)
            /\ rng_only s s1 /\ correct < count).
  { destruct (randomizeAnswers l).
    - pose proof (Hdraw count (rng R s)) as D. destruct (draw count (rng R s)) as [c r]. exists c, (setRng R r s). split; [reflexivity|].
      split; [exists r; reflexivity|]. apply D. lia.
    - exists 0, s. split; [reflexivity|]. split; [apply rng_only_refl|lia]. }
  destruct X as [correct [s1 [-> [[r ->] Hc]]]]. replace (count <=? correct) with false by lia.
  destruct (picks_spec fuel (N.to_nat count) 0 correct [qReading kanji] (setRng R r s) kanji Hq Hk (or_introl eq_refl))
    as [H|[a [s' [ks [H1 [[r' ->] [H3 [H4 [H5 [H6 H7]]]]]]]]]]; [left; rewrite H; reflexivity|right].
  rewrite H1. cbn [rbind]. exists (MkOffer (current R s) correct a), (setRng R r' s). cbn [oRight oList oQuestion].
  split; [reflexivity|]. split; [exists r'; reflexivity|]. split; [reflexivity|].
  unfold good_offer. cbn [oRight oList oQuestion]. split; [exact Hc|]. split; [unfold len; rewrite H3; lia|].
  split; [|exists ks; split; assumption]. specialize (H7 ltac:(lia)). rewrite N.sub_0_r in H7. exact H7.
Qed.

(** *** prompts *)
Lemma choices_spec : forall s m, getDefaultChoices R l (len qs) (setMeanings R m s) = rqChoices (qreq m (current R s)).
Proof.
  intros s m. unfold getDefaultChoices, question_request. cbn [rqChoices meanings setMeanings current].
  unfold meaningsText, MeaningsOption, SkipOption, PrevOption.
  destruct quiz; cbn [negb andb app]; [reflexivity|]. destruct (current R s) as [|p] eqn:C; [reflexivity|]. cbn [N.eqb negb]. reflexivity.
Qed.
Lemma set_spec : forall m m' pos, setKey MeaningsOption (meaningsText m') (rqChoices (qreq m pos)) = rqChoices (qreq m' pos).
Proof.
  intros m m' pos. unfold question_request. cbn [rqChoices].
  assert (H : forall x : Choices, (x = [] \/ x = [(44, b_ "prev")]) -> forall d, setKey MeaningsOption (meaningsText m')
     (x ++ [(45, if m then b_ "hide meanings" else b_ "show meanings"); (46, d)]) = x ++ [(45, if m' then b_ "hide meanings" else b_ "show meanings"); (46, d)]).
  { intros x [H|H] d; subst x; reflexivity. }
  apply H. destruct (negb quiz && (0 <? pos)); auto.
Qed.
Lemma key_cases : forall m pos c, permitted launcherQuit (qreq m pos) c ->
  c = 45 \/ c = 46 \/ c = 47 \/ (quiz = false /\ c = 44 /\ 0 < pos) \/ (quiz = true /\ 49 <= c <= 48 + count).
Proof.
  intros m pos c. unfold permitted, question_request. cbn [rqChoices rqRange rqUseQuit]. intros [H|[[a [b [H1 H2]]]|[_ [d [= <- _]]]]].
  - destruct quiz; cbn [negb andb] in H.
    + destruct H as [H|[H|[]]]; cbn [fst] in H; lia.
    + destruct (0 <? pos) eqn:E; cbn [app map fst In] in H; [|lia]. destruct H as [H|[H|[H|[]]]]; try lia.
  - destruct quiz; [|discriminate]. injection H1 as <- <-. right. right. right. right. split; [reflexivity|lia].
  - auto.
Qed.
Lemma keys_in : forall m pos c, In c (map fst (rqChoices (qreq m pos))) -> 44 <= c <= 46.
Proof.
  intros m pos c. unfold question_request. cbn [rqChoices]. destruct (negb quiz && (0 <? pos)); cbn [app map fst In]; lia.
Qed.
Lemma request_proper : forall m pos, proper launcherQuit (qreq m pos).
Proof.
  intros m pos. split; [|split; [|split; [|split; [|split]]]].
  - unfold question_request, is_map. cbn [rqChoices]. destruct (negb quiz && (0 <? pos)); cbn [app map fst]; repeat constructor.
  - exists 45. left. unfold question_request. cbn [rqChoices]. rewrite map_app. apply in_or_app. right. left. reflexivity.
  - intros c H. apply key_cases in H. unfold printable. lia.
  - intros a b H. unfold question_request in H. cbn [rqRange] in H. destruct quiz eqn:Q; [|discriminate]. injection H as <- <-. split; [lia|].
    intros c Hc K. unfold question_request in K. cbn [rqChoices negb andb app map fst In] in K. lia.
  - intros c d [= <- <-]. split; [intro K; apply keys_in in K; lia|]. intros a b H. unfold question_request in H. cbn [rqRange] in H.
    destruct quiz; [|discriminate]. injection H as <- <-. lia.
  - discriminate.
Qed.
Lemma prompt_spec : getPrompt l style = rqMsg (qreq m0 0).
Proof. unfold getPrompt, question_request, Prompt. cbn [rqMsg]. destruct quiz; [destruct style; reflexivity|symmetry; apply app_nil_r]. Qed.

(** *** the state between prompts *)
Record Inv (s : State) (os : list offer) : Prop := MkInv {
  I_cur : current R s = position start (keys s);
  I_mean : meanings R s = toggled m0 (keys s);
  I_cor : correctAnswers R s = rights os (keys s);
  I_mis : mistakes R s = wrongNames qs os (keys s);
  I_text : printed s = reply hdr start os (keys s);
  I_shows : Shows os (prompts s);
  I_good : Forall (good_offer count qs) os;
  I_in : exists rest, lines_left (input R s) rest /\ reads launcherQuit ls0 (prompts s) rest;
  I_quiz : if quiz then Forall (fun k => k <> 44) (keys s) else Forall (fun k => k <= 47) (keys s);
  I_pos : current R s <= len qs }.
Definition unquit (s : State) : Prop := Forall (fun k => k <> 47) (keys s).

Lemma shows_ext : forall os o ps, Shows os ps -> Shows (os ++ o) ps.
Proof.
  intros os o ps H j p Hj. destruct (H j p Hj) as [x [k [H1 [H2 [H3 [H4 H5]]]]]]. cbv zeta in *.
  assert (L : (visit (firstn j (map sKey ps)) < length os)%nat) by (apply nth_error_Some; congruence).
  exists x, k. split; [rewrite nth_error_app1 by exact L; exact H1|]. split; [exact H2|]. split; [exact H3|]. split; [|exact H5].
  rewrite reply_ext by lia. exact H4.
Qed.
Lemma inv_ext : forall s os o, Inv s os -> length os = visit (keys s) -> good_offer count qs o -> Inv s (os ++ [o]).
Proof.
  intros s os o [H1 H2 H3 H4 H5 H6 H7 H8 H9 H10] L G. constructor; try assumption.
  - rewrite rights_ext by lia. exact H3.
  - unfold wrongNames. rewrite wrong_ext by lia. exact H4.
  - rewrite reply_ext by lia. exact H5.
  - apply shows_ext. exact H6.
  - apply Forall_app. split; [exact H7|]. constructor; [exact G|constructor].
Qed.
Lemma inv_rng : forall s os s', rng_only s s' -> Inv s os -> Inv s' os.
Proof. intros s os s' [r ->] [H1 H2 H3 H4 H5 H6 H7 H8 H9 H10]. constructor; assumption. Qed.

Lemma shows_snoc : forall os ps p o k, Shows os ps -> nth_error os (visit (map sKey ps)) = Some o ->
  oQuestion o = position start (map sKey ps) -> nth_error qs (N.to_nat (oQuestion o)) = Some k ->
  sText p = reply hdr start os (map sKey ps) ++ qtext (toggled m0 (map sKey ps)) k o ->
  sRequest p = qreq (toggled m0 (map sKey ps)) (oQuestion o) -> Shows os (ps ++ [p]).
Proof.
  intros os ps p o k H H1 H2 H3 H4 H5 j x Hj. cbv zeta. rewrite map_app. cbn [map].
  apply nth_error_snoc in Hj. destruct Hj as [[Hj L]|[-> ->]].
  - rewrite firstn_app. replace (j - length (map sKey ps))%nat with 0%nat by (rewrite map_length; lia). cbn [firstn]. rewrite app_nil_r.
    exact (H j x Hj).
  - rewrite firstn_app, <- (map_length sKey ps), firstn_all, Nat.sub_diag. cbn [firstn]. rewrite app_nil_r. exists o, k. auto.
Qed.
Lemma reads_snoc : forall q ls ps rest p junk la rest', reads q ls ps rest -> rest = junk ++ la :: rest' ->
  answers (permitted q (sRequest p)) (rqDefault (sRequest p)) la (sKey p) ->
  Forall (fun l => forall x, ~ answers (permitted q (sRequest p)) (rqDefault (sRequest p)) l x) junk ->
  reads q ls (ps ++ [p]) rest'.
Proof.
  intros q ls ps rest p junk la rest' H. induction H as [ls|x ls p0 ps rest Hx Hn H IH|x ls p0 ps rest Hx H IH|p0 ps rest Hd H IH]; intros E Ha Hj.
  - subst ls. cbn [app]. induction junk as [|j junk IHj]; cbn [app].
    + apply reads_key; [exact Ha|constructor].
    + inversion Hj; subst. apply reads_junk; [assumption|destruct junk; discriminate|auto].
  - cbn [app] in *. apply reads_junk; [exact Hx|exact Hn|]. apply IH; assumption.
  - cbn [app] in *. apply reads_key; [exact Hx|]. apply IH; assumption.
  - cbn [app] in *. apply reads_end; [exact Hd|]. apply IH; assumption.
Qed.

(** *** one answer *)

(** the prompt for a question: the key and the state before it is judged *)
Lemma ask_spec : forall s os o k s1, Inv s os -> nth_error os (visit (keys s)) = Some o -> oQuestion o = current R s ->
  nth_error qs (N.to_nat (current R s)) = Some k -> Printed (qtext (meanings R s) k o) s s1 ->
  ask R launcherQuit (qreq (meanings R s) (current R s)) s1 = NoReturn
  \/ exists c s2, ask R launcherQuit (qreq (meanings R s) (current R s)) s1 = Ok c s2
       /\ permitted launcherQuit (qreq (meanings R s) (current R s)) c
       /\ current R s2 = current R s /\ meanings R s2 = meanings R s /\ correctAnswers R s2 = correctAnswers R s /\ mistakes R s2 = mistakes R s
       /\ printed s2 = [] /\ keys s2 = keys s ++ [c] /\ Shows os (prompts s2)
       /\ exists rest, lines_left (input R s2) rest /\ reads launcherQuit ls0 (prompts s2) rest.
Proof.
  intros s os o k s1 I Ho Hq Hk P.
  pose proof I as [H1 H2 H3 H4 H5 H6 H7 [rest [H8 H8']] H9 H10].
  destruct (ask_cases R launcherQuit (qreq (meanings R s) (current R s)) s1 rest (request_proper _ _)) as [H|[H|H]].
  { rewrite (P_in _ _ _ P). exact H8. }
  - right. destruct H as [junk [la [c [rest' [i [w [E [E2 [Ha [Hj Hl]]]]]]]]]].
    exists c, (addEvent R (Asked (qreq (meanings R s) (current R s)) c w) (setInput R i s1)).
    assert (T : transcript [] (events R (addEvent R (Asked (qreq (meanings R s) (current R s)) c w) (setInput R i s1)))
              = (prompts s ++ [MkSeen (printed s1) (qreq (meanings R s) (current R s)) c], [])) by (rewrite printed_ask, (P_prompts _ _ _ P); reflexivity).
    split; [exact E|]. split; [destruct Ha as [[_ Ha]|[_ Ha]]; [exact Ha|discriminate]|].
    split; [exact (P_cur _ _ _ P)|]. split; [exact (P_mean _ _ _ P)|]. split; [exact (P_cor _ _ _ P)|]. split; [exact (P_mis _ _ _ P)|].
    rewrite T. cbn [fst snd]. split; [reflexivity|]. split; [rewrite map_app; reflexivity|]. split.
    + apply shows_snoc with (o := o) (k := k); try assumption.
      * rewrite <- H1. exact Hq.
      * rewrite Hq. exact Hk.
      * cbn [sText]. rewrite (P_text _ _ _ P), H5, H2. reflexivity.
      * cbn [sRequest]. rewrite H2, Hq. reflexivity.
    + exists rest'. split; [exact Hl|]. eapply reads_snoc; [exact H8'|exact E2|exact Ha|exact Hj].
  - destruct H as [_ [d [w [H _]]]]. discriminate.
  - left. exact (proj1 H).
Qed.

Definition fits : Prop := start <= len qs.
Lemma rights_bound : forall s os, Inv s os -> unquit s -> quiz = true -> rights os (keys s) <= current R s.
Proof.
  intros s os I U Q. pose proof (I_quiz s os I) as H. rewrite Q in H. rewrite (I_cur s os I), (position_quiz _ _ H U).
  pose proof (rights_le os (keys s)). lia.
Qed.

Lemma answer_spec : forall s os o k s1, Inv s os -> unquit s -> nth_error os (visit (keys s)) = Some o -> oQuestion o = current R s ->
  nth_error qs (N.to_nat (current R s)) = Some k -> Printed (qtext (meanings R s) k o) s s1 ->
  let r := getAnswer R l style (48 + count) (rqChoices (qreq (meanings R s) (current R s))) (oRight o) (qName k) s1 in
  r = NoReturn
  \/ (exists s', r = Ok (inl (rqChoices (qreq (meanings R s') (current R s')))) s' /\ Inv s' os /\ unquit s' /\ visit (keys s') = visit (keys s)
        /\ current R s' = current R s)
  \/ (exists s', r = Ok (inr true) s' /\ Inv s' os /\ current R s' = current R s /\ visit (keys s') = S (visit (keys s))
        /\ exists ks, keys s' = ks ++ [47] /\ Forall (fun k => k <> 47) ks)
  \/ (exists s', r = Ok (inr false) s' /\ Inv (setCurrent R (u16 (current R s' + 1)) s') os /\ unquit s' /\ visit (keys s') = S (visit (keys s))).
Proof.
  intros s os o k s1 I U Ho Hq Hk P r. unfold r, getAnswer. rewrite Hquit.
  assert (RQ : MkRequest (if quiz then Some (49, 48 + count) else None) (getPrompt l style) true (rqChoices (qreq (meanings R s) (current R s))) None
             = qreq (meanings R s) (current R s)) by (rewrite prompt_spec; reflexivity).
  rewrite RQ. destruct (ask_spec s os o k s1 I Ho Hq Hk P) as [E|[c [s2 [E [Hp [A1 [A2 [A3 [A4 [A5 [A6 [A7 A8]]]]]]]]]]]]; [left; rewrite E; reflexivity|].
  right. rewrite E. cbn [rbind]. pose proof I as [H1 H2 H3 H4 H5 H6 H7 H8 H9 H10].
  assert (Hcl : current R s < len qs).
  { assert (X : (N.to_nat (current R s) < length qs)%nat) by (apply nth_error_Some; congruence). unfold len. lia. }
  assert (Hc8 : toChar_int (Z.of_N (49 + oRight o)) true = Val (rightKey o)).
  { assert (G : good_offer count qs o) by (rewrite Forall_forall in H7; apply H7; apply nth_error_In with (1 := Ho)).
    destruct G as [G _]. unfold toChar_int, rightKey. cbn [andb negb]. replace (Z.of_N (49 + oRight o) <? -128)%Z with false by lia.
    replace (255 <? Z.of_N (49 + oRight o))%Z with false by lia. rewrite Z.mod_small by lia. rewrite N2Z.id. reflexivity. }
  assert (GO : rightKey o <= 48 + count /\ 49 <= rightKey o).
  { assert (G : good_offer count qs o) by (rewrite Forall_forall in H7; apply H7; apply nth_error_In with (1 := Ho)).
    destruct G as [G _]. unfold rightKey. lia. }
  assert (KQ : if quiz then Forall (fun k => k <> 44) (keys s ++ [c]) else Forall (fun k => k <= 47) (keys s ++ [c])).
  { pose proof (key_cases _ _ _ Hp) as KC. destruct quiz; apply Forall_app; (split; [exact H9|]); constructor; try constructor; lia. }
  pose proof (key_cases _ _ _ Hp) as KC.
  destruct (c =? MeaningsOption) eqn:E1; unfold MeaningsOption in E1.
  { left. apply N.eqb_eq in E1. subst c. exists (setMeanings R (negb (meanings R s2)) s2). split; [|split; [|split; [|split]]].
    - unfold toggleMeanings. cbv zeta. cbn [setMeanings meanings current]. rewrite set_spec, A1. reflexivity.
    - constructor; cbn [setMeanings current meanings correctAnswers mistakes events input].
      + rewrite A6, position_snoc, A1, H1. reflexivity.
      + rewrite A6, toggled_snoc, A2, H2. reflexivity.
      + rewrite A6, rights_toggle, A3 by reflexivity. exact H3.
      + rewrite A6. unfold wrongNames. rewrite wrong_toggle, A4 by reflexivity. exact H4.
      + rewrite A6, reply_snoc, Ho, A5. rewrite judge_toggle by reflexivity. reflexivity.
      + exact A7.
      + exact H7.
      + exact A8.
      + rewrite A6. exact KQ.
      + rewrite A1. exact H10.
    - unfold unquit. cbn [setMeanings events]. rewrite A6. apply Forall_app. split; [exact U|]. constructor; [lia|constructor].
    - cbn [setMeanings events]. rewrite A6, visit_snoc. reflexivity.
    - exact A1. }
  right. assert (Tc : toggles c = false) by (unfold toggles; lia).
  destruct (isQuit launcherQuit c) eqn:E2; cbn [isQuit launcherQuit] in E2.
  { left. assert (c = 47) by lia. subst c. exists s2. split; [reflexivity|]. split; [|split; [exact A1|split]].
    - constructor.
      + rewrite A6, position_snoc, A1, H1. reflexivity.
      + rewrite A6, toggled_snoc, Tc, A2. exact H2.
      + rewrite A6, (rights_snoc _ _ _ _ Ho Tc), A3, H3. cbn [judge isRight N.leb andb]. unfold judge. cbn. lia.
      + rewrite A6. unfold wrongNames. rewrite (wrong_snoc _ _ _ _ Ho Tc), map_app, A4, H4. unfold judge. cbn. rewrite app_nil_r. reflexivity.
      + rewrite A6, reply_snoc, Ho, A5. reflexivity.
      + exact A7.
      + exact H7.
      + exact A8.
      + rewrite A6. exact KQ.
      + rewrite A1. exact H10.
    - rewrite A6, visit_snoc, Tc. reflexivity.
    - exists (keys s). split; [exact A6|exact U]. }
  right.
  assert (INV : forall s3, current R s3 = u16 (move (current R s) c + 65535) -> 0 < move (current R s) c + 1 -> move (current R s) c <= len qs ->
      meanings R s3 = meanings R s2 ->
      correctAnswers R s3 = rights os (keys s ++ [c]) -> mistakes R s3 = wrongNames qs os (keys s ++ [c]) -> input R s3 = input R s2 ->
      prompts s3 = prompts s2 -> printed s3 = reply hdr start os (keys s ++ [c]) ->
      Inv (setCurrent R (u16 (current R s3 + 1)) s3) os /\ unquit s3 /\ visit (keys s3) = S (visit (keys s))).
  { intros s3 B1 B1' B1'' B2 B3 B4 B5 B6 B7. assert (W : u16 (current R s3 + 1) = move (current R s) c).
    { rewrite B1. unfold u16. change (2 ^ 16) with 65536. destruct (N.eq_dec (move (current R s) c) 0) as [Z|Z].
      - rewrite Z. reflexivity.
      - replace (move (current R s) c + 65535) with (move (current R s) c - 1 + 1 * 65536) by lia. rewrite N.mod_add by lia.
        rewrite (N.mod_small (move (current R s) c - 1)) by lia. rewrite N.mod_small by lia. lia. }
    split; [|split].
    - constructor; cbn [setCurrent current meanings correctAnswers mistakes events input]; rewrite ?W, ?B6, ?A6.
      + rewrite position_snoc, <- H1. reflexivity.
      + rewrite toggled_snoc, Tc, B2, A2. exact H2.
      + exact B3.
      + exact B4.
      + exact B7.
      + exact A7.
      + exact H7.
      + rewrite B5. exact A8.
      + exact KQ.
      + exact B1''.
    - unfold unquit. rewrite B6, A6. apply Forall_app. split; [exact U|]. constructor; [lia|constructor].
    - rewrite B6, A6, visit_snoc, Tc. reflexivity. }
  assert (W0 : forall p, p < len qs -> p = u16 (p + 1 + 65535)).
  { intros p Hp2. unfold u16. change (2 ^ 16) with 65536. replace (p + 1 + 65535) with (p + 1 * 65536) by lia. rewrite N.mod_add, N.mod_small by lia. reflexivity. }
  destruct (c =? PrevOption) eqn:E3; unfold PrevOption in E3.
  { assert (c = 44) by lia. subst c. destruct KC as [K|[K|[K|[[Q [_ K]]|[_ K]]]]]; try lia.
    exists (setCurrent R (u16 (current R s2 + 65534)) s2). split; [reflexivity|].
    apply INV; cbn [setCurrent current meanings correctAnswers mistakes events input]; try reflexivity.
    - rewrite A1. unfold move. cbn [N.eqb Pos.eqb orb]. f_equal. lia.
    - lia.
    - unfold move. cbn [N.eqb Pos.eqb orb]. lia.
    - rewrite (rights_snoc _ _ _ _ Ho Tc), A3, H3. unfold judge. cbn. lia.
    - unfold wrongNames. rewrite (wrong_snoc _ _ _ _ Ho Tc), map_app, A4, H4. unfold judge. cbn. rewrite app_nil_r. reflexivity.
    - rewrite reply_snoc, Ho, A5. reflexivity. }
  assert (Hmv : move (current R s) c = current R s + 1) by (unfold move, toggles in *; replace (c =? 45) with false by lia; replace (c =? 47) with false by lia; rewrite E3; reflexivity).
  rewrite Hc8. destruct (rightKey o =? c) eqn:E4.
  { assert (E4' : rightKey o = c) by lia. destruct KC as [K|[K|[K|[[Q [K _]]|[Q K]]]]]; try lia.
    assert (J : judge c o = Right) by (unfold judge; replace ((44 <=? c) && (c <=? 47)) with false by lia; replace (c =? rightKey o) with true by lia; reflexivity).
    assert (RB : rights os (keys s) <= current R s) by (apply rights_bound; assumption).
    assert (CU : u16 (correctAnswers R s2 + 1) = rights os (keys s ++ [c])).
    { rewrite A3, H3, (rights_snoc _ _ _ _ Ho Tc), J. cbn [isRight]. unfold u16. apply N.mod_small. change (2 ^ 16) with 65536. lia. }
    exists (correctMessage R s2). split; [reflexivity|].
    apply INV.
    - cbn [correctMessage setCorrect print addEvent current]. rewrite A1, Hmv. apply W0. exact Hcl.
    - lia.
    - lia.
    - reflexivity.
    - exact CU.
    - cbn [correctMessage setCorrect print addEvent mistakes]. unfold wrongNames. rewrite (wrong_snoc _ _ _ _ Ho Tc), J, map_app, A4, H4. cbn. rewrite app_nil_r. reflexivity.
    - reflexivity.
    - unfold correctMessage. rewrite printed_print. reflexivity.
    - unfold correctMessage. cbv zeta. rewrite printed_print. cbn [snd setCorrect events current correctAnswers]. rewrite A5, CU, A1, H1.
      rewrite reply_snoc, Ho, J, position_snoc, <- H1, Hmv. reflexivity. }
  destruct (c =? SkipOption) eqn:E5; unfold SkipOption in E5; cbn [negb].
  { assert (c = 46) by lia. subst c. exists s2. split; [reflexivity|]. apply INV; try reflexivity.
    - rewrite A1, Hmv. apply W0. exact Hcl.
    - lia.
    - lia.
    - rewrite (rights_snoc _ _ _ _ Ho Tc), A3, H3. unfold judge. cbn. lia.
    - unfold wrongNames. rewrite (wrong_snoc _ _ _ _ Ho Tc), map_app, A4, H4. unfold judge. cbn. rewrite app_nil_r. reflexivity.
    - rewrite reply_snoc, Ho, A5. reflexivity. }
  { destruct KC as [K|[K|[K|[[Q [K _]]|[Q K]]]]]; try lia.
    assert (J : judge c o = Wrong) by (unfold judge; replace ((44 <=? c) && (c <=? 47)) with false by lia; replace (c =? rightKey o) with false by lia; reflexivity).
    eexists. split; [reflexivity|].
    apply INV.
    - cbn [incorrectMessage addMistake print addEvent current]. rewrite A1, Hmv. apply W0. exact Hcl.
    - lia.
    - lia.
    - reflexivity.
    - cbn [incorrectMessage addMistake print addEvent correctAnswers]. rewrite (rights_snoc _ _ _ _ Ho Tc), J, A3, H3. cbn [isRight]. lia.
    - cbn [incorrectMessage addMistake print addEvent mistakes]. unfold wrongNames. rewrite (wrong_snoc _ _ _ _ Ho Tc), J, map_app, A4, H4. cbn [isWrong map].
      unfold nameAt. rewrite Hq, Hk. reflexivity.
    - reflexivity.
    - rewrite printed_print. unfold incorrectMessage. cbn [fst]. rewrite printed_print. reflexivity.
    - rewrite printed_print. unfold incorrectMessage. cbn [snd]. rewrite printed_print. cbn [snd addMistake events].
      rewrite reply_snoc, Ho, J, A5. reflexivity. }
Qed.

(** *** one question and all of them *)
Lemma question_spec : forall fuel s os o k, Inv s os -> unquit s -> length os = S (visit (keys s)) -> nth_error os (visit (keys s)) = Some o ->
  oQuestion o = current R s -> nth_error qs (N.to_nat (current R s)) = Some k -> 
  let r := askQuestion R extraTypeInfo reviewDetails fuel l style fields (48 + count) k qs (oRight o) (oList o) (rqChoices (qreq (meanings R s) (current R s))) s in
  r = NoReturn
  \/ (exists s', r = Ok true s' /\ Inv s' os /\ current R s' = current R s /\ length os = visit (keys s') /\ exists ks, keys s' = ks ++ [47] /\ Forall (fun k => k <> 47) ks)
  \/ (exists s', r = Ok false s' /\ Inv (setCurrent R (u16 (current R s' + 1)) s') os /\ unquit s' /\ length os = visit (keys s')).
Proof.
  induction fuel as [|f IH]; intros s os o k I U L Ho Hq Hk r; unfold r; cbn [askQuestion]; [left; reflexivity|].
  assert (G : good_offer count qs o) by (pose proof (I_good s os I) as X; rewrite Forall_forall in X; apply X; apply nth_error_In with (1 := Ho)).
  assert (Hx : forall x, In x (oList o) -> exists k, nth_error qs (N.to_nat x) = Some k).
  { destruct G as [_ [_ [_ [ks [F _]]]]]. intros x Hx. clear -F Hx. induction F as [|a b la lb E F IHF]; [destruct Hx|].
    destruct Hx as [<-|Hx]; [exists b; exact E|apply IHF; exact Hx]. }
  destruct (put_question s k o Hq Hx) as [s1 [E1 P1]]. rewrite E1. cbn [rbind].
  destruct (answer_spec s os o k s1 I U Ho Hq Hk P1) as [E|[[s' [E [I' [U' [V' C']]]]]|[[s' [E [I' [C' [V' K']]]]]|[s' [E [I' [U' V']]]]]]]; rewrite E; cbn [rbind].
  - left. reflexivity.
  - destruct (IH s' os o k I' U') as [H|[[s2 [H [H2 [H3 [H4 H5]]]]]|H]]; try (rewrite ?V', ?C'; assumption).
    + left. exact H.
    + right. left. exists s2. rewrite <- C'. auto.
    + right. right. exact H.
  - right. left. exists s'. rewrite V'. auto.
  - right. right. exists s'. split; [reflexivity|]. split; [exact I'|]. split; [exact U'|]. rewrite V'. exact L.
Qed.

(** the state when the loop ends *)
Definition Ended (s : State) (os : list offer) : Prop :=
  Inv s os /\ length os = visit (keys s) /\ ((unquit s /\ current R s = len qs) \/ (exists ks, keys s = ks ++ [47] /\ Forall (fun k => k <> 47) ks)).

Lemma start_spec : forall fuel s os, Inv s os -> unquit s -> length os = visit (keys s) ->
  let r := startLoop R draw extraTypeInfo reviewDetails fuel l style fields count (48 + count) qs s in
  r = NoReturn \/ exists s' os', r = Ok tt s' /\ Ended s' os'.
Proof.
  induction fuel as [|f IH]; intros s os I U L r; unfold r; cbn [startLoop]; [left; reflexivity|].
  destruct (current R s <? len qs) eqn:E.
  2:{ right. exists s, os. split; [reflexivity|]. split; [exact I|]. split; [exact L|]. left. split; [exact U|]. pose proof (I_pos s os I). lia. }
  destruct (nth_error qs (N.to_nat (current R s))) as [k|] eqn:Hk.
  2:{ exfalso. apply nth_error_None in Hk. unfold len in E. lia. }
  destruct (populate_spec f s k Hk) as [H|[o [s1 [H [RO [Hq G]]]]]]; rewrite H; cbn [rbind fst snd]; [left; reflexivity|].
  assert (I1 : Inv s1 (os ++ [o])) by (eapply inv_rng; [exact RO|]; apply inv_ext; assumption).
  assert (X : getDefaultChoices R l (len qs) s = rqChoices (qreq (meanings R s1) (current R s1))).
  { destruct RO as [r0 ->]. cbn [setRng meanings current]. rewrite <- choices_spec. destruct s; reflexivity. }
  rewrite X.
  assert (U1 : unquit s1) by (destruct RO as [r0 ->]; exact U).
  assert (K1 : keys s1 = keys s) by (destruct RO as [r0 ->]; reflexivity).
  assert (C1 : current R s1 = current R s) by (destruct RO as [r0 ->]; reflexivity).
  assert (Ho : nth_error (os ++ [o]) (visit (keys s1)) = Some o) by (rewrite K1, <- L, nth_error_app2, Nat.sub_diag by lia; reflexivity).
  destruct (question_spec f s1 (os ++ [o]) o k I1 U1) as [E2|[[s' [E2 [I' [C' [V' K']]]]]|[s' [E2 [I' [U' V']]]]]].
  - rewrite K1, app_length. cbn [length]. lia.
  - exact Ho.
  - rewrite C1. exact Hq.
  - rewrite C1. exact Hk.
  - rewrite E2. left. reflexivity.
  - rewrite E2. cbn [rbind]. right. eexists. exists (os ++ [o]). split; [reflexivity|].
    assert (W : u16 (u16 (current R s' + 1) + 65535) = current R s').
    { rewrite C', C1. unfold u16. change (2 ^ 16) with 65536. rewrite (N.mod_small (current R s + 1)) by lia.
      replace (current R s + 1 + 65535) with (current R s + 1 * 65536) by lia. rewrite N.mod_add, N.mod_small by lia. reflexivity. }
    assert (W2 : setCurrent R (u16 (current R (setCurrent R (u16 (current R s' + 1)) s') + 65535)) (setCurrent R (u16 (current R s' + 1)) s') = s').
    { cbn [setCurrent current]. rewrite W. destruct s'; reflexivity. }
    rewrite W2. split; [exact I'|]. split; [exact V'|]. right. exact K'.
  - rewrite E2. cbn [rbind]. apply (IH _ (os ++ [o])); [exact I'|exact U'|exact V'].
Qed.
End Run.
End Quiz.
