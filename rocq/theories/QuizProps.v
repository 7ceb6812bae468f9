(** Properties of list quizzes (C39, C40, C41, C69, C70). *)
From Verif Require Import BaseFacts QuizSpec QuizSample QuizProofs QuizWhole QuizReturns.
Open Scope N_scope.

(** * C39: the score *)

(** In a quiz that returns, [os] tells what was offered at every prompt.  The score counts the
    questions for which the key of the offered right answer was given and names those for which
    another answer was given.  Those not answered are those skipped by '.' and those before the first
    one.  The three numbers add up to the number of questions passed. *)
Theorem C39_list_score : forall R (draw : N -> R -> N * R) shuffle extra details fuel l question m lst fields count style i r ls s',
  quiz_fits draw shuffle l count question lst -> lines_left i ls -> isQuizMode l = true ->
  listQuiz R draw shuffle extra details fuel l question m lst fields count style i r = Ok tt s' ->
  let ps := fst (transcript [] (events R s')) in let ks := map sKey ps in let start := question - 1 in
  exists qs os,
    ordered (questionOrder l) lst qs /\ shows extra details true style fields count qs start m os ps
    /\ snd (transcript [] (events R s'))
         = reply (header_text true style fields (len qs)) start os ks
           ++ score_text (rights os ks) (position start ks) (start + skips ks) (wrongNames qs os ks)
    /\ rights os ks + len (wrongNames qs os ks) + (start + skips ks) = position start ks
    /\ position start ks <= len qs
    /\ ((~ In 47 ks /\ position start ks = len qs) \/ (exists ks', ks = ks' ++ [47] /\ ~ In 47 ks')).
Proof.
  intros R draw shuffle extra details fuel l question m lst fields count style i r ls s' [F1 [F2 [F3 [F4 [F5 F6]]]]] Hl Q E ps ks start.
  assert (S : startable question lst).
  { assert (D : startable question lst \/ ~ startable question lst).
    { unfold startable. destruct (forallb (fun k => negb (beq (qReading k) [])) lst) eqn:X.
      - destruct (N.le_gt_cases question (len lst)); [left|right; intros [_ K]; lia]. split; [|assumption]. apply Forall_forall. intros k Hk Z.
        rewrite forallb_forall in X. specialize (X k Hk). rewrite Z in X. discriminate.
      - right. intros [K _]. assert (Y : forallb (fun k => negb (beq (qReading k) [])) lst = true); [|congruence].
        apply forallb_forall. intros k Hk. rewrite Forall_forall in K. specialize (K k Hk). destruct (qReading k); [congruence|reflexivity]. }
    destruct D as [D|D]; [exact D|]. destruct (quiz_refused R draw shuffle extra details l style fields count question m lst i r F2 F4 F5 F6 fuel D) as [s2 [K _]]. congruence. }
  destruct S as [S1 S2].
  destruct (quiz_runs R draw shuffle extra details F1 l style fields count question m lst i r ls F2 F3 F4 F5 F6 Hl fuel S1 S2) as [K|[s2 [qs [os [K G]]]]]; [congruence|].
  rewrite K in E. injection E as ->. unfold ran in G. cbv zeta in G. rewrite Q in G. fold ps ks start in G.
  destruct G as [G1 [G2 [G3 [G4 [G5 [G6 [G7 G8]]]]]]]. exists qs, os. split; [exact G1|]. split; [exact G2|]. split; [exact G8|].
  assert (U : forall l0 : list N, Forall (fun k => k <> 47) l0 -> ~ In 47 l0) by (intros l0 H1 H2; rewrite Forall_forall in H1; apply (H1 47 H2); reflexivity).
  assert (C : position start ks = start + skips ks + rights os ks + len (wrong os ks)).
  { apply counts_ended; [exact G7|lia|]. destruct G6 as [[G6 _]|G6]; [left; exact G6|right; exact G6]. }
  split; [|split].
  - unfold wrongNames. replace (len (map (nameAt qs) (wrong os ks))) with (len (wrong os ks)) by (unfold len; rewrite map_length; reflexivity). lia.
  - destruct G6 as [[_ G6]|[ks' [G6 _]]]; [lia|].
    assert (P : exists ps' p, ps = ps' ++ [p]).
    { destruct (exists_last (l := ps)) as [ps' [p X]]; [|exists ps', p; exact X]. intro X. unfold ks in G6. rewrite X in G6. destruct ks'; discriminate. }
    destruct P as [ps' [p EP]]. assert (N1 : nth_error ps (length ps') = Some p) by (rewrite EP, nth_error_app2, Nat.sub_diag by lia; reflexivity).
    destruct (G2 (length ps') p N1) as [o [k [_ [O2 [O3 _]]]]].
    assert (EK : firstn (length ps') (map sKey ps) = ks').
    { fold ks. rewrite G6. assert (L : length ks' = length ps').
      { assert (X : length ks = length ps) by (unfold ks; apply map_length). rewrite G6, EP, !app_length in X. cbn [length] in X. lia. }
      rewrite <- L, firstn_app, Nat.sub_diag, firstn_all. apply app_nil_r. }
    rewrite EK in O2. rewrite G6, position_snoc. change (move (position start ks') 47) with (position start ks'). rewrite <- O2.
    assert (X : (N.to_nat (oQuestion o) < length qs)%nat) by (apply nth_error_Some; congruence). unfold len. lia.
  - destruct G6 as [[A B]|[ks' [A B]]]; [left; split; [apply U; exact A|exact B]|right; exists ks'; split; [exact A|apply U; exact B]].
Qed.
Print Assumptions C39_list_score.
Example C39_example :
  quiz_fits counter keep quizLauncher 3 1 sampleList /\ lines_left (lines [b_ "2"; b_ "x"; b_ "-"; b_ "1"; b_ "."]) [b_ "2"; b_ "x"; b_ "-"; b_ "1"; b_ "."]
  /\ exists s', listQuiz N counter keep nothing nothing 9 quizLauncher 1 false sampleList 0 3 KanjiToReading (lines [b_ "2"; b_ "x"; b_ "-"; b_ "1"; b_ "."]) 1 = Ok tt s'
     /\ map sKey (fst (transcript [] (events N s'))) = b_ "2-1."
     /\ snd (transcript [] (events N s')) = b_ "
Final score: 1/3, skipped: 1 - mistakes: 二
".
Proof.
  split; [|split].
  - split; [exact counter_in_range|]. split; [exact keep_shuffles|]. split; [reflexivity|]. unfold sampleList, len. cbn [length]. lia.
  - split; [discriminate|]. split; [|reflexivity]. repeat (apply Forall_cons || apply Forall_nil); vm_compute; intuition discriminate.
  - eexists. vm_compute. auto.
Qed.

(** * C40: the answers offered *)

(** whenever answers are chosen for the current question, the right one is at the place returned, no
    two have the same reading and nothing but the random values is changed *)
Theorem C40_choices : forall R (draw : N -> R -> N * R) fuel l count kanji qs s right answers s',
  in_range draw -> 1 <= count <= 9 -> len qs <= 65535 -> nth_error qs (N.to_nat (current R s)) = Some kanji ->
  populateAnswers R draw fuel l count kanji qs s = Ok (right, answers) s' ->
  right < count /\ len answers = count /\ nth_error answers (N.to_nat right) = Some (current R s)
  /\ (exists ks, Forall2 (fun i k => nth_error qs (N.to_nat i) = Some k) answers ks /\ NoDup (map qReading ks))
  /\ s' = setRng R (rng R s') s.
Proof.
  intros R draw fuel l count kanji qs s right answers s' Hd Hc Hl Hk E.
  destruct (populate_spec R draw nothing nothing Hd l count qs Hc Hl fuel s kanji Hk) as [K|[o [s1 [K [RO [Hq [G1 [G2 [G3 G4]]]]]]]]]; [congruence|].
  rewrite K in E. injection E as <- <- <-. rewrite Hq in G3. destruct RO as [r0 ->]. auto.
Qed.
Print Assumptions C40_choices.
(** choosing answers never throws and never reads outside the list *)
Theorem C40_safe : forall R (draw : N -> R -> N * R) fuel l count kanji qs s,
  in_range draw -> 1 <= count <= 9 -> len qs <= 65535 -> nth_error qs (N.to_nat (current R s)) = Some kanji ->
  populateAnswers R draw fuel l count kanji qs s = NoReturn \/ exists a s', populateAnswers R draw fuel l count kanji qs s = Ok a s'.
Proof.
  intros R draw fuel l count kanji qs s Hd Hc Hl Hk.
  destruct (populate_spec R draw nothing nothing Hd l count qs Hc Hl fuel s kanji Hk) as [K|[o [s1 [K _]]]]; [left; exact K|right; eauto].
Qed.
Print Assumptions C40_safe.
Example C40_example : exists s', populateAnswers N counter 9 quizLauncher 3 q2 sampleList (setCurrent N 1 (initial N 0 false (lines []) 4)) = Ok (1, [2; 1; 0]) s'.
Proof. eexists. vm_compute. reflexivity. Qed.

(** * C41: choosing answers returns *)

(** It does if there are as many different readings as answers and every random value comes up
    sooner or later. *)
Theorem C41_choices_return_partial : forall R (draw : N -> R -> N * R) l count kanji qs s,
  in_range draw -> fair draw -> 1 <= count <= 9 -> len qs <= 65535 -> various count qs -> nth_error qs (N.to_nat (current R s)) = Some kanji ->
  exists fuel a s', forall more, (fuel <= more)%nat -> populateAnswers R draw more l count kanji qs s = Ok a s'.
Proof.
  intros R draw l count kanji qs s Hd Hf Hc Hl Hv Hk.
  destruct (populate_returns R draw nothing nothing l count qs Hd Hc Hl Hf Hv s kanji Hk) as [f [o [s' [E _]]]].
  exists f, (oRight o, oList o), s'. intros more Hm. exact (populate_mono R draw nothing nothing f more _ _ _ _ _ _ _ E Hm).
Qed.
Print Assumptions C41_choices_return_partial.
(** With fewer different readings it never does, whatever the random values are. *)
Theorem C41_choices_return_refuted : forall R (draw : N -> R -> N * R) l count kanji qs s fuel,
  in_range draw -> 1 <= count <= 9 -> len qs <= 65535 -> ~ various count qs -> nth_error qs (N.to_nat (current R s)) = Some kanji ->
  populateAnswers R draw fuel l count kanji qs s = NoReturn.
Proof. intros R draw l count kanji qs s fuel Hd Hc Hl Hv Hk. exact (populate_never R draw nothing nothing l count qs Hd Hc Hl fuel s kanji Hk Hv). Qed.
Print Assumptions C41_choices_return_refuted.
(** A whole quiz or review returns if '/' comes at some point, and a quiz also if there is an answer
    for every question left. *)
Theorem C41_quiz_returns_partial : forall R (draw : N -> R -> N * R) shuffle extra details l question m lst fields count style i r ls,
  quiz_fits draw shuffle l count question lst -> startable question lst -> lines_left i ls -> fair draw -> various count lst ->
  In [47] ls \/ (isQuizMode l = true /\ len lst <= question - 1 + len (filter (answering count) ls)) ->
  exists fuel s', forall more, (fuel <= more)%nat ->
    listQuiz R draw shuffle extra details more l question m lst fields count style i r = Ok tt s'.
Proof.
  intros R draw shuffle extra details l question m lst fields count style i r ls [F1 [F2 [F3 [F4 [F5 F6]]]]] [S1 S2] Hl Hf Hv En.
  exact (quiz_returns R draw extra details shuffle l style fields count question m lst i r ls F1 F2 F3 F4 F5 S2 S1 Hl Hf Hv En).
Qed.
Print Assumptions C41_quiz_returns_partial.
(** With too few different readings a quiz with any question to ask never returns, not even by '/'. *)
Theorem C41_quiz_returns_refuted : forall R (draw : N -> R -> N * R) shuffle extra details l question m lst fields count style i r ls fuel,
  quiz_fits draw shuffle l count question lst -> startable question lst -> lines_left i ls -> question - 1 < len lst -> ~ various count lst ->
  listQuiz R draw shuffle extra details fuel l question m lst fields count style i r = NoReturn.
Proof.
  intros R draw shuffle extra details l question m lst fields count style i r ls fuel [F1 [F2 [F3 [F4 [F5 F6]]]]] [S1 S2] Hl Hs Hv.
  exact (quiz_never R draw extra details shuffle l style fields count question m lst i r ls F1 F2 F4 F5 S2 S1 Hl Hs Hv fuel).
Qed.
Print Assumptions C41_quiz_returns_refuted.
Example C41_example : fair counter /\ startable 1 sampleList /\ various 3 sampleList /\ ~ various 4 sampleList.
Proof.
  split; [exact counter_fair|]. split; [|split].
  - split; [repeat constructor; discriminate|]. unfold sampleList, len. cbn [length]. lia.
  - exists (map qReading sampleList). split; [|split; [apply incl_refl|reflexivity]]. unfold sampleList. cbn [map qReading q1 q2 q3].
    repeat constructor; vm_compute; intuition discriminate.
  - intros [rs [ND [IN L]]]. pose proof (NoDup_incl_length ND IN) as X. rewrite map_length in X. unfold len in L. cbn [sampleList length] in X. lia.
Qed.

(** * C69: what is shown *)

(** In a quiz or review that returns, every prompt shows the question to which the keys before it
    lead, the reply to the last key and, in a quiz, the answers offered.  The keys are the first
    proper answers among the lines of the input; a review also goes back by ','. *)
Theorem C69_every_prompt : forall R (draw : N -> R -> N * R) shuffle extra details fuel l question m lst fields count style i r ls s',
  quiz_fits draw shuffle l count question lst -> startable question lst -> lines_left i ls ->
  listQuiz R draw shuffle extra details fuel l question m lst fields count style i r = Ok tt s' ->
  let ps := fst (transcript [] (events R s')) in let ks := map sKey ps in let start := question - 1 in
  exists qs os rest,
    ordered (questionOrder l) lst qs /\ shows extra details (isQuizMode l) style fields count qs start m os ps
    /\ Forall (good_offer count qs) os /\ length os = visit ks
    /\ reads launcherQuit ls ps rest /\ lines_left (input R s') rest
    /\ ((~ In 47 ks /\ position start ks = len qs) \/ (exists ks', ks = ks' ++ [47] /\ ~ In 47 ks'))
    /\ (isQuizMode l = false -> snd (transcript [] (events R s')) = reply (header_text false style fields (len qs)) start os ks
          /\ (ks <> [] -> forall j, reply (header_text false style fields (len qs)) start os (firstn (S j) ks) = [])).
Proof.
  intros R draw shuffle extra details fuel l question m lst fields count style i r ls s' [F1 [F2 [F3 [F4 [F5 F6]]]]] [S1 S2] Hl E ps ks start.
  destruct (quiz_runs R draw shuffle extra details F1 l style fields count question m lst i r ls F2 F3 F4 F5 F6 Hl fuel S1 S2) as [K|[s2 [qs [os [K G]]]]]; [congruence|].
  rewrite K in E. injection E as ->. unfold ran in G. cbv zeta in G. fold ps ks start in G.
  destruct G as [G1 [G2 [G3 [G4 [[rest [G5 G5']] [G6 [G7 G8]]]]]]]. exists qs, os, rest.
  assert (U : forall l0 : list N, Forall (fun k => k <> 47) l0 -> ~ In 47 l0) by (intros l0 H1 H2; rewrite Forall_forall in H1; apply (H1 47 H2); reflexivity).
  split; [exact G1|]. split; [exact G2|]. split; [exact G3|]. split; [exact G4|]. split; [exact G5'|]. split; [exact G5|]. split.
  - destruct G6 as [[A B]|[ks' [A B]]]; [left; split; [apply U; exact A|exact B]|right; exists ks'; split; [exact A|apply U; exact B]].
  - intro Q. rewrite Q in *. split; [rewrite G8, app_nil_r; reflexivity|]. intros NE j. destruct ks as [|k0 ks0] eqn:EK; [congruence|].
    unfold reply. destruct (rev (firstn (S j) (k0 :: ks0))) as [|k' r'] eqn:ER; [apply (f_equal (@length N)) in ER; rewrite rev_length in ER; discriminate|].
    destruct (nth_error os (visit (rev r'))) as [o|]; [|reflexivity].
    assert (In k' (k0 :: ks0)).
    { assert (X : In k' (rev (firstn (S j) (k0 :: ks0)))) by (rewrite ER; left; reflexivity). apply in_rev in X.
      rewrite <- (firstn_skipn (S j) (k0 :: ks0)). apply in_or_app. left. exact X. }
    rewrite Forall_forall in G7. specialize (G7 k' H). 
    assert (X : 44 <= k').
    { assert (Y : exists p, In p ps /\ sKey p = k') by (rewrite <- EK in H; unfold ks in H; apply in_map_iff in H; destruct H as [p [A B]]; eauto).
      destruct Y as [p [Hp <-]]. apply In_nth_error in Hp. destruct Hp as [n Hn]. destruct (G2 n p Hn) as [o' [k2 [_ [_ [_ [_ RQ]]]]]].
      assert (PM : permitted launcherQuit (sRequest p) (sKey p)).
      { clear -G5' Hn RQ. assert (D : rqDefault (sRequest p) = None) by (rewrite RQ; reflexivity). clear RQ. revert n Hn.
        induction G5' as [ls|l0 ls p0 ps0 rest A NE0 B IH|l0 ls p0 ps0 rest A B IH|p0 ps0 rest A B IH]; intros n Hn.
        - destruct n; discriminate.
        - exact (IH n Hn).
        - destruct n as [|n]; [injection Hn as ->|exact (IH n Hn)]. rewrite D in A. destruct A as [[_ A]|[_ A]]; [exact A|discriminate].
        - destruct n as [|n]; [injection Hn as ->; congruence|exact (IH n Hn)]. }
      rewrite RQ in PM. rewrite <- Q in PM. pose proof (key_cases l style count qs F4) as KC.
      assert (LQ : len qs <= 65535).
      { unfold ordered in G1. destruct (questionOrder l); [subst qs; exact F5|subst qs; unfold len in *; rewrite rev_length; exact F5| |subst qs; exact F5].
        unfold len in *. rewrite <- (Permutation_length G1). exact F5. }
      specialize (KC LQ _ _ _ PM). lia. }
    unfold judge. replace (44 <=? k') with true by lia. replace (k' <=? 47) with true by lia. reflexivity.
Qed.
Print Assumptions C69_every_prompt.
Example C69_example : exists s',
  listQuiz N counter keep nothing nothing 9 reviewLauncher 2 true sampleList 0 2 ReadingToKanji (lines [b_ "."; b_ ","; b_ "-"; b_ "/"]) 0 = Ok tt s'
  /\ map (fun p => sText p) (fst (transcript [] (events N s'))) = [b_ ">>>
>>> Starting review for 3 kanji
>>>

2/3:  Reading:  ニ
    Meaning: two
"; b_ "
3/3:  Reading:  イチ
    Meaning: one
"; b_ "
2/3:  Reading:  ニ
    Meaning: two
"; b_ "
2/3:  Reading:  ニ
"].
Proof. eexists. vm_compute. auto. Qed.

(** * C70: quizzes that are refused *)

(** A Kanji without a reading and a first question that does not exist are refused before anything is
    asked.  In a quiz a score is printed nevertheless: the number of the first question is taken for
    the number of questions passed and skipped. *)
Theorem C70_refused : forall R (draw : N -> R -> N * R) shuffle extra details fuel l question m lst fields count style i r,
  quiz_fits draw shuffle l count question lst -> ~ startable question lst ->
  exists s', listQuiz R draw shuffle extra details fuel l question m lst fields count style i r = Err DomainError s'
    /\ fst (transcript [] (events R s')) = [] /\ input R s' = i
    /\ snd (transcript [] (events R s')) = (if isQuizMode l then score_text 0 question question [] else []).
Proof.
  intros R draw shuffle extra details fuel l question m lst fields count style i r [F1 [F2 [F3 [F4 [F5 F6]]]]] S.
  exact (quiz_refused R draw shuffle extra details l style fields count question m lst i r F2 F4 F5 F6 fuel S).
Qed.
Print Assumptions C70_refused.
(** all others are accepted *)
Theorem C70_accepted : forall R (draw : N -> R -> N * R) shuffle extra details fuel l question m lst fields count style i r ls,
  quiz_fits draw shuffle l count question lst -> startable question lst -> lines_left i ls ->
  listQuiz R draw shuffle extra details fuel l question m lst fields count style i r = NoReturn
  \/ exists s', listQuiz R draw shuffle extra details fuel l question m lst fields count style i r = Ok tt s'.
Proof.
  intros R draw shuffle extra details fuel l question m lst fields count style i r ls [F1 [F2 [F3 [F4 [F5 F6]]]]] [S1 S2] Hl.
  destruct (quiz_runs R draw shuffle extra details F1 l style fields count question m lst i r ls F2 F3 F4 F5 F6 Hl fuel S1 S2) as [K|[s2 [qs [os [K G]]]]]; [left; exact K|right; eauto].
Qed.
Print Assumptions C70_accepted.
Example C70_example : exists s',
  ~ startable 9999 sampleList
  /\ listQuiz N counter keep nothing nothing 9 quizLauncher 9999 false sampleList 0 3 KanjiToReading (lines []) 0 = Err DomainError s'
  /\ snd (transcript [] (events N s')) = b_ "
Final score: 0/9999, skipped: 9999
".
Proof. eexists. split; [intros [_ K]; vm_compute in K; congruence|]. vm_compute. auto. Qed.
