(** Proofs about whole list quizzes: the score, and when they return. *)
From Verif Require Import BaseFacts.
From Verif Require Export QuizProofs.
Open Scope N_scope.
Arguments N.add : simpl never.
Arguments N.sub : simpl never.
Arguments N.mul : simpl never.
Arguments u16 : simpl never.
Arguments u64 : simpl never.

Lemma len_app : forall A (a b : list A), len (a ++ b) = len a + len b.
Proof. intros. unfold len. rewrite app_length. lia. Qed.

(** ** The counts add up *)
Lemma counts : forall start os ks, Forall (fun k => k <> 44) ks -> Forall (fun k => k <> 47) ks -> (visit ks <= length os)%nat ->
  position start ks = start + skips ks + rights os ks + len (wrong os ks).
Proof.
  intros start os ks. induction ks as [|k ks IH] using rev_ind; intros H1 H2 L.
  { cbn. lia. }
  apply Forall_app in H1. apply Forall_app in H2. destruct H1 as [H1 K1], H2 as [H2 K2]. inversion K1; inversion K2; subst.
  rewrite visit_snoc in L. assert (L' : (visit ks <= length os)%nat) by (destruct (toggles k); lia).
  rewrite position_snoc. unfold skips. rewrite filter_app, len_app. fold (skips ks). cbn [filter]. specialize (IH H1 H2 L').
  destruct (toggles k) eqn:T.
  - rewrite rights_toggle, wrong_toggle by exact T. unfold toggles in T. unfold move. replace (k =? 45) with true by lia. cbn [orb].
    replace (46 =? k) with false by lia. change (len (@nil N)) with 0. lia.
  - destruct (nth_error os (visit ks)) as [o|] eqn:E; [|apply nth_error_None in E; lia].
    rewrite (rights_snoc _ _ _ _ E T), (wrong_snoc _ _ _ _ E T), len_app. unfold toggles in T. unfold move.
    replace (k =? 45) with false by lia. replace (k =? 47) with false by lia. replace (k =? 44) with false by lia. cbn [orb].
    unfold judge. destruct (46 =? k) eqn:E46.
    + replace ((44 <=? k) && (k <=? 47)) with true by lia. cbn [isRight isWrong]. change (len (@nil N)) with 0. change (len [k]) with 1. lia.
    + replace ((44 <=? k) && (k <=? 47)) with false by lia. destruct (k =? rightKey o); cbn [isRight isWrong]; change (len (@nil N)) with 0; change (len [oQuestion o]) with 1; lia.
Qed.
Lemma counts_ended : forall start os ks, Forall (fun k => k <> 44) ks -> (visit ks <= length os)%nat ->
  Forall (fun k => k <> 47) ks \/ (exists ks', ks = ks' ++ [47] /\ Forall (fun k => k <> 47) ks') ->
  position start ks = start + skips ks + rights os ks + len (wrong os ks).
Proof.
  intros start os ks H L [U|[ks' [-> U]]]; [apply counts; assumption|].
  apply Forall_app in H. destruct H as [H _]. rewrite visit_snoc in L. cbn [toggles N.eqb Pos.eqb] in L.
  destruct (nth_error os (visit ks')) as [o|] eqn:E; [|apply nth_error_None in E; lia].
  rewrite (rights_snoc _ _ _ _ E), (wrong_snoc _ _ _ _ E) by reflexivity. rewrite position_snoc. change (move (position start ks') 47) with (position start ks').
  unfold judge. cbn [N.leb N.compare Pos.compare Pos.compare_cont andb isRight isWrong]. rewrite app_nil_r. unfold skips. rewrite filter_app.
  cbn [filter N.eqb Pos.eqb]. rewrite app_nil_r. fold (skips ks'). rewrite (counts start os ks') by (assumption || lia). lia.
Qed.

Section Quiz.
Variable R : Type.
Variable draw : N -> R -> N * R.
Variable shuffle : list QKanji -> R -> list QKanji * R.
Variable extraTypeInfo reviewDetails : QKanji -> bytes.
Hypothesis Hdraw : in_range draw.
Notation State := (State R).
Implicit Type s : State.
Notation printed s := (snd (transcript [] (events R s))).
Notation prompts s := (fst (transcript [] (events R s))).
Notation keys s := (map sKey (fst (transcript [] (events R s)))).

Lemma final_text : forall l s skipped, isQuizMode l = true -> current R s <= 65535 ->
  current R s = skipped + correctAnswers R s + len (mistakes R s) ->
  Printed R (score_text (correctAnswers R s) (current R s) skipped (mistakes R s)) s (finalScore R l s).
Proof.
  intros l s skipped Q Hc E. unfold finalScore. rewrite Q.
  assert (K : u64 (2 * 2 ^ 64 + current R s - correctAnswers R s - len (mistakes R s)) = skipped).
  { unfold u64. replace (2 * 2 ^ 64 + current R s - correctAnswers R s - len (mistakes R s)) with (skipped + 2 * 2 ^ 64) by lia.
    rewrite N.mod_add by discriminate. apply N.mod_small. change (2 ^ 64) with 18446744073709551616. lia. }
  rewrite K. eapply Printed_eq; [apply Printed_print|]. unfold score_text.
  assert (D : forall a b, a = b -> forall c, (b_ "
Final score: " ++ c ++ b_ "/" ++ a ++ b_ "
") = newline ++ b_ "Final score: " ++ c ++ b_ "/" ++ b ++ newline) by (intros a b -> c; reflexivity).
  specialize (D (to_string (current R s) ++ (if current R s =? 0 then []
          else (if skipped =? 0 then [] else b_ ", skipped: " ++ to_string skipped)
               ++ (match mistakes R s with
                   | [] => if skipped =? 0 then b_ " - Perfect!" else []
                   | m => b_ " - mistakes:" ++ flat_map (fun n => b_ " " ++ n) m
                   end))) (to_string (current R s) ++ (if current R s =? 0 then [] else
        (if 0 <? skipped then b_ ", skipped: " ++ to_string skipped else [])
        ++ (if 0 <? len (mistakes R s) then b_ " - mistakes:" ++ flat_map (fun n => b_ " " ++ n) (mistakes R s) else [])
        ++ (if (skipped =? 0) && (len (mistakes R s) =? 0) then b_ " - Perfect!" else [])))).
  rewrite <- !app_assoc in D. apply D. clear D. f_equal. destruct (current R s =? 0); [reflexivity|].
  assert (Hk : (0 <? skipped) = negb (skipped =? 0)) by lia. rewrite Hk. destruct (skipped =? 0) eqn:Ek; cbn [negb andb app].
  - destruct (mistakes R s) as [|m ms]; [reflexivity|]. replace (0 <? len (m :: ms)) with true by (unfold len; cbn [length]; lia).
    replace (len (m :: ms) =? 0) with false by (unfold len; cbn [length]; lia). rewrite app_nil_r. reflexivity.
  - destruct (mistakes R s) as [|m ms]; [reflexivity|]. replace (0 <? len (m :: ms)) with true by (unfold len; cbn [length]; lia).
    rewrite app_nil_r. reflexivity.
Qed.

Lemma legend_spec : forall fields s, Printed R (legend_text fields) s (printLegend R fields s).
Proof.
  intros fields s. unfold printLegend. cbv zeta. eapply Printed_eq; [apply Printed_print|]. unfold legend_text. cbv zeta.
  destruct (hasField fields Info_Level), (hasField fields Info_Kyu), (hasField fields Info_Grade); reflexivity.
Qed.

(** what is known of a quiz that returned *)
Definition ran (l : Launcher) (style : QuizStyle) (fields count start : N) (m : bool) (lst : list QKanji) (ls : list bytes)
    (qs : list QKanji) (os : list offer) (s' : State) : Prop :=
  let ks := keys s' in
  ordered (questionOrder l) lst qs
  /\ shows extraTypeInfo reviewDetails (isQuizMode l) style fields count qs start m os (prompts s')
  /\ Forall (good_offer count qs) os /\ length os = visit ks
  /\ (exists rest, lines_left (input R s') rest /\ reads launcherQuit ls (prompts s') rest)
  /\ ((Forall (fun k => k <> 47) ks /\ position start ks = len qs) \/ (exists ks', ks = ks' ++ [47] /\ Forall (fun k => k <> 47) ks'))
  /\ (if isQuizMode l then Forall (fun k => k <> 44) ks else Forall (fun k => k <= 47) ks)
  /\ printed s' = reply (header_text (isQuizMode l) style fields (len qs)) start os ks
       ++ (if isQuizMode l then score_text (rights os ks) (position start ks) (start + skips ks) (wrongNames qs os ks) else []).

Section Whole.
Variable l : Launcher.
Variable style : QuizStyle.
Variable fields count question : N.
Variable m0 : bool.
Variable lst : list QKanji.
Variable i0 : istream.
Variable r0 : R.
Variable ls0 : list bytes.
Hypothesis Hshuffle : shuffles shuffle.
Hypothesis Hquit : quitOption l = launcherQuit.
Hypothesis Hcount : 1 <= count <= 9.
Hypothesis Hlen : len lst <= 65535.
Hypothesis Hquestion : question <= 65535.
Hypothesis Hls : lines_left i0 ls0.
Notation run fuel := (listQuiz R draw shuffle extraTypeInfo reviewDetails fuel l question m0 lst fields count style i0 r0).

(** the questions and the random values left *)
Definition chosen : list QKanji * R :=
  match questionOrder l with FromEnd => (rev lst, r0) | RandomOrder => shuffle lst r0 | _ => (lst, r0) end.
Lemma chosen_ordered : ordered (questionOrder l) lst (fst chosen).
Proof. unfold chosen, ordered. destruct (questionOrder l); try reflexivity. apply Hshuffle. Qed.
Lemma chosen_perm : Permutation lst (fst chosen).
Proof. unfold chosen. destruct (questionOrder l); [apply Permutation_refl|apply Permutation_rev|apply Hshuffle|apply Permutation_refl]. Qed.
Lemma chosen_len : len (fst chosen) = len lst.
Proof. unfold len. rewrite (Permutation_length chosen_perm). reflexivity. Qed.

(** the state in which the loop starts *)
Lemma begin_spec : Forall (fun k => qReading k <> []) lst -> question <= len lst ->
  exists s1, (forall fuel, run fuel = destroyed R l (startLoop R draw extraTypeInfo reviewDetails fuel l style fields count (48 + count) (fst chosen) s1))
    /\ Inv R extraTypeInfo reviewDetails l style fields count (question - 1) (fst chosen) m0 ls0 s1 []
    /\ events R s1 <> [] /\ keys s1 = [] /\ rng R s1 = snd chosen /\ current R s1 = question - 1 /\ input R s1 = i0.
Proof.
  intros Hr Hql. set (start := question - 1).
  set (sa := setRng R (snd chosen) (initial R question m0 i0 r0)).
  set (sb := print R (b_ ">>>
>>> Starting " ++ (if isQuizMode l then b_ "quiz" else b_ "review") ++ b_ " for " ++ to_string (len (fst chosen)) ++ b_ " ") (setCurrent R start sa)).
  set (sc := print R (b_ "kanji
>>>
") sb).
  set (sd := if isKanjiToReading style then printLegend R fields sc else sc).
  exists sd. split; [|split].
  - intro fuel. unfold listQuiz. replace (toChar_int (Z.of_N (48 + count)) true) with (Val (48 + count)).
    2:{ unfold toChar_int. cbn [andb negb]. replace (Z.of_N (48 + count) <? -128)%Z with false by lia. replace (255 <? Z.of_N (48 + count))%Z with false by lia.
        rewrite Z.mod_small by lia. rewrite N2Z.id. reflexivity. }
    replace (forallb hasReading lst) with true.
    2:{ symmetry. apply forallb_forall. intros k Hk. rewrite Forall_forall in Hr. specialize (Hr k Hk). unfold hasReading. destruct (qReading k); [congruence|reflexivity]. }
    f_equal. fold chosen. rewrite (surjective_pairing chosen). cbv zeta. fold sa.
    assert (B : beginQuizMessage R l (len (fst chosen)) sa = Ok tt sb).
    { unfold beginQuizMessage, sb. cbv zeta. change (current R sa) with question. destruct (question =? 0) eqn:E0.
      - apply N.eqb_eq in E0. unfold start. rewrite E0. change (0 - 1) with 0. unfold sa. rewrite E0. reflexivity.
      - rewrite chosen_len. replace (len lst <? question) with false by lia.
        replace (u16 (question + 65535)) with start; [reflexivity|]. unfold start, u16. change (2 ^ 16) with 65536.
        replace (question + 65535) with (question - 1 + 1 * 65536) by lia. rewrite N.mod_add, N.mod_small by lia. reflexivity. }
    rewrite B. reflexivity.
  - assert (P : Printed R (header_text (isQuizMode l) style fields (len (fst chosen))) (setCurrent R start sa) sd).
    { eapply Printed_eq.
      - apply Printed_trans with (s1 := sb); [apply Printed_print|]. apply Printed_trans with (s1 := sc); [apply Printed_print|].
        instantiate (1 := match style with KanjiToReading => legend_text fields | ReadingToKanji => [] end).
        unfold sd. destruct style; cbn [isKanjiToReading]; [apply legend_spec|apply Printed_refl].
      - unfold header_text. rewrite <- !app_assoc. destruct (isQuizMode l); reflexivity. }
    assert (EP : prompts sd = []) by (rewrite (P_prompts _ _ _ _ P); reflexivity).
    constructor; rewrite ?EP; cbn [map].
    + exact (P_cur _ _ _ _ P).
    + exact (P_mean _ _ _ _ P).
    + exact (P_cor _ _ _ _ P).
    + exact (P_mis _ _ _ _ P).
    + rewrite (P_text _ _ _ _ P). reflexivity.
    + intros j p Hj. destruct j; discriminate.
    + constructor.
    + exists ls0. split; [rewrite (P_in _ _ _ _ P); exact Hls|constructor].
    + destruct (isQuizMode l); constructor.
    + rewrite (P_cur _ _ _ _ P), chosen_len. cbn [setCurrent current]. unfold start. lia.
  - split; [|split; [|split; [|split]]].
    + unfold sd, sc, sb. intro K. destruct (isKanjiToReading style); discriminate.
    + unfold sd. destruct (isKanjiToReading style); reflexivity.
    + unfold sd. destruct (isKanjiToReading style); reflexivity.
    + unfold sd. destruct (isKanjiToReading style); reflexivity.
    + unfold sd. destruct (isKanjiToReading style); reflexivity.
Qed.

Lemma final_inv : forall qs s os, len qs <= 65535 -> ordered (questionOrder l) lst qs ->
  Ended R extraTypeInfo reviewDetails l style fields count (question - 1) qs m0 ls0 s os ->
  ran l style fields count (question - 1) m0 lst ls0 qs os (finalScore R l s).
Proof.
  intros qs s os Hq Ho [[H1 H2 H3 H4 H5 H6 H7 H8 H9 H10] [HL HE]].
  assert (X : exists t, Printed R t s (finalScore R l s) /\ t = (if isQuizMode l then score_text (rights os (keys s)) (position (question - 1) (keys s)) (question - 1 + skips (keys s)) (wrongNames qs os (keys s)) else [])).
  { destruct (isQuizMode l) eqn:Q.
    - eexists. split; [|reflexivity]. rewrite <- H1, <- H3, <- H4. apply final_text; [exact Q|lia|].
      rewrite H1, H3, H4. unfold wrongNames. replace (len (map (nameAt qs) (wrong os (keys s)))) with (len (wrong os (keys s))) by (unfold len; rewrite map_length; reflexivity).
      rewrite (counts_ended (question - 1) os (keys s)); [lia|exact H9|lia|]. destruct HE as [[U _]|K]; [left; exact U|right; exact K].
    - exists []. split; [|reflexivity]. unfold finalScore. rewrite Q. apply Printed_refl. }
  destruct X as [t [P Et]]. unfold ran. cbv zeta. rewrite (P_prompts _ _ _ _ P), (P_in _ _ _ _ P), (P_text _ _ _ _ P), H5, Et.
  split; [exact Ho|]. split; [exact H6|]. split; [exact H7|]. split; [exact HL|]. split; [exact H8|]. split; [|split; [exact H9|reflexivity]].
  destruct HE as [[U E]|K]; [left; split; [exact U|rewrite <- H1; exact E]|right; exact K].
Qed.

Lemma quiz_runs : forall fuel, Forall (fun k => qReading k <> []) lst -> question <= len lst ->
  run fuel = NoReturn \/ exists s' qs os, run fuel = Ok tt s' /\ ran l style fields count (question - 1) m0 lst ls0 qs os s'.
Proof.
  intros fuel Hr Hql. destruct (begin_spec Hr Hql) as [s1 [E [I [_ [K _]]]]]. rewrite E.
  assert (HL : len (fst chosen) <= 65535) by (rewrite chosen_len; exact Hlen).
  destruct (start_spec R draw extraTypeInfo reviewDetails Hdraw l style fields count (question - 1) (fst chosen) m0 ls0 Hquit Hcount HL fuel s1 [] I) as [H|[s' [os [H EN]]]].
  - unfold unquit. rewrite K. constructor.
  - rewrite K. reflexivity.
  - left. rewrite H. reflexivity.
  - right. rewrite H. exists (finalScore R l s'), (fst chosen), os. split; [reflexivity|]. apply final_inv; [exact HL|apply chosen_ordered|exact EN].
Qed.

Lemma quiz_refused : forall fuel, ~ (Forall (fun k => qReading k <> []) lst /\ question <= len lst) ->
  exists s', run fuel = Err DomainError s' /\ prompts s' = [] /\ input R s' = i0
    /\ printed s' = (if isQuizMode l then score_text 0 question question [] else []).
Proof.
  intros fuel H. unfold listQuiz. replace (toChar_int (Z.of_N (48 + count)) true) with (Val (48 + count)).
  2:{ unfold toChar_int. cbn [andb negb]. replace (Z.of_N (48 + count) <? -128)%Z with false by lia. replace (255 <? Z.of_N (48 + count))%Z with false by lia.
      rewrite Z.mod_small by lia. rewrite N2Z.id. reflexivity. }
  assert (X : forall s, current R s = question -> correctAnswers R s = 0 -> mistakes R s = [] -> events R s = [] -> input R s = i0 ->
     exists s', destroyed R l (@Err State unit DomainError s) = Err DomainError s' /\ prompts s' = [] /\ input R s' = i0
       /\ printed s' = (if isQuizMode l then score_text 0 question question [] else [])).
  { intros s C1 C2 C3 C4 C5. cbn [destroyed]. exists (finalScore R l s). split; [reflexivity|]. destruct (isQuizMode l) eqn:Q.
    - destruct (final_text l s question Q) as [A1 A2 A3 A4 A5 A6 A7 A8]; [lia|rewrite C1, C2, C3; change (len (@nil bytes)) with 0; lia|].
      rewrite A5, A7, A8, C4, C1, C2, C3. auto.
    - unfold finalScore. rewrite Q, C4. auto. }
  destruct (forallb hasReading lst) eqn:F.
  - assert (Hq : len lst < question).
    { destruct (N.lt_ge_cases (len lst) question) as [Hq|Hq]; [exact Hq|]. exfalso. apply H. split; [|exact Hq]. apply Forall_forall. intros k Hk E.
      rewrite forallb_forall in F. specialize (F k Hk). unfold hasReading in F. rewrite E in F. discriminate. }
    fold chosen. rewrite (surjective_pairing chosen). cbv zeta.
    assert (B : beginQuizMessage R l (len (fst chosen)) (setRng R (snd chosen) (initial R question m0 i0 r0)) = Err DomainError (setRng R (snd chosen) (initial R question m0 i0 r0))).
    { unfold beginQuizMessage. cbv zeta. cbn [setRng initial current]. replace (question =? 0) with false by lia. rewrite chosen_len.
      replace (len lst <? question) with true by lia. reflexivity. }
    rewrite B. cbn [rbind]. apply X; reflexivity.
  - apply X; reflexivity.
Qed.
End Whole.
End Quiz.
