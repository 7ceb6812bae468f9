(** Lemmas for GroupProps.v: groups, answers to one group, and quizzes that return. *)
From Verif Require Import BaseFacts DisplayProofs QuizProofs GroupLemmas GroupProofs GroupQuizSpec GroupWhole GroupOutcome.
Open Scope N_scope.

(** ** Groups *)
Lemma duplicate_iff : forall l seen, NoDup seen -> (hasDuplicate seen l = false <-> NoDup (rev seen ++ map qName l)).
Proof.
  induction l as [|k l IH]; intros seen H; cbn [hasDuplicate map].
  - rewrite app_nil_r. split; [intros _; apply NoDup_rev; exact H|reflexivity].
  - destruct (existsb (beq (qName k)) seen) eqn:E; cbn [orb].
    + split; [discriminate|]. intro K. exfalso. apply existsb_exists in E. destruct E as [x [Hx E]]. apply beq_eq in E. subst x.
      apply NoDup_remove_2 in K. apply K, in_or_app. left. apply -> in_rev. exact Hx.
    + rewrite (IH (qName k :: seen)).
      * cbn [rev]. rewrite <- app_assoc. reflexivity.
      * constructor; [|exact H]. intro Hx. assert (X : existsb (beq (qName k)) seen = true); [|congruence]. apply existsb_exists. exists (qName k). split; [exact Hx|apply beq_eq; reflexivity].
Qed.
Lemma check_iff : forall ms, (proper_members ms /\ checkMembers ms = Val tt) \/ (~ proper_members ms /\ checkMembers ms = Throw DomainError).
Proof.
  intros ms. unfold checkMembers, proper_members, MaxGroupSize. destruct (len ms =? 0) eqn:E0; [right; split; [lia|reflexivity]|]. destruct (len ms =? 1) eqn:E1; [right; split; [lia|reflexivity]|].
  destruct (58 <? len ms) eqn:E2; [right; split; [lia|reflexivity]|]. pose proof (duplicate_iff ms [] (NoDup_nil _)) as D. cbn [rev app] in D.
  destruct (hasDuplicate [] ms); [right|left]; (split; [|reflexivity]).
  - intros [_ K]. apply D in K. discriminate.
  - split; [lia|]. apply D. reflexivity.
Qed.

(** ** Pinyin that is too wide *)
Lemma pinyin_wide : forall k ps p, chars ps -> kPinyin k = text ps -> DisplaySpec.total ps p -> 8 < p -> pinyinText k = Throw StdOutOfRange.
Proof.
  intros k ps p C E T H. unfold pinyinText. rewrite E. destruct ps as [|x ps]; [inversion T; subst; lia|].
  assert (NE : nonEmpty (text (x :: ps)) = true).
  { unfold text. cbn [flat_map]. unfold enc. destruct (x <? 128); [reflexivity|]. destruct (x <? 2048); [reflexivity|]. destruct (x <? 65536); reflexivity. }
  rewrite NE. cbv zeta. assert (S1 : Sized (b_ "  (" ++ text (x :: ps) ++ b_ ")") (p + 4)).
  { replace (p + 4) with (3 + (p + 1)) by lia. apply sized_app; [apply (sized_ascii (b_ "  (")), ascii_lit; reflexivity|]. apply sized_app; [apply sized_text; assumption|].
    apply (sized_ascii (b_ ")")), ascii_lit. reflexivity. }
  rewrite (sized_val _ _ S1). cbn [obind]. unfold PinyinWidth. replace (12 <? p + 4) with true by lia. reflexivity.
Qed.

Section Facts.
Variable R : Type.
Notation State := (State R).
Implicit Type s : State.
Notation printed s := (snd (transcript [] (events R s))).
Notation prompts s := (fst (transcript [] (events R s))).

(** ** Answers to one group *)
Lemma checked : forall qs rs name sheet s, (length rs <= 26)%nat -> (forall c, In c sheet -> In c (letters (length rs))) -> (length sheet <= length qs)%nat ->
  correctAnswers R s < 65535 ->
  let n := points (meanings R s) qs rs sheet in
  exists s', checkAnswers R qs rs name sheet s = Ok tt s' /\ prompts s' = prompts s /\ input R s' = input R s /\ current R s' = current R s /\ meanings R s' = meanings R s
    /\ (if n =? len sheet
        then correctAnswers R s' = correctAnswers R s + 1 /\ mistakes R s' = mistakes R s
             /\ printed s' = printed s ++ b_ "  Correct! (" ++ to_string (correctAnswers R s + 1) ++ b_ "/" ++ to_string (current R s + 1) ++ b_ ")" ++ newline
        else correctAnswers R s' = correctAnswers R s /\ mistakes R s' = mistakes R s ++ [name]
             /\ printed s' = printed s ++ b_ "  Incorrect (got " ++ to_string n ++ b_ " right out of " ++ to_string (len sheet) ++ b_ ")" ++ newline).
Proof.
  intros qs rs name sheet s H1 H2 H3 H4 n. unfold checkAnswers. rewrite (count_points (meanings R s) rs sheet qs H1 H2 H3). fold n. cbn [lift rbind].
  destruct (n =? len sheet).
  - eexists. split; [reflexivity|]. unfold correctMessage. cbv zeta.
    match goal with |- context [print R ?x ?y] => pose proof (Printed_print R x y) as P end.
    rewrite (P_prompts _ _ _ _ P), (P_in _ _ _ _ P), (P_cur _ _ _ _ P), (P_mean _ _ _ _ P), (P_cor _ _ _ _ P), (P_mis _ _ _ _ P), (P_text _ _ _ _ P).
    cbn [setCorrect events input current meanings correctAnswers mistakes]. unfold u16. change (2 ^ 16) with 65536. rewrite N.mod_small by lia. auto 10.
  - eexists. split; [reflexivity|]. unfold incorrectMessage.
    match goal with |- context [print R ?x (print R ?z ?y)] => pose proof (Printed_trans R z x y _ _ (Printed_print R z y) (Printed_print R x (print R z y))) as P end.
    rewrite (P_prompts _ _ _ _ P), (P_in _ _ _ _ P), (P_cur _ _ _ _ P), (P_mean _ _ _ _ P), (P_cor _ _ _ _ P), (P_mis _ _ _ _ P), (P_text _ _ _ _ P).
    cbn [addMistake events input current meanings correctAnswers mistakes]. rewrite <- ?app_assoc. repeat (split; [reflexivity|]). reflexivity.
Qed.
Lemma unchecked : forall qs rs name sheet s, (26 < length rs <= 58)%nat -> NoDup sheet -> (forall c, In c sheet -> In c (letters (length rs))) -> length sheet = length rs ->
  checkAnswers R qs rs name sheet s = Undefined.
Proof.
  intros qs rs name sheet s H1 H2 H3 H4. unfold checkAnswers. pose proof (full_has _ _ H1 H2 H3 H4) as K.
  rewrite (count_undefined (meanings R s) rs sheet qs 65); [reflexivity| |exact K|lia]. unfold len. change (2 ^ 32) with 4294967296. lia.
Qed.

(** ** Quizzes that return *)
Variable shuffleGroups : list Group -> R -> list Group * R.
Variable shuffle : list QKanji -> R -> list QKanji * R.
Variable other : GroupType -> bytes -> option N.
Variable l : Launcher.
Variable question : N.
Variable m0 : bool.
Variable m : MemberType.
Variable lst : list Group.
Variable entry : QKanji -> bytes.
Variable i0 : istream.
Variable r0 : R.
Variable ls0 : list bytes.
Hypothesis Hfit : groups_fit shuffleGroups shuffle other l question m lst entry.
Hypothesis Hls : lines_left i0 ls0.
Notation run fuel := (groupQuiz R shuffleGroups shuffle other fuel l question m0 lst m i0 r0).

Lemma returned : forall fuel s', run fuel = Ok tt s' ->
  (prompts s' = [MkSeen [] name_request 47] /\ printed s' = (if isQuizMode l then score_text 0 question question [] else [])
     /\ exists rest, lines_left (input R s') rest /\ reads launcherQuit ls0 (prompts s') rest)
  \/ exists g ps0 gs r' ks rest rest0,
       let start := starting R shuffle l m gs entry (gType g) question m0 r' in
       let t := table_after R shuffle l m gs entry (fst start) ks in
       hd_error lst = Some g /\ starts R shuffleGroups l m lst r0 ps0 gs r' /\ reads launcherQuit ls0 ps0 rest0 /\ question <= len gs
       /\ completes R shuffle l m gs entry start ps0 ls0 ks rest
       /\ prompts s' = ps0 ++ fst (script R shuffle l m gs entry (fst start) (snd start) ks)
       /\ printed s' = snd (script R shuffle l m gs entry (fst start) (snd start) ks) ++ group_score (isQuizMode l) question t ks
       /\ lines_left (input R s') rest.
Proof.
  intros fuel s' E. destruct (whole R shuffleGroups shuffle other l question m0 m lst entry i0 r0 ls0 Hfit Hls fuel) as [[_ [s1 [K _]]]|[g [rest1 [EL W]]]]; [congruence|].
  destruct W as [[_ [[K _]|[s1 [rst [K [W1 [W2 [W3 W4]]]]]]]]|[ps0 [gs [r' [S [[rst0 RD] [[_ [s1 [rst [K _]]]]|[Hq W]]]]]]]]; [congruence| |congruence|].
  - rewrite K in E. injection E as ->. left. split; [exact W1|]. split; [exact W2|]. exists rst. auto.
  - destruct W as [[K _]|[[K _]|[ks [rest [s1 [K [W1 [W2 [W3 [W4 [W5 W6]]]]]]]]]]]; [congruence|congruence|]. rewrite K in E. injection E as ->.
    right. exists g, ps0, gs, r', ks, rest, rst0. cbv zeta. split; [rewrite EL; reflexivity|]. split; [exact S|]. split; [exact RD|]. split; [exact Hq|]. split; [|auto].
    split; [exact W1|]. split; [exact W2|]. rewrite <- W3. exact W6.
Qed.
End Facts.
