(** Properties of groups and group quizzes (C39, C42, C71, C72, C73, C74, C75). *)
From Verif Require Import BaseFacts GroupQuizSpec GroupSample GroupLemmas GroupWhole GroupOutcome GroupFacts.
Open Scope N_scope.

(** * C71: groups *)

(** a meaning group is made exactly of two to 58 members with different names *)
Theorem C71_meaning_group : forall number name members,
  (proper_members members -> meaningGroup number name members = Val (MkGroup MeaningType number name members NoPattern))
  /\ (~ proper_members members -> meaningGroup number name members = Throw DomainError).
Proof.
  intros number name members. unfold meaningGroup. destruct (check_iff members) as [[H ->]|[H ->]]; split; intro K; try contradiction; reflexivity.
Qed.
Print Assumptions C71_meaning_group.
(** so is a pattern group, which also needs a pattern type *)
Theorem C71_pattern_group : forall number name members p,
  (proper_members members /\ p <> NoPattern -> patternGroup number name members p = Val (MkGroup PatternGroupType number name members p))
  /\ (~ (proper_members members /\ p <> NoPattern) -> patternGroup number name members p = Throw DomainError).
Proof.
  intros number name members p. unfold patternGroup. destruct (check_iff members) as [[H ->]|[H ->]]; split; intro K; cbn [obind].
  - destruct K as [_ K]. destruct p; congruence.
  - destruct p; [exfalso; apply K; split; [exact H|discriminate]..|reflexivity].
  - destruct K. contradiction.
  - reflexivity.
Qed.
Print Assumptions C71_pattern_group.
Example C71_example : proper_members sampleList /\ ~ proper_members (sampleList ++ [q1]) /\ ~ proper_members (manyMembers 59)
  /\ meaningGroup 1 (b_ "x") sampleList = Val (MkGroup MeaningType 1 (b_ "x") sampleList NoPattern)
  /\ meaningGroup 1 (b_ "x") (sampleList ++ [q1]) = Throw DomainError /\ patternGroup 1 (b_ "x") sampleList NoPattern = Throw DomainError.
Proof.
  assert (P : proper_members sampleList) by (split; [vm_compute; split; discriminate|repeat constructor; vm_compute; intuition discriminate]).
  split; [exact P|]. split; [|split; [intros [[_ K] _]; vm_compute in K; congruence|repeat split; vm_compute; reflexivity]].
  intros [_ K]. cbn [sampleList app map] in K. inversion K as [|? ? H _]. apply H. right. right. left. reflexivity.
Qed.

(** * C73: what is asked *)

(** members are shown if they have a reading and belong to the chosen set *)
Theorem C73_members : forall m k, includeMember m k = true <-> included m k.
Proof. exact included_iff. Qed.
Print Assumptions C73_members.
(** what is shown of one *)
Theorem C73_entry : forall other l ty k e, entry_shown other (isQuizMode l) ty k e -> entryText other l ty k = Val e.
Proof. exact entry_spec. Qed.
Print Assumptions C73_entry.
(** pinyin of more than 8 columns ends the quiz by an exception instead *)
Theorem C73_entry_refused : forall other l ty k ps p, chars ps -> kPinyin (qKanji k) = text ps -> total ps p -> 8 < p ->
  entryText other l ty k = Throw StdOutOfRange.
Proof.
  intros other l ty k ps p C E T H. unfold entryText. destruct (KanjiProofs.qualifiedName_spec (qKanji k)) as [c [_ Q]]. rewrite Q. cbn [obind].
  rewrite (pinyin_wide _ ps p C E T H). reflexivity.
Qed.
Print Assumptions C73_entry_refused.
(** As long as the quiz goes on, both sides of the table show the members of one of the groups that
    were chosen, and all of those to be shown. *)
Theorem C73_table : forall R shuffleGroups shuffle other l question shown m lst entry r g ps0 gs r' ks,
  groups_fit shuffleGroups shuffle other l question m lst entry -> hd_error lst = Some g ->
  starts R shuffleGroups l m lst r ps0 gs r' -> question <= len gs ->
  let start := fst (starting R shuffle l m gs entry (gType g) question shown r') in
  playable R shuffle l m gs entry launcherQuit start ks ->
  let t := table_after R shuffle l m gs entry start ks in
  finished R gs t = true \/ shows_members R m gs t.
Proof.
  intros R shuffleGroups shuffle other l question shown m lst entry r g ps0 gs r' ks F G S H start P t.
  destruct (tables_sound R shuffleGroups shuffle other l question shown m lst entry r F g G ps0 gs r' S H ks P) as [K|[K _]]; [left|right]; exact K.
Qed.
Print Assumptions C73_table.
(** the groups are those with at least two members to show, all of them or those under one key, in
    the order of the launcher *)
Theorem C73_groups : forall R shuffleGroups l m lst r ps0 gs r', shuffles shuffleGroups -> starts R shuffleGroups l m lst r ps0 gs r' ->
  exists chosen, Permutation chosen gs /\ incl gs lst
    /\ ((questionOrder l = FromBeginning /\ m = MAll /\ ps0 = [] /\ chosen = lst)
        \/ exists part, chosen = filter (fun g => 1 <? len (filter (includeMember m) (gMembers g))) part
             /\ ((ps0 = [] /\ part = lst) \/ exists key, ps0 = [MkSeen [] name_request key] /\ part_for key lst part)).
Proof.
  intros R shuffleGroups l m lst r ps0 gs r' F S.
  assert (P : forall kept a b, arranged R shuffleGroups l kept r a b -> Permutation kept a).
  { intros kept a b H. unfold arranged in H. destruct (questionOrder l).
    - destruct H as [-> _]. apply Permutation_refl.
    - destruct H as [-> _]. apply Permutation_rev.
    - pose proof (F kept r) as K. rewrite <- H in K. exact K.
    - destruct H as [-> _]. apply Permutation_refl. }
  assert (I : forall kept a, Permutation kept a -> incl kept lst -> incl a lst).
  { intros kept a H K x Hx. apply K. exact (Permutation_in x (Permutation_sym H) Hx). }
  destruct S as [g rest gs r' E T A|g rest key part gs r' E T K Q A].
  - exists (match questionOrder l, m with FromBeginning, MAll => lst | _, _ => filter (worth m) lst end). pose proof (P _ _ _ A) as A1. split; [exact A1|]. split.
    + apply (I _ _ A1). destruct (questionOrder l), m; try apply incl_refl; apply incl_filter.
    + assert (D : (questionOrder l = FromBeginning /\ m = MAll) \/ match questionOrder l, m with FromBeginning, MAll => lst | _, _ => filter (worth m) lst end = filter (worth m) lst) by (destruct (questionOrder l), m; auto).
      destruct D as [[D1 D2]|D]; [left; rewrite D1, D2; auto|]. right. exists lst. rewrite D. auto.
  - exists (filter (worth m) part). pose proof (P _ _ _ A) as A1. split; [exact A1|]. split.
    + apply (I _ _ A1). intros x Hx. apply filter_In in Hx. apply (proj1 (part_incl _ _ _ Q)), (proj1 Hx).
    + right. exists part. split; [reflexivity|]. right. exists key. auto.
Qed.
Print Assumptions C73_groups.
Example C73_example : groups_fit keepGroup keep noOther quizLauncher 1 MJouyou sampleGroups sampleEntry
  /\ starts N keepGroup quizLauncher MJouyou sampleGroups 5 [] sampleGroups 5
  /\ entry_shown noOther true MeaningType q2 (b_ "二.  (yi)             ")
  /\ part_for 50 [MkGroup PatternGroupType 1 (b_ "一：イツ") [] Family; MkGroup PatternGroupType 2 (b_ "二：カイ") [] Family; MkGroup PatternGroupType 3 (b_ "三：サン") [] Family]
                 [MkGroup PatternGroupType 2 (b_ "二：カイ") [] Family].
Proof.
  split; [exact sample_fit|]. split; [|split].
  - eapply starts_meaning; [reflexivity|reflexivity|]. split; vm_compute; reflexivity.
  - pose proof (sample_entry q2 0x4E8C eq_refl) as K. change (enc 0x4E8C ++ b_ ".  (yi)" ++ repeat 32 13) with (b_ "二.  (yi)             ") in K. apply K. lia.
  - assert (M : forall mk g, marked mk g <-> contains mk (gName g) = true) by (intros mk g; rewrite contains_iff; reflexivity).
    eexists [_], [_]. split; [reflexivity|]. change (mark_of 50) with (Some (b_ "：カ")). change (mark_of (50 + 1)) with (Some (b_ "：サ")). cbn iota. split; split.
    + constructor; [|constructor]. rewrite M. vm_compute. discriminate.
    + apply M. reflexivity.
    + constructor.
    + apply M. reflexivity.
Qed.

(** * C42: answers are compared with the readings beside them *)

(** the letters beside the readings of a group are all different *)
Theorem C42_letters : forall rs, (length rs <= 58)%nat ->
  NoDup (letters (length rs)) /\ forall j, (j < length rs)%nat -> nth_error (letters (length rs)) j = Some (letter j) /\ beside rs (letter j) = nth_error rs j.
Proof.
  intros rs H. split; [apply letters_nodup; exact H|]. intros j Hj. split; [|apply beside_letter; assumption].
  unfold letters. rewrite nth_error_map. rewrite (nth_error_nth' _ 0%nat) by (rewrite seq_length; exact Hj). rewrite seq_nth by exact Hj. reflexivity.
Qed.
Print Assumptions C42_letters.
(** whatever was answered, edited and refreshed before, the letters given are all different and each
    of them stands beside a reading *)
Theorem C42_sheets : forall R shuffleGroups shuffle other l question shown m lst entry r g ps0 gs r' ks,
  groups_fit shuffleGroups shuffle other l question m lst entry -> hd_error lst = Some g ->
  starts R shuffleGroups l m lst r ps0 gs r' -> question <= len gs ->
  let start := fst (starting R shuffle l m gs entry (gType g) question shown r') in
  playable R shuffle l m gs entry launcherQuit start ks ->
  let t := table_after R shuffle l m gs entry start ks in
  finished R gs t = true \/ sound_sheet R t.
Proof.
  intros R shuffleGroups shuffle other l question shown m lst entry r g ps0 gs r' ks F G S H start P t.
  destruct (tables_sound R shuffleGroups shuffle other l question shown m lst entry r F g G ps0 gs r' S H ks P) as [K|[_ K]]; [left|right]; exact K.
Qed.
Print Assumptions C42_sheets.
(** With up to 26 members to show, every answer is compared with the reading beside its letter.
    Missing: larger groups. *)
Theorem C42_checked_partial : forall R qs rs name sheet (s : State R),
  (length rs <= 26)%nat -> (forall c, In c sheet -> In c (letters (length rs))) -> (length sheet <= length qs)%nat -> correctAnswers R s < 65535 ->
  let n := points (meanings R s) qs rs sheet in
  exists s', checkAnswers R qs rs name sheet s = Ok tt s'
    /\ fst (transcript [] (events R s')) = fst (transcript [] (events R s)) /\ input R s' = input R s
    /\ current R s' = current R s /\ meanings R s' = meanings R s
    /\ (if n =? len sheet
        then correctAnswers R s' = correctAnswers R s + 1 /\ mistakes R s' = mistakes R s
             /\ snd (transcript [] (events R s')) = snd (transcript [] (events R s))
                  ++ b_ "  Correct! (" ++ to_string (correctAnswers R s + 1) ++ b_ "/" ++ to_string (current R s + 1) ++ b_ ")" ++ newline
        else correctAnswers R s' = correctAnswers R s /\ mistakes R s' = mistakes R s ++ [name]
             /\ snd (transcript [] (events R s')) = snd (transcript [] (events R s))
                  ++ b_ "  Incorrect (got " ++ to_string n ++ b_ " right out of " ++ to_string (len sheet) ++ b_ ")" ++ newline).
Proof. exact checked. Qed.
Print Assumptions C42_checked_partial.
(** With more members, checking a complete sheet is undefined behaviour. *)
Theorem C42_checked_refuted : forall R qs rs name sheet (s : State R),
  (26 < length rs <= 58)%nat -> NoDup sheet -> (forall c, In c sheet -> In c (letters (length rs))) -> length sheet = length rs ->
  checkAnswers R qs rs name sheet s = Undefined.
Proof. exact unchecked. Qed.
Print Assumptions C42_checked_refuted.
(** a quiz on one group of 27 members, every one of them answered rightly *)
Example C42_quiz_undefined :
  groupQuiz N keepGroup keep noOther 99 quizLauncher 1 false [manyGroup 27] MJouyou (lines (map (fun c => [c]) (letters 27))) 0 = Undefined.
Proof. vm_compute. reflexivity. Qed.
Example C42_example : exists s',
  groupQuiz N keepGroup keep noOther 99 quizLauncher 1 false [manyGroup 26] MJouyou (lines (map (fun c => [c]) (b_ "ba*bcb" ++ skipn 3 (letters 26)))) 0 = Ok tt s'
  /\ snd (transcript [] (events N s')) = b_ "  Incorrect (got 23 right out of 26)

Final score: 0/1 - mistakes: 多
".
Proof. eexists. vm_compute. auto. Qed.

(** * C72: what is shown *)

(** In a group quiz or review that returns, every prompt shows the table to which the keys before it
    lead, and asks what that table asks.  The keys are the first proper answers among the lines of
    the input. *)
Theorem C72_every_prompt : forall R shuffleGroups shuffle other fuel l question shown m lst entry i r ls s',
  groups_fit shuffleGroups shuffle other l question m lst entry -> lines_left i ls ->
  groupQuiz R shuffleGroups shuffle other fuel l question shown lst m i r = Ok tt s' ->
  let ps := fst (transcript [] (events R s')) in let final := snd (transcript [] (events R s')) in
  exists rest, reads launcherQuit ls ps rest /\ lines_left (input R s') rest
    /\ ((ps = [MkSeen [] name_request 47] /\ final = (if isQuizMode l then score_text 0 question question [] else []))
        \/ exists g ps0 gs r' ks, hd_error lst = Some g /\ starts R shuffleGroups l m lst r ps0 gs r' /\ question <= len gs
             /\ let start := starting R shuffle l m gs entry (gType g) question shown r' in
                playable R shuffle l m gs entry launcherQuit (fst start) ks
                /\ finished R gs (table_after R shuffle l m gs entry (fst start) ks) = true
                /\ ps = ps0 ++ fst (script R shuffle l m gs entry (fst start) (snd start) ks)
                /\ final = snd (script R shuffle l m gs entry (fst start) (snd start) ks)
                           ++ group_score (isQuizMode l) question (table_after R shuffle l m gs entry (fst start) ks) ks).
Proof.
  intros R shuffleGroups shuffle other fuel l question shown m lst entry i r ls s' F L E ps final.
  destruct (returned R shuffleGroups shuffle other l question shown m lst entry i r ls F L fuel s' E) as [[A [B [rest [C D]]]]|[g [ps0 [gs [r' [ks [rest [rest0 W]]]]]]]].
  - exists rest. split; [exact D|]. split; [exact C|]. left. auto.
  - cbv zeta in W. destruct W as [W1 [W2 [W3 [W4 [[W5 [W6 W7]] [W8 [W9 W10]]]]]]]. exists rest. split; [unfold ps; rewrite W8; exact W7|]. split; [exact W10|].
    right. exists g, ps0, gs, r', ks. cbv zeta. auto 10.
Qed.
Print Assumptions C72_every_prompt.
Example C72_example : exists s',
  groupQuiz N keepGroup keep noOther 99 quizLauncher 1 true sampleGroups MJouyou (lines [b_ "b"; b_ "x"; b_ "*"; b_ "a"; b_ "c"; b_ "'"; b_ "b"; b_ "."]) 0 = Ok tt s'
  /\ fst (transcript [] (events N s')) <> [] /\ map sText (skipn 5 (fst (transcript [] (events N s')))) = [b_ "
Question 1/2:  [数字], 3 members
   1:  三.  (yi)              1->a:  サン
   2:  二.  (yi)                 b:  ニ : two
   3:  一.  (yi)              2->c:  イチ : one

    1->a 2->c
"; b_ "  Incorrect (got 1 right out of 3)

Question 2/2:  [奇数], 2 members
   1:  三.  (yi)                 a:  サン
   2:  一.  (yi)                 b:  イチ : one

"].
Proof. eexists. split; [vm_compute; reflexivity|]. split; vm_compute; [discriminate|reflexivity]. Qed.

(** * C39: the score *)

(** In a quiz on groups that returns, the groups answered without a mistake, those named as mistakes
    and those skipped by '.' or before the first one add up to the number of groups passed. *)
Theorem C39_group_score : forall R shuffleGroups shuffle other fuel l question shown m lst entry i r ls s',
  groups_fit shuffleGroups shuffle other l question m lst entry -> lines_left i ls -> isQuizMode l = true ->
  groupQuiz R shuffleGroups shuffle other fuel l question shown lst m i r = Ok tt s' ->
  let ps := fst (transcript [] (events R s')) in
  (ps = [MkSeen [] name_request 47] /\ snd (transcript [] (events R s')) = score_text 0 question question [])
  \/ exists g ps0 gs r' ks,
       let start := starting R shuffle l m gs entry (gType g) question shown r' in
       let t := table_after R shuffle l m gs entry (fst start) ks in
       hd_error lst = Some g /\ starts R shuffleGroups l m lst r ps0 gs r' /\ map sKey ps = map sKey ps0 ++ ks
       /\ playable R shuffle l m gs entry launcherQuit (fst start) ks /\ finished R gs t = true
       /\ snd (transcript [] (events R s')) = snd (script R shuffle l m gs entry (fst start) (snd start) ks)
            ++ score_text (tRight R t) (tPos R t) (question - 1 + skips ks) (tWrong R t)
       /\ tRight R t + len (tWrong R t) + (question - 1 + skips ks) = tPos R t /\ tPos R t <= len gs.
Proof.
  intros R shuffleGroups shuffle other fuel l question shown m lst entry i r ls s' F L Q E ps.
  destruct (returned R shuffleGroups shuffle other l question shown m lst entry i r ls F L fuel s' E) as [[A [B _]]|[g [ps0 [gs [r' [ks [rest [rest0 W]]]]]]]].
  - left. rewrite Q in B. auto.
  - right. cbv zeta in W. destruct W as [W1 [W2 [W3 [W4 [[W5 [W6 W7]] [W8 [W9 W10]]]]]]]. exists g, ps0, gs, r', ks. cbv zeta.
    split; [exact W1|]. split; [exact W2|]. split; [unfold ps; rewrite W8, map_app, GroupProofs.script_keys; reflexivity|]. split; [exact W5|]. split; [exact W6|]. split; [unfold group_score in W9; rewrite Q in W9; exact W9|].
    exact (score_adds R shuffleGroups shuffle other l question shown m lst entry r F g W1 ps0 gs r' W2 W4 ks Q W5).
Qed.
Print Assumptions C39_group_score.
Example C39_group_example : exists s',
  groupQuiz N keepGroup keep noOther 99 quizLauncher 1 true sampleGroups MJouyou (lines [b_ "a"; b_ "b"; b_ "c"; b_ "."]) 0 = Ok tt s'
  /\ snd (transcript [] (events N s')) = b_ "
Final score: 1/2, skipped: 1
".
Proof. eexists. vm_compute. auto. Qed.

(** * C74: how a quiz ends *)

(** The lines of the input decide it: they contain the keys to the end of the quiz, or up to one
    that completes a group with more than 26 members to show, or they end before the quiz does.  The
    quiz then returns, runs into undefined behaviour, or asks forever. *)
Theorem C74_outcome : forall R shuffleGroups shuffle other l question shown m lst entry i r ls g ps0 gs r' rest0,
  groups_fit shuffleGroups shuffle other l question m lst entry -> lines_left i ls -> hd_error lst = Some g ->
  starts R shuffleGroups l m lst r ps0 gs r' -> reads launcherQuit ls ps0 rest0 -> question <= len gs ->
  let start := starting R shuffle l m gs entry (gType g) question shown r' in
  let run fuel := groupQuiz R shuffleGroups shuffle other fuel l question shown lst m i r in
  exists fuel0, forall fuel, (fuel0 <= fuel)%nat ->
    (starves R shuffle l m gs entry start ps0 ls /\ run fuel = NoReturn)
    \/ (overflows R shuffle l m gs entry start ps0 ls /\ run fuel = Undefined)
    \/ exists ks rest s', completes R shuffle l m gs entry start ps0 ls ks rest /\ run fuel = Ok tt s'
         /\ fst (transcript [] (events R s')) = ps0 ++ fst (script R shuffle l m gs entry (fst start) (snd start) ks)
         /\ lines_left (input R s') rest.
Proof.
  intros R shuffleGroups shuffle other l question shown m lst entry i r ls g ps0 gs r' rest0 F L G S Rd H start run.
  destruct (outcome R shuffleGroups shuffle other l question shown m lst entry i r ls F L g G ps0 gs r' rest0 S Rd H) as [f K]. exists f. intros fuel Hf.
  destruct (K fuel Hf) as [A|[A|[ks [rest [s' [A [B [C [D E]]]]]]]]]; [left; exact A|right; left; exact A|]. right. right. exists ks, rest, s'. auto.
Qed.
Print Assumptions C74_outcome.
(** no two of the three are the case, and the keys to the end are unique *)
Theorem C74_exclusive : forall R shuffle l m gs entry start ps0 ls,
  (starves R shuffle l m gs entry start ps0 ls -> overflows R shuffle l m gs entry start ps0 ls -> False)
  /\ (forall ks rest, completes R shuffle l m gs entry start ps0 ls ks rest ->
        ~ starves R shuffle l m gs entry start ps0 ls /\ ~ overflows R shuffle l m gs entry start ps0 ls
        /\ forall ks' rest', completes R shuffle l m gs entry start ps0 ls ks' rest' -> ks' = ks /\ rest' = rest).
Proof.
  intros R shuffle l m gs entry start ps0 ls. split; [intros A B; exact (overflows_starves R shuffle l m gs entry start ps0 ls B A)|]. intros ks rest C. split; [|split].
  - intro A. exact (completes_starves R shuffle l m gs entry start ps0 ls ks rest C A).
  - intro A. exact (completes_overflows R shuffle l m gs entry start ps0 ls ks rest C A).
  - intros ks' rest' C'. exact (completes_same R shuffle l m gs entry start ps0 ls ks' rest' ks rest C' C).
Qed.
Print Assumptions C74_exclusive.
Example C74_example :
  lines_left (lines [b_ "a"; b_ "b"]) [b_ "a"; b_ "b"] /\ reads launcherQuit [b_ "a"; b_ "b"] [] [b_ "a"; b_ "b"]
  /\ groupQuiz N keepGroup keep noOther 99 quizLauncher 1 true sampleGroups MJouyou (lines [b_ "a"; b_ "b"]) 0 = NoReturn.
Proof.
  split; [split; [discriminate|]; split; [repeat (apply Forall_cons || apply Forall_nil); vm_compute; intuition discriminate|reflexivity]|]. split; [constructor|]. vm_compute. reflexivity.
Qed.

(** * C75: quizzes that do not start *)

(** without groups, or with a first question that does not exist, a DomainError is thrown; in a quiz a
    score is printed nevertheless *)
Theorem C75_no_groups : forall R shuffleGroups shuffle other fuel l question shown m entry i r,
  groups_fit shuffleGroups shuffle other l question m [] entry ->
  exists s', groupQuiz R shuffleGroups shuffle other fuel l question shown [] m i r = Err DomainError s'
    /\ fst (transcript [] (events R s')) = [] /\ input R s' = i
    /\ snd (transcript [] (events R s')) = (if isQuizMode l then score_text 0 question question [] else []).
Proof.
  intros R shuffleGroups shuffle other fuel l question shown m entry i r F. unfold groupQuiz. cbn [destroyed]. set (s := initial R question shown i r).
  pose proof (early R shuffleGroups shuffle other l question m [] entry F s eq_refl eq_refl eq_refl) as P. exists (finalScore R l s). split; [reflexivity|].
  rewrite (QuizProofs.P_prompts _ _ _ _ P), (QuizProofs.P_text _ _ _ _ P), (QuizProofs.P_in _ _ _ _ P). auto.
Qed.
Print Assumptions C75_no_groups.
Theorem C75_refused : forall R shuffleGroups shuffle other fuel l question shown m lst entry i r ls ps0 gs r' rest0,
  groups_fit shuffleGroups shuffle other l question m lst entry -> lines_left i ls ->
  starts R shuffleGroups l m lst r ps0 gs r' -> reads launcherQuit ls ps0 rest0 -> len gs < question ->
  exists s', groupQuiz R shuffleGroups shuffle other fuel l question shown lst m i r = Err DomainError s'
    /\ fst (transcript [] (events R s')) = ps0 /\ lines_left (input R s') rest0
    /\ snd (transcript [] (events R s')) = (if isQuizMode l then score_text 0 question question [] else []).
Proof.
  intros R shuffleGroups shuffle other fuel l question shown m lst entry i r ls ps0 gs r' rest0 F L S Rd H.
  destruct (whole R shuffleGroups shuffle other l question shown m lst entry i r ls F L fuel) as [[E _]|[g1 [rest1 [E W]]]].
  { destruct S; congruence. }
  destruct W as [[Ty W]|[ps1 [gs1 [r1 [S1 [[q1 RD1] W]]]]]].
  - exfalso. destruct S as [g2 rest2 gs2 r2 E1 T1 A1|g2 rest2 k1 part1 gs2 r2 E1 T1 K1 P1 A1]; [congruence|].
    destruct W as [[_ [NE NA]]|[s' [rst [_ [W1 [_ [_ W2]]]]]]].
    + revert Rd. apply reads_none; [exact NA|left; exact NE].
    + rewrite W1 in W2. destruct (reads_same _ _ _ _ _ _ _ _ W2 Rd eq_refl) as [X _]. cbn [sKey] in X. lia.
  - destruct (starts_same _ _ _ _ _ _ _ _ _ _ _ _ _ _ _ S1 RD1 S Rd) as [-> [-> ->]]. destruct W as [[_ [s' [rst [W1 [W2 [W3 [W4 W5]]]]]]]|[W _]]; [|lia].
    exists s'. rewrite (reads_rest _ _ _ _ _ Rd W5). auto.
Qed.
Print Assumptions C75_refused.
(** pattern groups: '/' at the prompt for the part of the list ends the quiz, again with a score, and
    input that ends without an answer to it is asked for forever *)
Theorem C75_name : forall R shuffleGroups shuffle other fuel l question shown m g lst entry i r ls,
  groups_fit shuffleGroups shuffle other l question m (g :: lst) entry -> lines_left i ls -> gType g = PatternGroupType ->
  (ls <> [] -> no_answer (permitted launcherQuit name_request) (Some 49) ls ->
     groupQuiz R shuffleGroups shuffle other fuel l question shown (g :: lst) m i r = NoReturn)
  /\ (forall rest, reads launcherQuit ls [MkSeen [] name_request 47] rest ->
     exists s', groupQuiz R shuffleGroups shuffle other fuel l question shown (g :: lst) m i r = Ok tt s'
       /\ fst (transcript [] (events R s')) = [MkSeen [] name_request 47] /\ lines_left (input R s') rest
       /\ snd (transcript [] (events R s')) = (if isQuizMode l then score_text 0 question question [] else [])).
Proof.
  intros R shuffleGroups shuffle other fuel l question shown m g lst entry i r ls F L Ty.
  destruct (whole R shuffleGroups shuffle other l question shown m (g :: lst) entry i r ls F L fuel) as [[E _]|[g1 [rest1 [E W]]]]; [discriminate|]. injection E as <- <-.
  destruct W as [[_ [[W1 [W2 W3]]|[s' [rst [W1 [W2 [W3 [W4 W5]]]]]]]]|[ps0 [gs [r' [S [[q1 Rd] _]]]]]].
  - split; [intros _ _; exact W1|]. intros rest Rd. exfalso. revert Rd. apply reads_none; [exact W3|left; exact W2].
  - rewrite W2 in W5. split.
    + intros NE NA. exfalso. revert W5. apply reads_none; [exact NA|left; exact NE].
    + intros rest Rd. exists s'. rewrite (reads_rest _ _ _ _ _ Rd W5). auto.
  - destruct S as [g2 rest2 gs2 r2 E1 T1 A1|g2 rest2 k1 part1 gs2 r2 E1 T1 K1 P1 A1]; [congruence|]. split.
    + intros NE NA. exfalso. revert Rd. apply reads_none; [exact NA|left; exact NE].
    + intros rest Rd2. exfalso. destruct (reads_same _ _ _ _ _ _ _ _ Rd Rd2 eq_refl) as [X _]. cbn [sKey] in X. lia.
Qed.
Print Assumptions C75_name.
Example C75_example : exists s' s2,
  groupQuiz N keepGroup keep noOther 9 quizLauncher 3 true sampleGroups MJouyou (lines []) 0 = Err DomainError s'
  /\ snd (transcript [] (events N s')) = b_ "
Final score: 0/3, skipped: 3
"
  /\ groupQuiz N keepGroup keep noOther 9 quizLauncher 3 true [MkGroup PatternGroupType 1 (b_ "一：イツ") sampleList Family] MJouyou (lines [b_ "x"; b_ "/"]) 0 = Ok tt s2
  /\ snd (transcript [] (events N s2)) = b_ "
Final score: 0/3, skipped: 3
".
Proof. eexists. eexists. vm_compute. auto. Qed.
