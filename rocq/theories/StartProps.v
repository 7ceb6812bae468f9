(** Properties of the start of a quiz. *)
From Verif Require Import BaseFacts ArgsProofs LaunchLoop QuizSample StartModel StartSpec StartRun.
Open Scope N_scope.

(** C90: with the options of a command line exactly the missing parts are asked for, in this order, and
    then the quiz runs for the chosen list *)
Theorem C90_start : forall (R : Type) draw shuffle shuffleGroups otherNumber extraTypeInfo reviewDetails
    d meaningGroups patternGroups fuel l p i ls (r : R),
  command (kept l) (Options p) -> List.length (dFreqs d) = 10%nat -> lines_left i ls ->
  exists keys e ls' s,
    start_dialog d meaningGroups patternGroups p ls keys e ls'
    /\ Forall2 shown (events R s) keys /\ rng R s = r /\ lines_left (input R s) ls'
    /\ result_of R draw shuffle shuffleGroups otherNumber extraTypeInfo reviewDetails fuel p true e s
         (startOptions R draw shuffle shuffleGroups otherNumber extraTypeInfo reviewDetails d meaningGroups patternGroups fuel p i r).
Proof.
  intros R draw shuffle shuffleGroups otherNumber extraTypeInfo reviewDetails d mg pg fuel l p i ls r C B L.
  assert (F : from_options p) by (inversion C as [l0 os p0 O St E1 E2|l0 os p0 O St E1 E2| | |]; subst; exact (settings_from_options _ os p O St)).
  destruct (start_meets R draw shuffle shuffleGroups otherNumber extraTypeInfo reviewDetails d mg pg fuel B p true (initial R 0 false i r) ls F L)
    as (keys & e & ls' & s & evs & D & Ev & Sh & Rg & L' & Re).
  exists keys, e, ls', s. split; [exact D|]. cbn [initial events app] in Ev. subst evs. split; [exact Sh|]. split; [exact Rg|]. split; [exact L'|exact Re].
Qed.
Print Assumptions C90_start.
(** C90: the lines that are read decide what happens *)
Theorem C90_decided : forall d mg pg p ls k1 e1 l1 k2 e2 l2,
  start_dialog d mg pg p ls k1 e1 l1 -> start_dialog d mg pg p ls k2 e2 l2 -> k1 = k2 /\ e1 = e2 /\ l1 = l2.
Proof. intros d mg pg p. exact (single_start d mg pg p). Qed.
Print Assumptions C90_decided.
(** C90: nothing is asked twice and nothing that was given is asked *)
Theorem C90_asked : forall d mg pg p ls keys e ls', start_dialog d mg pg p ls keys e ls' ->
  NoDup (map fst keys)
  /\ (In PMode (map fst keys) -> sMode p = NoMode) /\ (In POrder (map fst keys) -> sOrder p = NoOrder)
  /\ (In PType (map fst keys) -> sType p = None) /\ (forall t, In (PList t) (map fst keys) -> sList p = None)
  /\ (In PCount (map fst keys) -> sMode p <> Review).
Proof.
  intros d mg pg p ls keys e ls' H. destruct (start_asks _ _ _ _ _ _ _ _ H) as (a & b & c & t & x & y & kt & E & A & B & C & T & X & Y). rewrite E.
  unfold opt_list in *. destruct A as [->|[PA ->]], B as [->|[PB ->]], C as [->|[PC ->]], T as [->|[PT ->]], X as [->|[PX ->]], Y as [->|[PY ->]];
    cbn [app]; (split; [repeat constructor; cbn [In]; intuition discriminate|]); cbn [In];
    repeat match goal with |- _ /\ _ => split end; intros; intuition (try discriminate; auto).
Qed.
Print Assumptions C90_asked.
(** C90: every list can be chosen, by one of the keys that the prompt and the options take *)
Theorem C90_every_list : forall d,
  (forall b ks, nth_error (dFreqs d) (N.to_nat b) = Some ks -> b < 10 -> exists c, In c (keys (PList 102)) /\ list_named d 102 c Info_Freq ks)
  /\ (forall g, g <> NoGrade -> exists c, In c (keys (PList 103)) /\ list_named d 103 c Info_Grade (alist N.eqb (gradeNumber g) (dGrades d)))
  /\ (forall k, k <> NoKyu -> exists c, In c (keys (PList 107)) /\ list_named d 107 c Info_Kyu (alist N.eqb (kyuNumber k) (dKyus d)))
  /\ (forall l, l <> NoLevel -> exists c, In c (keys (PList 108)) /\ list_named d 108 c Info_Level (alist N.eqb (levelNumber l) (dLevels d))).
Proof.
  intro d. split; [|split; [|split]].
  - intros b ks E H. exists (48 + b). split; [|constructor; assumption].
    assert (Hb : In b [0; 1; 2; 3; 4; 5; 6; 7; 8; 9]) by (cbn [In]; lia).
    repeat (destruct Hb as [<-|Hb]; [vm_compute; auto 12|]). destruct Hb.
  - intros g H. destruct g; [exists 49|exists 50|exists 51|exists 52|exists 53|exists 54|exists 115|congruence]; (split; [vm_compute; auto 12|apply named_grade; cbn [In]; auto 12]).
  - intros k H. destruct k; [exists 97|exists 57|exists 56|exists 55|exists 54|exists 53|exists 52|exists 51|exists 99|exists 50|exists 98|exists 49|congruence];
      (split; [vm_compute; auto 20|apply named_kyu; cbn [In]; auto 20]).
  - intros l H. destruct l; [exists 53|exists 52|exists 51|exists 50|exists 49|congruence]; (split; [vm_compute; auto 12|apply named_level; cbn [In]; auto 12]).
Qed.
Print Assumptions C90_every_list.

(** "-t1 -g" and the lines "x", "3", "2", "/": a test of grade 3, quit at the style *)
Definition startData : Data := MkData [] [] [] [(2, map qKanji sampleList)] [] [] (repeat [] 10) [] [] 1.
Definition startSample (p : Settings) (ls : list bytes) :=
  startOptions N counter keep (fun l r => (l, r)) (fun _ _ => None) nothing nothing startData [] [] 9 p (lines ls) 0.
Definition startKeys (run : res (State N) (ProgramMode * QuestionOrder)) : list N :=
  match run with Ok _ s | Err _ s => flat_map (fun e => match e with Asked _ k _ => [k] | _ => [] end) (events N s) | _ => [] end.
Example C90_example :
  (exists p, readArgs 9 (argsOf [b_ "kanjiQuiz"; b_ "-t1"; b_ "-g"]) = Val (Options p) /\ command (kept [b_ "-t1"; b_ "-g"]) (Options p)
     /\ startKeys (startSample p [b_ "x"; b_ "3"; b_ "2"; b_ "/"]) = [51; 50; 47]
     /\ start_dialog startData [] [] p [b_ "x"; b_ "3"; b_ "2"; b_ "/"] [(PList 103, 51); (PCount, 50); (PStyle, 47)] (Quits PStyle) [])
  /\ startKeys (startSample (MkSettings (Some 103) (Some 51) 0 false Review FromEnd) [b_ "."; b_ "."; b_ "."]) = [46; 46; 46]
  /\ startSample (MkSettings (Some 102) None 0 false Review FromEnd) [] = NoReturn.
Proof.
  assert (E : readArgs 9 (argsOf [b_ "kanjiQuiz"; b_ "-t1"; b_ "-g"]) = Val (Options (MkSettings (Some 103) None 1 false QuizMode FromBeginning))) by (vm_compute; reflexivity).
  split; [|split; vm_compute; reflexivity].
  exists (MkSettings (Some 103) None 1 false QuizMode FromBeginning). split; [exact E|]. split; [|split; [vm_compute; reflexivity|]].
  - apply (read_iff 9 (b_ "kanjiQuiz") [b_ "-t1"; b_ "-g"]); [reflexivity|cbn; lia|exact E].
  - left. exists 116. split; [reflexivity|]. left. exists 98. split; [reflexivity|]. left. exists 103. split; [reflexivity|].
    right. split; [reflexivity|]. left. exists 51. do 2 eexists. split; [apply (reply_line (PList 103) [b_ "x"] (b_ "3")); [|left; split; [reflexivity|left; vm_compute; auto 10]]|].
    + constructor; [|constructor]. intros c [[X [Y|Y]]|[X _]]; [|subst; discriminate|discriminate].
      inversion X; subst. vm_compute in Y. intuition discriminate.
    + split; [reflexivity|]. right. split; [discriminate|]. exists FromBeginning. split; [constructor|]. right.
      exists Info_Grade. eexists. split; [apply (named_grade startData 51 G3); cbn; auto|]. right. split; [reflexivity|].
      right. split; [reflexivity|]. left. exists 50. do 2 eexists. split; [apply (reply_line PCount [] (b_ "2")); [constructor|left; split; [reflexivity|left; vm_compute; auto 10]]|].
      split; [reflexivity|]. right. split; [discriminate|]. right. split; [reflexivity|]. left. exists 47. do 2 eexists.
      split; [apply (reply_line PStyle [] (b_ "/")); [constructor|left; split; [reflexivity|right; reflexivity]]|]. split; [reflexivity|]. left. auto.
Qed.

(** C91: after [start] the launcher has neither mode nor order, so that the next one asks again; true
    unless the user quits at the prompt for the order *)
Theorem C91_reset_partial : forall (R : Type) draw shuffle shuffleGroups otherNumber extraTypeInfo reviewDetails
    d meaningGroups patternGroups fuel p rnd (s s' : State R) ls m o,
  from_options p -> List.length (dFreqs d) = 10%nat -> lines_left (input R s) ls ->
  (forall keys ls', ~ start_dialog d meaningGroups patternGroups p ls keys (Quits POrder) ls') ->
  startQuiz R draw shuffle shuffleGroups otherNumber extraTypeInfo reviewDetails d meaningGroups patternGroups fuel
    (sMode p) (sOrder p) (sType p) (sList p) (sQuestion p) (sMeanings p) rnd s = Ok (m, o) s' -> m = NoMode /\ o = NoOrder.
Proof.
  intros R draw shuffle shuffleGroups otherNumber extraTypeInfo reviewDetails d mg pg fuel p rnd s s' ls m o F B L NQ E.
  destruct (start_meets R draw shuffle shuffleGroups otherNumber extraTypeInfo reviewDetails d mg pg fuel B p rnd s ls F L)
    as (keys & e & ls' & s1 & evs & D & _ & _ & _ & _ & Re). rewrite E in Re.
  destruct e as [q| |test ord [hid n st ks|gs mt]]; cbn [result_of] in Re.
  - destruct q; [|exfalso; exact (NQ keys ls' D)|inversion Re; auto..].
    destruct Re as [E1 Re]. inversion Re. split; [reflexivity|]. apply (proj2 (proj2 F)). exact E1.
  - discriminate.
  - unfold followed in Re. destruct (listQuiz _ _ _ _ _ _ _ _ _ _ _ _ _ _ _); [destruct Re as (s2 & Re & _); inversion Re; auto..|discriminate|discriminate].
  - unfold followed in Re. destruct (groupQuiz _ _ _ _ _ _ _ _ _ _ _ _); [destruct Re as (s2 & Re & _); inversion Re; auto..|discriminate|discriminate].
Qed.
Print Assumptions C91_reset_partial.
(** C91 is false as stated: quitting at "List order" keeps the mode, and the next start does not ask for it *)
Theorem C91_reset_refuted : exists p i s1 s2, from_options p
  /\ startQuiz N counter keep (fun l r => (l, r)) (fun _ _ => None) nothing nothing startData [] [] 9
       (sMode p) (sOrder p) (sType p) (sList p) (sQuestion p) (sMeanings p) true (initial N 0 false i 0) = Ok (Review, NoOrder) s1
  /\ startQuiz N counter keep (fun l r => (l, r)) (fun _ _ => None) nothing nothing startData [] [] 9
       Review NoOrder None None 0 false true s1 = Ok (Review, NoOrder) s2
  /\ map (fun e => match e with Asked rq k _ => (rqMsg rq, k) | Print t => (t, 0) end) (events N s2)
     = [(b_ "Mode", 114); (b_ "List order", 47); (b_ "List order", 47)].
Proof.
  exists (MkSettings None None 0 false NoMode NoOrder), (lines [b_ "r"; b_ "/"; b_ "/"; b_ ""]).
  set (r1 := startQuiz N counter keep (fun l r => (l, r)) (fun _ _ => None) nothing nothing startData [] [] 9
       NoMode NoOrder None None 0 false true (initial N 0 false (lines [b_ "r"; b_ "/"; b_ "/"; b_ ""]) 0)).
  set (s1 := match r1 with Ok _ s => s | _ => initial N 0 false (lines []) 0 end).
  set (r2 := startQuiz N counter keep (fun l r => (l, r)) (fun _ _ => None) nothing nothing startData [] [] 9
       Review NoOrder None None 0 false true s1).
  exists s1, (match r2 with Ok _ s => s | _ => initial N 0 false (lines []) 0 end).
  split; [split; [discriminate|split; [discriminate|reflexivity]]|]. split; [vm_compute; reflexivity|]. split; vm_compute; reflexivity.
Qed.
Print Assumptions C91_reset_refuted.
Example C91_example :
  from_options (MkSettings None None 0 false NoMode NoOrder)
  /\ (exists s, startSample (MkSettings None None 0 false NoMode NoOrder) [b_ "r"; b_ "b"; b_ "/"] = Ok (NoMode, NoOrder) s)
  /\ forall keys ls', ~ start_dialog startData [] [] (MkSettings None None 0 false NoMode NoOrder) [b_ "r"; b_ "b"; b_ "/"] keys (Quits POrder) ls'.
Proof.
  split; [split; [discriminate|split; [discriminate|reflexivity]]|]. split.
  - exists (match startSample (MkSettings None None 0 false NoMode NoOrder) [b_ "r"; b_ "b"; b_ "/"] with Ok _ s => s | _ => initial N 0 false (lines []) 0 end).
    vm_compute. reflexivity.
  - intros keys ls' D.
    assert (X : start_dialog startData [] [] (MkSettings None None 0 false NoMode NoOrder) [b_ "r"; b_ "b"; b_ "/"] [(PMode, 114); (POrder, 98); (PType, 47)] (Quits PType) []).
    { right. split; [reflexivity|]. left. exists 114. do 2 eexists. split; [apply (reply_line PMode [] (b_ "r")); [constructor|left; split; [reflexivity|left; vm_compute; auto]]|].
      split; [reflexivity|]. right. split; [discriminate|].
      right. split; [reflexivity|]. left. exists 98. do 2 eexists. split; [apply (reply_line POrder [] (b_ "b")); [constructor|left; split; [reflexivity|left; vm_compute; auto]]|].
      split; [reflexivity|]. right. split; [discriminate|].
      right. split; [reflexivity|]. left. exists 47. do 2 eexists. split; [apply (reply_line PType [] (b_ "/")); [constructor|left; split; [reflexivity|right; reflexivity]]|].
      split; [reflexivity|]. left. auto. }
    destruct (C90_decided _ _ _ _ _ _ _ _ _ _ _ D X) as [_ [E _]]. discriminate.
Qed.
