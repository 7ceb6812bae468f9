(** Messages about a quiz that cannot be started: the same quizzes, and which message is given. *)
From Verif Require Import BaseFacts ErrArgsProps QuizProofs QuizWhole QuizProps GroupWhole GroupOutcome.
From Verif Require Export ErrQuizSpec.
From Verif Require Import QuizModel StartModel.
Open Scope N_scope.

Section Told.
Variable R : Type.
Variable draw : N -> R -> N * R.
Variable shuffle : list QKanji -> R -> list QKanji * R.
Variable shuffleGroups : list Group -> R -> list Group * R.
Variable otherNumber : GroupType -> bytes -> option N.
Variable extraTypeInfo reviewDetails : QKanji -> bytes.
Notation State := (State R).

Lemma told1_destroyed : forall l (m : res State Thrown), erased1 (destroyed R l m) = destroyed R l (erased1 m).
Proof. intros l m. destruct m as [[[e w]|] s|e s| |]; reflexivity. Qed.
Lemma told1_unless : forall (m : res State Thrown) k, erased1 (unless m k) = do _u, s <- erased1 m ;; erased1 (k s).
Proof. intros m k. destruct m as [[[e w]|] s|e s| |]; reflexivity. Qed.
Lemma told1_returns : forall m, erased1 (returns R m) = m.
Proof. intro m. destruct m as [[] s|e s| |]; reflexivity. Qed.
Lemma told1_bind : forall A (m : res State A) k, erased1 (rbind m k) = do a, s <- m ;; erased1 (k a s).
Proof. intros A m k. destruct m; reflexivity. Qed.
Lemma told_bind : forall A B (m : res State A) (k : A -> State -> res State (Thrown * B)), erased (rbind m k) = do a, s <- m ;; erased (k a s).
Proof. intros A B m k. destruct m; reflexivity. Qed.
Lemma told_value : forall A (m : res State Thrown) (x : A), erased (do t, s <- m ;; Ok (t, x) s) = do _u, s <- erased1 m ;; Ok x s.
Proof. intros A m x. destruct m as [[[e w]|] s|e s| |]; reflexivity. Qed.
Lemma bind_same : forall A B (m : res State A) (f g : A -> State -> res State B), (forall a s, f a s = g a s) -> rbind m f = rbind m g.
Proof. intros A B m f g H. destruct m; cbn [rbind]; auto. Qed.
Lemma begin_told : forall l t s, erased1 (beginQuizMessageT R l t s) = beginQuizMessage R l t s.
Proof.
  intros l t s. unfold beginQuizMessageT. destruct (current R s =? 0) eqn:C; cbn [negb andb]; [apply told1_returns|].
  destruct (t <? current R s) eqn:T; [|apply told1_returns]. unfold throw, beginQuizMessage. rewrite C, T. reflexivity.
Qed.
Lemma reading_none : forall lst, noReading lst = None <-> forallb hasReading lst = true.
Proof.
  induction lst as [|k lst IH]; cbn [noReading forallb]; [tauto|]. destruct (hasReading k); cbn [andb]; [exact IH|]. split; discriminate.
Qed.
Lemma list_told : forall fuel l question m lst fields count style i r,
  erased1 (listQuizT R draw shuffle extraTypeInfo reviewDetails fuel l question m lst fields count style i r)
  = listQuiz R draw shuffle extraTypeInfo reviewDetails fuel l question m lst fields count style i r.
Proof.
  intros fuel l question m lst fields count style i r. unfold listQuizT, listQuiz. rewrite told1_destroyed. f_equal.
  destruct (toChar_int (Z.of_N (48 + count)) true) as [c|e| |]; try reflexivity.
  destruct (noReading lst) as [w|] eqn:E.
  - replace (forallb hasReading lst) with false; [reflexivity|]. destruct (forallb hasReading lst) eqn:F; [|reflexivity].
    apply (proj2 (reading_none lst)) in F. congruence.
  - rewrite (proj1 (reading_none lst) E). destruct (match questionOrder l with FromBeginning => (lst, r) | FromEnd => (rev lst, r) | RandomOrder => shuffle lst r | NoOrder => (lst, r) end) as [qs r'].
    cbv zeta. rewrite told1_unless, begin_told. apply bind_same. intros _ s. apply told1_returns.
Qed.
Lemma groups_told : forall fuel l t m lst s,
  erased1 (startGroupsT R shuffle otherNumber fuel l t m lst s) = startGroups R shuffle otherNumber fuel l t m lst s.
Proof. intros. unfold startGroupsT, startGroups. rewrite told1_unless, begin_told. apply bind_same. intros _ s'. apply told1_returns. Qed.
Lemma group_told : forall fuel l question shown lst m i r,
  erased1 (groupQuizT R shuffle shuffleGroups otherNumber fuel l question shown lst m i r)
  = groupQuiz R shuffleGroups shuffle otherNumber fuel l question shown lst m i r.
Proof.
  intros fuel l question shown lst m i r. unfold groupQuizT, groupQuiz. cbv zeta. rewrite told1_destroyed. f_equal. destruct lst as [|g rest]; [reflexivity|].
  destruct (gType g).
  - destruct (questionOrder l); [destruct m|..]; try apply groups_told;
      (destruct (prepareList R shuffleGroups l _ None (g :: rest) (initial R question shown i r)) as [x s]; apply groups_told).
  - rewrite told1_bind. apply bind_same. intros c s. destruct (isQuit (quitOption l) c); [reflexivity|].
    destruct (prepareList R shuffleGroups l m (Some (c - 49)) (g :: rest) s) as [x s']. apply groups_told.
Qed.
Lemma after_told : forall s run run', (forall i r, erased1 (run i r) = run' i r) -> erased1 (afterT R s run) = StartModel.after R s run'.
Proof.
  intros s run run' H. unfold afterT, StartModel.after. rewrite <- H. destruct (run (input R s) (rng R s)) as [[[e w]|] s'|e s'| |]; reflexivity.
Qed.

Variable d : Data.
Variable meaningGroups patternGroups : list Group.
Variable fuel : nat.
Lemma start_list_told : forall l question shown field lst s,
  erased1 (startListQuizT R draw shuffle extraTypeInfo reviewDetails fuel l question shown field lst s)
  = startListQuiz R draw shuffle extraTypeInfo reviewDetails fuel l question shown field lst s.
Proof.
  intros. unfold startListQuizT, startListQuiz. destruct (isQuizMode l).
  - rewrite told1_bind. apply bind_same. intros c s1. destruct (quits c); [reflexivity|]. rewrite told1_bind. apply bind_same. intros st s2.
    destruct (quits st); [reflexivity|]. apply after_told. intros. apply list_told.
  - apply after_told. intros. apply list_told.
Qed.
Lemma start_group_told : forall l question shown given lst s,
  erased1 (startGroupQuizT R shuffle shuffleGroups otherNumber fuel l question shown given lst s)
  = startGroupQuiz R shuffle shuffleGroups otherNumber fuel l question shown given lst s.
Proof.
  intros. unfold startGroupQuizT, startGroupQuiz. rewrite told1_bind. apply bind_same. intros c s1. destruct (quits c); [reflexivity|].
  destruct (memberType c); [|reflexivity]. apply after_told. intros. apply group_told.
Qed.
Lemma start_type_told : forall l given list question shown s,
  erased1 (startTypeT R draw shuffle shuffleGroups otherNumber extraTypeInfo reviewDetails d meaningGroups patternGroups fuel l given list question shown s)
  = startType R draw shuffle shuffleGroups otherNumber extraTypeInfo reviewDetails d meaningGroups patternGroups fuel l given list question shown s.
Proof.
  intros. unfold startTypeT, startType. rewrite told1_bind. apply bind_same. intros t s1.
  assert (C : forall rq field (f : N -> out (List.list Kanji)) s,
    erased1 (do c, s <- orAsked R list rq s ;; if quits c then Ok None s else do x, s <- lifted R (f c) s ;;
             startListQuizT R draw shuffle extraTypeInfo reviewDetails fuel l question shown field x s)
    = (do c, s <- orAsked R list rq s ;; if quits c then Ok tt s else do x, s <- lifted R (f c) s ;;
         startListQuiz R draw shuffle extraTypeInfo reviewDetails fuel l question shown field x s)).
  { intros rq field f s0. rewrite told1_bind. apply bind_same. intros c s2. destruct (quits c); [reflexivity|]. rewrite told1_bind. apply bind_same.
    intros x s3. apply start_list_told. }
  repeat match goal with |- erased1 (if ?b then _ else _) = _ => destruct b; [first [apply C|apply start_group_told]|] end. reflexivity.
Qed.
Lemma start_told : forall p i r,
  erased (startOptionsT R draw shuffle shuffleGroups otherNumber extraTypeInfo reviewDetails d meaningGroups patternGroups fuel p i r)
  = startOptions R draw shuffle shuffleGroups otherNumber extraTypeInfo reviewDetails d meaningGroups patternGroups fuel p i r.
Proof.
  intros p i r. unfold startOptionsT, startOptions, startQuizT, startQuiz. rewrite told_bind. apply bind_same. intros m s. destruct m; [| |reflexivity].
  all: rewrite told_bind; apply bind_same; intros o s1; destruct o; [..|reflexivity]; cbv zeta; rewrite told_value, start_type_told; reflexivity.
Qed.
End Told.

(** ** Lists *)
Lemma reading_some : forall lst w, noReading lst = Some w <->
  exists before k after, lst = before ++ k :: after /\ Forall (fun k => qReading k <> []) before /\ qReading k = [] /\ w = kName (qKanji k) ++ b_ " has no reading".
Proof.
  assert (Hr : forall k, hasReading k = true <-> qReading k <> []) by (intro k; unfold hasReading, nonEmpty; destruct (qReading k); split; congruence).
  induction lst as [|k lst IH]; intro w; cbn [noReading].
  - split; [discriminate|]. intros ([|b before] & k & after & E & _); discriminate E.
  - destruct (hasReading k) eqn:H.
    + rewrite IH. split.
      * intros (before & k1 & after & -> & F & E & W). exists (k :: before), k1, after. split; [reflexivity|]. split; [constructor; [apply Hr; exact H|exact F]|]. split; assumption.
      * intros ([|b before] & k1 & after & E & F & E1 & W); cbn [app] in E.
        { injection E as <- _. apply Hr in H. contradiction. }
        injection E as <- ->. inversion F; subst. exists before, k1, after. auto.
    + assert (Q : qReading k = []) by (destruct (qReading k) eqn:Q; [reflexivity|]; exfalso; assert (hasReading k = true) by (apply Hr; congruence); congruence).
      split.
      * intro E. injection E as <-. exists [], k, lst. split; [reflexivity|]. split; [constructor|]. split; [exact Q|reflexivity].
      * intros ([|b before] & k1 & after & E & F & E1 & W); cbn [app] in E; injection E as <- E; [subst w; reflexivity|]. inversion F; subst. contradiction.
Qed.
Lemma begin_some : forall R l total s, (exists w, beyond (current R s) total w /\ beginQuizMessageT R l total s = Ok (Some (DomainError, w)) s)
  \/ (current R s <= total /\ exists m, beginQuizMessageT R l total s = returns R m).
Proof.
  intros R l total s. unfold beginQuizMessageT, throw. destruct (current R s =? 0) eqn:C; cbn [negb andb]; [right; split; [lia|eauto]|].
  destruct (total <? current R s) eqn:T; [left|right; split; [lia|eauto]].
  eexists. split; [|reflexivity]. split; [lia|]. exists (to_string (current R s)), (to_string total). split; [apply to_string_written|]. split; [apply to_string_written|]. reflexivity.
Qed.
Lemma beyond_fun : forall question total total' w w', beyond question total w -> beyond question total' w' -> total = total' -> w = w'.
Proof.
  intros q t t' w w' [_ (a & b & A & B & ->)] [_ (a' & b' & A' & B' & ->)] <-. rewrite (written_one _ _ _ A A'), (written_one _ _ _ B B'). reflexivity.
Qed.
Lemma no_text : forall R l (m : res (State R) Thrown), (forall e w s, m <> Ok (Some (e, w)) s) -> forall e w s, destroyed R l m <> Ok (Some (e, w)) s.
Proof. intros R l m H e w s. destruct m as [[[e' w']|] s'|e' s'| |]; cbn [destroyed]; try congruence. intro E. injection E as <- <- _. exact (H _ _ _ eq_refl). Qed.
Lemma returns_no_text : forall R m e w s, returns R m <> Ok (Some (e, w)) s.
Proof. intros R m e w s. destruct m; discriminate. Qed.

Section List.
Variable R : Type.
Variable draw : N -> R -> N * R.
Variable shuffle : list QKanji -> R -> list QKanji * R.
Variable extraTypeInfo reviewDetails : QKanji -> bytes.
Lemma list_says : forall fuel l question m lst fields count style i r ls, quiz_fits draw shuffle l count question lst -> lines_left i ls ->
  let x := listQuizT R draw shuffle extraTypeInfo reviewDetails fuel l question m lst fields count style i r in
  (forall w, (exists e s, x = Ok (Some (e, w)) s) <-> list_refused question lst w) /\ forall e s, x <> Err e s.
Proof.
  intros fuel l question m lst fields count style i r ls F I x.
  assert (Fits := F). destruct F as (F1 & F2 & F3 & F4 & F5 & F6).
  assert (TC : exists c, toChar_int (Z.of_N (48 + count)) true = Val c).
  { unfold toChar_int. eexists. replace (Z.of_N (48 + count)) with (Z.of_N (48 + count))%Z by reflexivity.
    assert (Hc : In count [1; 2; 3; 4; 5; 6; 7; 8; 9]) by (cbn [In]; lia).
    repeat (destruct Hc as [<-|Hc]; [reflexivity|]). destruct Hc. }
  destruct TC as [c TC].
  assert (D : (exists w, noReading lst = Some w /\ exists s, x = Ok (Some (DomainError, w)) s)
    \/ (noReading lst = None /\ exists (qs : list QKanji) s k, len qs = len lst /\ current R s = question
          /\ x = destroyed R l (unless (beginQuizMessageT R l (len qs) s) (fun s => returns R (k s))))).
  { unfold x, listQuizT. cbv zeta. rewrite TC. destruct (noReading lst) as [w|] eqn:E; [left; exists w; split; [reflexivity|]; eexists; reflexivity|right; split; [reflexivity|]].
    destruct (match questionOrder l with FromBeginning => (lst, r) | FromEnd => (rev lst, r) | RandomOrder => shuffle lst r | NoOrder => (lst, r) end) as [qs r'] eqn:Q.
    eexists qs, _, _. split; [|split; [|reflexivity]]; [|reflexivity].
    unfold len. destruct (questionOrder l); try (injection Q as <- <-; rewrite ?rev_length; reflexivity).
    pose proof (F2 lst r) as P. rewrite Q in P. cbn [fst] in P. apply Permutation_length in P. rewrite P. reflexivity. }
  assert (U : forall w w', list_refused question lst w -> list_refused question lst w' -> w = w').
  { intros w w' [b k a E1 E2 E3|v E1 E2] [b' k' a' E1' E2' E3'|v' E1' E2'].
    - assert (X : noReading lst = Some (kName (qKanji k) ++ b_ " has no reading")) by (apply reading_some; exists b, k, a; auto).
      assert (X' : noReading lst = Some (kName (qKanji k') ++ b_ " has no reading")) by (apply reading_some; exists b', k', a'; auto). congruence.
    - exfalso. rewrite E1 in E1'. apply Forall_app in E1'. destruct E1' as [_ E1']. inversion E1'. contradiction.
    - exfalso. rewrite E1' in E1. apply Forall_app in E1. destruct E1 as [_ E1]. inversion E1. contradiction.
    - exact (beyond_fun _ _ _ _ _ E2 E2' eq_refl). }
  destruct D as [(w & E & s & X)|(E & qs & s & k & L & C & X)].
  - assert (W : list_refused question lst w).
    { destruct (proj1 (reading_some lst w) E) as (b & k & a & E1 & E2 & E3 & ->). exact (refused_reading question lst b k a E1 E2 E3). }
    split; [|rewrite X; discriminate]. intro w'. split.
    + intros (e' & s' & X'). rewrite X in X'. replace w' with w by congruence. exact W.
    + intro W'. exists DomainError, s. rewrite (U _ _ W' W). exact X.
  - assert (G : Forall (fun k => qReading k <> []) lst).
    { apply reading_none in E. apply Forall_forall. intros q Hq. rewrite forallb_forall in E. specialize (E q Hq). unfold hasReading, nonEmpty in E. destruct (qReading q); discriminate. }
    destruct (begin_some R l (len qs) s) as [(w & W & Y)|(W & k' & Y)]; rewrite Y in X.
    + rewrite C, L in W. cbn [unless rbind destroyed] in X. assert (W1 : list_refused question lst w) by (apply refused_question; assumption).
      split; [|rewrite X; discriminate]. intro w'. split.
      * intros (e' & s' & X'). rewrite X in X'. replace w' with w by congruence. exact W1.
      * intro W'. exists DomainError. eexists. rewrite (U _ _ W' W1). exact X.
    + rewrite C, L in W. split.
      * intro w. split.
        -- intros (e & s' & X'). exfalso. rewrite X in X'. revert X'. apply no_text. intros e1 w1 s1. destruct k' as [u s2|e2 s2| |]; cbn [returns rbind unless]; try discriminate.
           apply returns_no_text.
        -- intros [b k1 a E1 E2 E3|v E1 [E2 _]]; [exfalso|lia]. rewrite E1 in G. apply Forall_app in G. destruct G as [_ G]. inversion G. contradiction.
      * intros e s' X'. pose proof (list_told R draw shuffle extraTypeInfo reviewDetails fuel l question m lst fields count style i r) as T. fold x in T. rewrite X' in T. cbn [erased1] in T.
        destruct (QuizProps.C70_accepted R draw shuffle extraTypeInfo reviewDetails fuel l question m lst fields count style i r ls Fits (conj G W) I) as [K|[s2 K]]; rewrite K in T; discriminate T.
Qed.
End List.

(** ** Groups *)
Lemma asked_fun : forall o m lst ls g1 g2, groups_asked o m lst ls g1 -> groups_asked o m lst ls g2 -> g1 = g2.
Proof.
  intros o m lst ls g1 g2 [g rest E T O M|g rest E T D|g rest key part ls' E T K Rd P] [g' rest' E' T' O' M'|g' rest' E' T' D'|g' rest' key' part' ls2 E' T' K' Rd' P'];
    rewrite E in E'; injection E' as <- <-; try congruence; try (destruct D as [D|D]; contradiction); try (destruct D' as [D|D]; contradiction).
  destruct (reads_same _ _ _ _ _ _ _ _ Rd Rd' eq_refl) as [S1 _]. cbn [sKey] in S1. subst key'. rewrite (part_unique _ _ _ _ P P'). reflexivity.
Qed.
Lemma perm_len : forall A (a b : list A), Permutation a b -> len a = len b.
Proof. intros A a b P. unfold len. rewrite (Permutation_length P). reflexivity. Qed.
Section Groups.
Variable R : Type.
Variable shuffle : list QKanji -> R -> list QKanji * R.
Variable shuffleGroups : list Group -> R -> list Group * R.
Variable other : GroupType -> bytes -> option N.
Hypothesis Hs : shuffles shuffleGroups.
Lemma arranged_len : forall l kept r gs r', arranged R shuffleGroups l kept r gs r' -> len gs = len kept.
Proof.
  intros l kept r gs r' A. unfold arranged in A. unfold len. destruct (questionOrder l); [destruct A as [-> _]; reflexivity|destruct A as [-> _]; rewrite rev_length; reflexivity| |destruct A as [-> _]; reflexivity].
  pose proof (Hs kept r) as P. rewrite <- A in P. cbn [fst] in P. rewrite (Permutation_length P). reflexivity.
Qed.
Lemma starts_asked : forall l m lst r ps0 gs r' ls rst, starts R shuffleGroups l m lst r ps0 gs r' -> QuizSpec.reads launcherQuit ls ps0 rst ->
  exists gs', groups_asked (questionOrder l) m lst ls gs' /\ len gs = len gs'.
Proof.
  intros l m lst r ps0 gs r' ls rst [g rest gs1 r1 E T A|g rest key part gs1 r1 E T K P A] Rd.
  - eexists. split; [|exact (arranged_len _ _ _ _ _ A)].
    assert (D : (questionOrder l = FromBeginning /\ m = MAll) \/ ((questionOrder l <> FromBeginning \/ m <> MAll)
      /\ match questionOrder l, m with FromBeginning, MAll => lst | _, _ => filter (worth m) lst end = filter (worth m) lst)).
    { destruct (questionOrder l), m; auto; right; (split; [left; discriminate|reflexivity] || (split; [right; discriminate|reflexivity])). }
    destruct D as [[D1 D2]|[D1 ->]]; [|eapply asked_meaning; eassumption]. rewrite D1, D2. eapply asked_all; eauto.
  - exists (filter (worth m) part). split; [eapply asked_pattern; eassumption|exact (arranged_len _ _ _ _ _ A)].
Qed.

Variable l : Launcher.
Variable question : N.
Variable shown : bool.
Variable m : MemberType.
Variable lst : list Group.
Variable entry : QKanji -> bytes.
Variable i : istream.
Variable r : R.
Variable ls : list bytes.
Hypothesis Hq : quitOption l = launcherQuit.
Hypothesis Hl : lines_left i ls.
Lemma group_run : forall fuel, let x := groupQuizT R shuffle shuffleGroups other fuel l question shown lst m i r in
  (lst = [] /\ exists s, x = Ok (Some (DomainError, b_ "empty group list")) s)
  \/ (lst <> [] /\ (forall gs, ~ groups_asked (questionOrder l) m lst ls gs) /\ (x = NoReturn \/ exists s, x = Ok None s))
  \/ exists gs gs' g s, groups_asked (questionOrder l) m lst ls gs /\ len gs' = len gs /\ current R s = question /\ hd_error lst = Some g
       /\ x = destroyed R l (startGroupsT R shuffle other fuel l (gType g) m gs' s).
Proof.
  intros fuel x. assert (D : lst = [] \/ exists g rest, lst = g :: rest) by (destruct lst as [|g rest]; [left|right; exists g, rest]; reflexivity).
  destruct D as [EL|[g [rest EL]]].
  { left. split; [exact EL|]. unfold x, groupQuizT. rewrite EL. eexists. reflexivity. }
  right. set (s := initial R question shown i r).
  assert (RE : x = destroyed R l
    match gType g with
    | PatternGroupType =>
        do c, s <- ask R launcherQuit name_request s ;;
        if isQuit launcherQuit c then Ok None s
        else let '(x, s) := prepareList R shuffleGroups l m (Some (c - 49)) lst s in startGroupsT R shuffle other fuel l (gType g) m x s
    | MeaningType =>
        match questionOrder l, m with
        | FromBeginning, MAll => startGroupsT R shuffle other fuel l (gType g) m lst s
        | _, _ => let '(x, s) := prepareList R shuffleGroups l m None lst s in startGroupsT R shuffle other fuel l (gType g) m x s
        end
    end) by (unfold x, groupQuizT; rewrite <- Hq, EL; reflexivity).
  assert (H1 : hd_error lst = Some g) by (rewrite EL; reflexivity).
  rewrite RE. clear RE. destruct (gType g) eqn:Ty.
  - right.
    assert (D : (questionOrder l = FromBeginning /\ m = MAll) \/ ((questionOrder l <> FromBeginning \/ m <> MAll)
         /\ match questionOrder l, m with
          | FromBeginning, MAll => startGroupsT R shuffle other fuel l MeaningType m lst s
          | _, _ => let '(x, s) := prepareList R shuffleGroups l m None lst s in startGroupsT R shuffle other fuel l MeaningType m x s
          end = let '(x, s) := prepareList R shuffleGroups l m None lst s in startGroupsT R shuffle other fuel l MeaningType m x s)).
    { destruct (questionOrder l), m; auto; right; (split; [left; discriminate|reflexivity] || (split; [right; discriminate|reflexivity])). }
    destruct D as [[D1 D2]|[D1 D2]].
    + exists lst, lst, g, s. split; [rewrite D1, D2; eapply asked_all; eauto|]. split; [reflexivity|]. split; [reflexivity|]. split; [exact H1|]. rewrite D1, D2, Ty. reflexivity.
    + rewrite D2. destruct (prepared R shuffleGroups l m lst None (filter (worth m) lst) s (keep_all m lst)) as [gs [r' [E A]]]. rewrite E.
      exists (filter (worth m) lst), gs, g, (setRng R r' s). split; [eapply asked_meaning; eassumption|]. split; [exact (arranged_len _ _ _ _ _ A)|]. split; [reflexivity|]. split; [exact H1|]. rewrite Ty. reflexivity.
  - assert (C : (ask R launcherQuit name_request s = NoReturn /\ forall key rst, ~ QuizSpec.reads launcherQuit ls [QuizSpec.MkSeen [] name_request key] rst)
      \/ exists c i w rst, ask R launcherQuit name_request s = Ok c (addEvent R (Asked name_request c w) (setInput R i s))
           /\ permitted launcherQuit name_request c /\ QuizSpec.reads launcherQuit ls [QuizSpec.MkSeen [] name_request c] rst).
    { destruct (ask_cases R launcherQuit name_request s ls name_proper Hl) as [[junk [la [c [rest' [i1 [w [E [E2 [Ha [Hj Hl1]]]]]]]]]]|[[E0 [d [w [Hd E]]]]|[E [NA ND]]]].
      - right. exists c, i1, w, rest'. split; [exact E|]. split; [eapply answers_permitted; [exact name_proper|exact Ha]|].
        apply (reads_snoc launcherQuit ls [] ls (QuizSpec.MkSeen [] name_request c) junk la rest'); [constructor|exact E2|exact Ha|exact Hj].
      - right. injection Hd as <-. exists 49, (input R s), w, []. split; [exact E|]. split; [left; left; reflexivity|]. rewrite E0. apply reads_end; [reflexivity|constructor].
      - left. split; [exact E|]. intros key rst. apply reads_none; [exact NA|exact ND]. }
    destruct C as [[E NA]|[c [i1 [w [rst [E [Pc Hr]]]]]]]; rewrite E; cbn [rbind].
    + left. split; [rewrite EL; discriminate|]. split; [|left; reflexivity]. intros gs A. inversion A; subst; try congruence. match goal with H : QuizSpec.reads _ _ _ _ |- _ => exact (NA _ _ H) end.
    + assert (Kc : c = 47 \/ 49 <= c <= 54).
      { destruct Pc as [H|[[a [b [H _]]]|[_ [d [= <- _]]]]]; [|discriminate|left; reflexivity]. cbn [name_request rqChoices map fst In] in H. lia. }
      unfold isQuit, launcherQuit. destruct Kc as [->|Kc].
      * cbn [N.eqb Pos.eqb]. left. split; [rewrite EL; discriminate|]. split; [|right; eexists; reflexivity].
        intros gs A. inversion A as [g1 rest1 E1 T1|g1 rest1 E1 T1|g1 rest1 key part ls' E1 T1 K1 Rd P1]; subst; try congruence.
        destruct (reads_same _ _ _ _ _ _ _ _ Hr Rd eq_refl) as [S1 _]. cbn [sKey] in S1. lia.
      * replace (47 =? c) with false by lia. right. destruct (keep_part m c lst Kc) as [part [P1 P2]].
        destruct (prepared R shuffleGroups l m lst (Some (c - 49)) (filter (worth m) part) (addEvent R (Asked name_request c w) (setInput R i1 s)) P2) as [gs [r' [E1 A]]]. rewrite E1.
        exists (filter (worth m) part), gs, g. eexists. split; [eapply asked_pattern; eassumption|]. split; [exact (arranged_len _ _ _ _ _ A)|]. split; [|split; [exact H1|rewrite Ty; reflexivity]]. reflexivity.
Qed.
Hypothesis Hf : groups_fit shuffleGroups shuffle other l question m lst entry.
Lemma groups_say_what : forall fuel, let x := groupQuizT R shuffle shuffleGroups other fuel l question shown lst m i r in
  (forall w, (exists e s, x = Ok (Some (e, w)) s) <-> groups_refused (questionOrder l) question m lst ls w) /\ forall e s, x <> Err e s.
Proof.
  intros fuel x. destruct (group_run fuel) as [(E & s & X)|[(E & NA & X)|(gs & gs' & g & s & A & Len & C & Hg & X)]]; fold x in X.
  - split; [|rewrite X; discriminate]. intro w. rewrite X. split.
    + intros (e & s' & Y). assert (Q : w = b_ "empty group list") by congruence. rewrite Q. apply refused_empty. exact E.
    + intros [E1|gs w' A _]; [exists DomainError, s; reflexivity|]. exfalso. inversion A; congruence.
  - assert (N1 : forall e w s, x <> Ok (Some (e, w)) s) by (intros e w s; destruct X as [->|[s' ->]]; discriminate).
    split; [|destruct X as [->|[s' ->]]; discriminate]. intro w. split; [intros (e & s & Y); destruct (N1 _ _ _ Y)|].
    intros [E1|gs w' A _]; [contradiction|destruct (NA _ A)].
  - assert (NE : lst <> []) by (destruct lst; [discriminate Hg|discriminate]).
    unfold startGroupsT in X. destruct (begin_some R l (len gs') s) as [(w & W & Y)|(W & k' & Y)]; rewrite Y in X.
    + rewrite C, Len in W. cbn [unless rbind destroyed] in X. split; [|rewrite X; discriminate]. intro w'. split.
      * intros (e & s' & Z). rewrite X in Z. replace w' with w by congruence. eapply refused_group; eassumption.
      * intros [E1|gs2 w2 A2 W2]; [contradiction|]. rewrite (asked_fun _ _ _ _ _ _ A2 A) in W2. rewrite (beyond_fun _ _ _ _ _ W2 W eq_refl). eexists _, _. exact X.
    + rewrite C, Len in W.
      assert (N1 : forall e w s, x <> Ok (Some (e, w)) s).
      { intros e w s'. rewrite X. apply no_text. intros e1 w1 s1. destruct k' as [u s2|e2 s2| |]; cbn [returns rbind unless]; try discriminate. cbv zeta. apply returns_no_text. }
      split.
      * intro w. split; [intros (e & s' & Z); destruct (N1 _ _ _ Z)|]. intros [E1|gs2 w2 A2 [W2 _]]; [contradiction|]. rewrite (asked_fun _ _ _ _ _ _ A2 A) in W2. lia.
      * intros e s' Z. pose proof (group_told R shuffle shuffleGroups other fuel l question shown lst m i r) as T. fold x in T. rewrite Z in T. cbn [erased1] in T.
        destruct (whole R shuffleGroups shuffle other l question shown m lst entry i r ls Hf Hl fuel) as [[E _]|[g1 [rest1 [E [[_ V]|[ps1 [gs1 [r1 [S1 [[q1 RD1] V]]]]]]]]]].
        { contradiction. }
        { destruct V as [(V & _)|(s2 & rst & V & _)]; congruence. }
        destruct V as [(V & _)|[_ V]].
        { destruct (starts_asked _ _ _ _ _ _ _ _ _ S1 RD1) as (gs2 & A2 & L2). rewrite (asked_fun _ _ _ _ _ _ A2 A) in L2. lia. }
        unfold ends in V. destruct V as [(V & _)|[(V & _)|(ks & rst & s2 & V & _)]]; congruence.
Qed.
End Groups.
