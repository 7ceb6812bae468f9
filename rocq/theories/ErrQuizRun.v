(** A quiz whose exceptions have texts follows the dialog of StartSpec.v. *)
From Verif Require Import BaseFacts StartRun ErrQuizProofs.
From Verif Require Import StartModel StartSpec QuizModel StartProofs StartRun.
Open Scope N_scope.

Section Start.
Variable R : Type.
Variable draw : N -> R -> N * R.
Variable shuffle : list QKanji -> R -> list QKanji * R.
Variable shuffleGroups : list Group -> R -> list Group * R.
Variable otherNumber : GroupType -> bytes -> option N.
Variable extraTypeInfo reviewDetails : QKanji -> bytes.
Variable d : Data.
Variable meaningGroups patternGroups : list Group.
Variable fuel : nat.
Notation State := (State R).
Implicit Type s : State.
Hypothesis buckets : List.length (dFreqs d) = 10%nat.

Notation startType' := (startTypeT R draw shuffle shuffleGroups otherNumber extraTypeInfo reviewDetails d meaningGroups patternGroups fuel).

(** the run of a quiz is the rest of the run *)
Definition followedT (q : res State Thrown) (run : res State (Thrown * (ProgramMode * QuestionOrder))) : Prop :=
  match q with
  | Ok x _ => exists s2, run = Ok (x, (NoMode, NoOrder)) s2
  | Err e _ => exists s2, run = Err e s2
  | Undefined => run = Undefined
  | NoReturn => run = NoReturn
  end.
Definition resultT (p : Settings) (randomize : bool) (e : ending) (s : State) (run : res State (Thrown * (ProgramMode * QuestionOrder))) : Prop :=
  match e with
  | Waits => run = NoReturn
  | Quits _ => exists x s2, run = Ok (None, x) s2
  | Starts test o q =>
      let l := MkLauncher test o randomize launcherQuit in
      match q with
      | ListOf hidden count style ks =>
          followedT (listQuizT R draw shuffle extraTypeInfo reviewDetails fuel l (sQuestion p) (sMeanings p) (map (fun k => MkQ k (dReading (kDetails k)) (dMeaning (kDetails k))) ks)
                        (Info_All - hidden) count style (input R s) (rng R s)) run
      | GroupsOf gs m =>
          followedT (groupQuizT R shuffle shuffleGroups otherNumber fuel l (sQuestion p) (sMeanings p) gs m (input R s) (rng R s)) run
      end
  end.
Lemma after_followed : forall s (run : istream -> R -> res State Thrown),
  followedT (run (input R s) (rng R s)) (do t, s' <- afterT R s run ;; Ok (t, (NoMode, NoOrder)) s').
Proof.
  intros s run. unfold followedT, afterT. destruct (run (input R s) (rng R s)) as [u s'|e s'| |]; cbn [rbind]; try reflexivity; (eexists; reflexivity).
Qed.
Notation result p rnd := (resultT p rnd).
Variable p : Settings.
Variable rnd : bool.
Notation reset m := (do t, s' <- m ;; Ok (t, (NoMode, NoOrder)) s').

Lemma list_quiz_meets : forall km ko kt kl o hidden ks s ls, km = 114 \/ km = 116 -> order_of ko o -> list_named d kt kl hidden ks ->
  lines_left (input R s) ls ->
  meets R _ (result p rnd) (chosen d meaningGroups patternGroups km ko kt kl) s ls
    (reset (startListQuizT R draw shuffle extraTypeInfo reviewDetails fuel (MkLauncher (km =? 116) o rnd launcherQuit)
       (sQuestion p) (sMeanings p) hidden ks s)).
Proof.
  intros km ko kt kl o hidden ks s ls Hm Ho Hl L. unfold startListQuizT. cbn [isQuizMode]. rewrite (hidden_xor _ _ _ _ _ Hl). destruct Hm as [->| ->].
  - change (114 =? 116) with false. cbn iota.
    eapply meets_impl; [|apply (meets_done R _ _ (Starts false o (ListOf hidden 1 KanjiToReading ks))); [exact L|]].
    + intros ls0 ks0 e ls' D. exists o. split; [exact Ho|]. right. exists hidden, ks. split; [exact Hl|]. left. auto.
    + cbn [resultT]. change (toQuizStyle 107) with KanjiToReading. apply after_followed.
  - change (116 =? 116) with true. cbn iota. rewrite rbind_assoc.
    eapply meets_impl with (D := told None PCount (fun n => told None PStyle (fun st => fun ls ks' e ls' =>
        exists style, style_of st style /\ done (Starts true o (ListOf hidden (n - 48) style ks)) ls ks' e ls'))).
    { intros ls0 ks0 e ls' D. exists o. split; [exact Ho|]. right. exists hidden, ks. split; [exact Hl|]. right. auto. }
    change (asked R countRequest s) with (orAsked R None (requestOf PCount) s).
    apply meets_told; [exact Logic.I|exact L|discriminate| |intros; eexists _, _; reflexivity|reflexivity].
    intros n l s1 _ Hn Nn L1. replace (quits n) with false by (unfold quits, isQuit, launcherQuit; lia). rewrite rbind_assoc.
    change (asked R styleRequest s1) with (orAsked R None (requestOf PStyle) s1).
    apply meets_told; [exact Logic.I|exact L1|discriminate| |intros; eexists _, _; reflexivity|reflexivity].
    intros st l2 s2 _ Hst Nst L2. replace (quits st) with false by (unfold quits, isQuit, launcherQuit; lia).
    assert (X : exists style, style_of st style /\ toQuizStyle st = style).
    { destruct Hst as [<-|[<-|[]]]; [exists KanjiToReading; split; [apply style_k|reflexivity]|exists ReadingToKanji; split; [apply style_r|reflexivity]]. }
    destruct X as (style & X & ->).
    eapply meets_impl; [|apply (meets_done R _ _ (Starts true o (ListOf hidden (n - 48) style ks))); [exact L2|]].
    + intros ls0 ks0 e ls' D. exists style. auto.
    + cbn [resultT]. apply after_followed.
Qed.

Lemma group_quiz_meets : forall km ko kt gs o s ls, km = 114 \/ km = 116 -> order_of ko o ->
  In (kt, gs) [(109, meaningGroups); (112, patternGroups)] -> lines_left (input R s) ls ->
  (forall c, sList p = Some c -> In c (keys (PList kt))) ->
  meets R _ (result p rnd) (told (sList p) (PList kt) (fun kl => chosen d meaningGroups patternGroups km ko kt kl)) s ls
    (reset (startGroupQuizT R shuffle shuffleGroups otherNumber fuel (MkLauncher (km =? 116) o rnd launcherQuit)
       (sQuestion p) (sMeanings p) (sList p) gs s)).
Proof.
  intros km ko kt gs o s ls Hm Ho Hg L Hs. unfold startGroupQuizT. rewrite rbind_assoc.
  assert (K : keys (PList kt) = b_ "1234" /\ kanjiTypeRequest = requestOf (PList kt) /\ known (PList kt)).
  { destruct Hg as [Hg|[Hg|[]]]; inversion Hg; subst; (split; [reflexivity|split; [reflexivity|cbn; auto 10]]). }
  destruct K as [K1 [K2 K3]]. rewrite K2. rewrite K1 in Hs.
  assert (X : forall c s l, In c (b_ "1234") -> lines_left (input R s) l ->
    meets R _ (result p rnd) (chosen d meaningGroups patternGroups km ko kt c) s l
      (reset (if quits c then Ok None s else match memberType c with
        | Some m => afterT R s (groupQuizT R shuffle shuffleGroups otherNumber fuel (MkLauncher (km =? 116) o rnd launcherQuit) (sQuestion p) (sMeanings p) gs m)
        | None => Undefined end))).
  { intros c s1 l Hc L1. destruct (member_found c Hc) as (m & E & Hm2).
    replace (quits c) with false by (destruct Hc as [<-|[<-|[<-|[<-|[]]]]]; reflexivity). rewrite E.
    eapply meets_impl; [|apply (meets_done R _ _ (Starts (km =? 116) o (GroupsOf gs m))); [exact L1|]].
    - intros ls0 ks0 e ls' D. exists o. split; [exact Ho|]. left. exists gs, m. split; [constructor; assumption|exact D].
    - cbn [resultT]. apply after_followed. }
  apply meets_told; [exact K3|exact L| | |intros; eexists _, _; reflexivity|reflexivity].
  - intros c E. apply X; [apply Hs; exact E|exact L].
  - intros c l s1 _ Hc _ L1. apply X; [rewrite <- K1; exact Hc|exact L1].
Qed.

Lemma type_meets : forall km ko kt o s ls, km = 114 \/ km = 116 -> order_of ko o -> In kt (b_ "fgklmp") -> lines_left (input R s) ls ->
  (forall c, sList p = Some c -> In c (keys (PList kt))) ->
  meets R _ (result p rnd) (told (sList p) (PList kt) (fun kl => chosen d meaningGroups patternGroups km ko kt kl)) s ls
    (reset (startType' (MkLauncher (km =? 116) o rnd launcherQuit) (Some kt) (sList p) (sQuestion p) (sMeanings p) s)).
Proof.
  intros km ko kt o s ls Hm Ho Hk L Hs. unfold startTypeT. cbn [orAsked rbind].
  assert (G : In (kt, if kt =? 109 then meaningGroups else patternGroups) [(109, meaningGroups); (112, patternGroups)] \/ In kt (b_ "fgkl")).
  { destruct Hk as [<-|[<-|[<-|[<-|[<-|[<-|[]]]]]]]; [right; cbn; auto 10..|left; left; reflexivity|left; right; left; reflexivity]. }
  destruct G as [G|G].
  - destruct G as [G|[G|[]]]; inversion G; subst kt.
    + change (109 =? 102) with false. change (109 =? 103) with false. change (109 =? 107) with false. change (109 =? 108) with false.
      change (109 =? 109) with true. cbn iota. apply (group_quiz_meets km ko 109 meaningGroups o s ls); auto. left. reflexivity.
    + change (112 =? 102) with false. change (112 =? 103) with false. change (112 =? 107) with false. change (112 =? 108) with false.
      change (112 =? 109) with false. change (112 =? 112) with true. cbn iota. apply (group_quiz_meets km ko 112 patternGroups o s ls); auto. right. left. reflexivity.
  - assert (Kn : known (PList kt)) by exact Hk.
    assert (Y : forall rq hid f, rq = requestOf (PList kt) ->
        (forall kl, In kl (keys (PList kt)) -> exists ks, list_named d kt kl hid ks /\ f kl = Val ks) ->
        meets R _ (result p rnd) (told (sList p) (PList kt) (fun kl => chosen d meaningGroups patternGroups km ko kt kl)) s ls
          (reset (do c, s <- orAsked R (sList p) rq s ;;
                  if quits c then Ok None s
                  else do x, s <- lifted R (f c) s ;;
                    startListQuizT R draw shuffle extraTypeInfo reviewDetails fuel (MkLauncher (km =? 116) o rnd launcherQuit)
                      (sQuestion p) (sMeanings p) hid x s))).
    { intros rq hid f -> Hf. rewrite rbind_assoc.
      assert (Z : forall c s l, In c (keys (PList kt)) -> lines_left (input R s) l ->
        meets R _ (result p rnd) (chosen d meaningGroups patternGroups km ko kt c) s l
          (reset (if quits c then Ok None s else do x, s <- lifted R (f c) s ;;
                    startListQuizT R draw shuffle extraTypeInfo reviewDetails fuel (MkLauncher (km =? 116) o rnd launcherQuit)
                      (sQuestion p) (sMeanings p) hid x s))).
      { intros c s1 l Hc L1. destruct (Hf c Hc) as (ks & Hn & E).
        assert (Q : c <> 47).
        { intros ->. clear -Hn. inversion Hn as [b ks0 Hb Hn2 E1 E2|c g Hi E1 E2|c k Hi E1 E2|c l0 Hi E1 E2]; [lia|..];
            repeat (destruct Hi as [Hi|Hi]; [inversion Hi; subst; discriminate|]); destruct Hi. }
        replace (quits c) with false by (unfold quits, isQuit, launcherQuit; lia). rewrite E. cbn [lifted rbind].
        apply (list_quiz_meets km ko kt c o hid ks s1 l); assumption. }
      apply meets_told; [exact Kn|exact L| | |intros; eexists _, _; reflexivity|reflexivity].
      - intros c E. apply Z; [apply Hs; exact E|exact L].
      - intros c l s1 _ Hc _ L1. apply Z; assumption. }
    pose proof (fun kl H => list_found d kt kl buckets G H) as W.
    destruct G as [<-|[<-|[<-|[<-|[]]]]].
    + apply (Y freqRequest Info_Freq (freqList d)); [reflexivity|]. intros kl H. destruct (W kl H) as (h & ks & A & [(_ & -> & E)|[(E0 & _)|[(E0 & _)|(E0 & _)]]]);
        [exists ks; auto|discriminate E0..].
    + apply (Y gradeRequest Info_Grade (gradeList d)); [reflexivity|]. intros kl H. destruct (W kl H) as (h & ks & A & [(E0 & _)|[(_ & -> & E)|[(E0 & _)|(E0 & _)]]]);
        [discriminate E0|exists ks; auto|discriminate E0..].
    + apply (Y kyuRequest Info_Kyu (kyuList d)); [reflexivity|]. intros kl H. destruct (W kl H) as (h & ks & A & [(E0 & _)|[(E0 & _)|[(_ & -> & E)|(E0 & _)]]]);
        [discriminate E0|discriminate E0|exists ks; auto|discriminate E0].
    + apply (Y levelRequest Info_Level (levelList d)); [reflexivity|]. intros kl H. destruct (W kl H) as (h & ks & A & [(E0 & _)|[(E0 & _)|[(E0 & _)|(_ & -> & E)]]]);
        [discriminate E0..|exists ks; auto].
Qed.

Notation startQuiz' := (startQuizT R draw shuffle shuffleGroups otherNumber extraTypeInfo reviewDetails d meaningGroups patternGroups fuel).
Lemma start_meets : forall s ls, from_options p -> lines_left (input R s) ls ->
  meets R _ (result p rnd) (start_dialog d meaningGroups patternGroups p) s ls
    (startQuiz' (sMode p) (sOrder p) (sType p) (sList p) (sQuestion p) (sMeanings p) rnd s).
Proof.
  intros s ls [F1 [F2 F3]] L. unfold start_dialog, startQuizT.
  (* the type *)
  assert (T : forall km ko o s ls, km = 114 \/ km = 116 -> order_of ko o -> lines_left (input R s) ls ->
    meets R _ (result p rnd) (told (sType p) PType (fun kt => told (sList p) (PList kt) (fun kl => chosen d meaningGroups patternGroups km ko kt kl))) s ls
      (reset (startType' (MkLauncher (km =? 116) o rnd launcherQuit) (sType p) (sList p) (sQuestion p) (sMeanings p) s))).
  { intros km ko o s1 l1 Hm Ho L1. unfold startTypeT. rewrite rbind_assoc. change typeRequest with (requestOf PType).
    apply meets_told; [exact Logic.I|exact L1| | |intros; eexists _, _; reflexivity|reflexivity].
    - intros c E. destruct (F1 c E) as (ks & Hk). destruct (keys_of_type c ks Hk) as [K1 K2]. apply (type_meets km ko c o s1 l1); auto.
      intros x Ex. destruct (F2 x Ex) as (t & ks' & Et & Hk' & Hx). rewrite E in Et. inversion Et; subst t.
      destruct (keys_of_type c ks' Hk') as [_ K3]. rewrite K3. exact Hx.
    - intros c l s2 E Hc _ L2. apply (type_meets km ko c o s2 l); auto.
      intros x Ex. destruct (F2 x Ex) as (t & ks' & Et & _). rewrite E in Et. discriminate. }
  (* the order *)
  assert (O : forall km m s ls, (km = 114 /\ m = Review) \/ (km = 116 /\ m = QuizMode) -> (sMode p <> NoMode -> m = sMode p) ->
    lines_left (input R s) ls ->
    meets R _ (result p rnd) (told (order_key (sOrder p)) POrder (fun ko => told (sType p) PType (fun kt => told (sList p) (PList kt)
        (fun kl => chosen d meaningGroups patternGroups km ko kt kl)))) s ls
      (do o, s <- (match sOrder p with
                  | NoOrder => do c, s <- asked R orderRequest s ;;
                               Ok (if c =? 98 then FromBeginning else if c =? 101 then FromEnd
                                   else if c =? 114 then RandomOrder else NoOrder) s
                  | _ => Ok (sOrder p) s
                  end) ;;
      match o with
      | NoOrder => Ok (None, (m, NoOrder)) s
      | _ =>
          let l := MkLauncher (match m with QuizMode => true | _ => false end) o rnd launcherQuit in
          do t, s <- startType' l (sType p) (sList p) (sQuestion p) (sMeanings p) s ;; Ok (t, (NoMode, NoOrder)) s
      end)).
  { intros km m s1 l1 Hm Hp L1.
    assert (Em : match m with QuizMode => true | _ => false end = (km =? 116)) by (destruct Hm as [[-> ->]|[-> ->]]; reflexivity).
    rewrite Em. assert (Hm' : km = 114 \/ km = 116) by tauto.
    assert (Y : forall ko o s l, order_of ko o -> lines_left (input R s) l ->
      meets R _ (result p rnd) (told (sType p) PType (fun kt => told (sList p) (PList kt) (fun kl => chosen d meaningGroups patternGroups km ko kt kl))) s l
       (match o with
        | NoOrder => Ok (None, (m, NoOrder)) s
        | _ => let l := MkLauncher (km =? 116) o rnd launcherQuit in
               do t, s <- startType' l (sType p) (sList p) (sQuestion p) (sMeanings p) s ;; Ok (t, (NoMode, NoOrder)) s
        end)).
    { intros ko o s2 l2 Ho L2. pose proof (T km ko o s2 l2 Hm' Ho L2) as Z. destruct Ho; exact Z. }
    destruct (sOrder p) eqn:Eo; cbn [order_key].
    - eapply meets_impl; [|apply (Y 98 FromBeginning s1 l1); [constructor|exact L1]]. intros ls0 ks0 e ls' D. left. exists 98. auto.
    - eapply meets_impl; [|apply (Y 101 FromEnd s1 l1); [constructor|exact L1]]. intros ls0 ks0 e ls' D. left. exists 101. auto.
    - eapply meets_impl; [|apply (Y 114 RandomOrder s1 l1); [constructor|exact L1]]. intros ls0 ks0 e ls' D. left. exists 114. auto.
    - rewrite rbind_assoc. change (asked R orderRequest s1) with (orAsked R None (requestOf POrder) s1).
      apply meets_told; [exact Logic.I|exact L1|discriminate| | |reflexivity].
      + intros c l s2 _ Hc _ L2. cbn [rbind]. destruct Hc as [<-|[<-|[<-|[]]]]; [apply (Y _ FromBeginning)|apply (Y _ FromEnd)|apply (Y _ RandomOrder)];
          (exact L2 || constructor).
      + intros s2 _. eexists _, _. reflexivity. }
  (* the mode *)
  destruct (sMode p) eqn:Em; cbn [mode_key].
  - eapply meets_impl; [|apply (O 114 Review s ls); auto]. intros ls0 ks0 e ls' D. left. exists 114. auto.
  - eapply meets_impl; [|apply (O 116 QuizMode s ls); auto]. intros ls0 ks0 e ls' D. left. exists 116. auto.
  - rewrite rbind_assoc. change (asked R modeRequest s) with (orAsked R None (requestOf PMode) s).
    apply meets_told; [exact Logic.I|exact L|discriminate| | |reflexivity].
    + intros c l s1 _ Hc _ L1. cbn [rbind]. destruct Hc as [<-|[<-|[]]]; [apply (O _ Review)|apply (O _ QuizMode)]; auto; congruence.
    + intros s1 _. eexists _, _. reflexivity.
Qed.
End Start.
