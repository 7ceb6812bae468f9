(** A started quiz follows the dialog of StartSpec.v. *)
From Verif Require Import BaseFacts.
From Verif Require Export StartProofs.
Open Scope N_scope.

Lemma rbind_assoc : forall S A B C (m : res S A) (f : A -> S -> res S B) (g : B -> S -> res S C),
  rbind (rbind m f) g = rbind m (fun a s => rbind (f a s) g).
Proof. intros. destruct m; reflexivity. Qed.

Ltac letters H := cbn [In b_] in H; repeat (destruct H as [H|H]; [try (vm_compute in H; subst)|]); [..|try contradiction].

(** ** Lists *)

Lemma list_found : forall d kt kl, List.length (dFreqs d) = 10%nat -> In kt (b_ "fgkl") -> In kl (keys (PList kt)) ->
  exists hidden ks, list_named d kt kl hidden ks
    /\ ((kt = 102 /\ hidden = Info_Freq /\ freqList d kl = Val ks) \/ (kt = 103 /\ hidden = Info_Grade /\ gradeList d kl = Val ks)
        \/ (kt = 107 /\ hidden = Info_Kyu /\ kyuList d kl = Val ks) \/ (kt = 108 /\ hidden = Info_Level /\ levelList d kl = Val ks)).
Proof.
  intros d kt kl L Ht Hk.
  destruct Ht as [<-|[<-|[<-|[<-|[]]]]].
  - change (keys (PList _)) with (b_ "0123456789") in Hk.
    assert (Hb : exists b, b < 10 /\ kl = 48 + b) by (exists (kl - 48); repeat (destruct Hk as [<-|Hk]; [split; reflexivity|]); destruct Hk).
    destruct Hb as (b & Hb & ->). destruct (nth_error (dFreqs d) (N.to_nat b)) as [ks|] eqn:E; [|apply nth_error_None in E; lia].
    exists Info_Freq, ks. split; [apply (named_freq d b ks); assumption|]. left. split; [reflexivity|]. split; [reflexivity|].
    unfold freqList, frequencyList. change FrequencyBuckets with 10. replace (48 + b <? 48) with false by lia. replace (48 + b - 48) with b by lia.
    replace (b <? 10) with true by lia. rewrite E. reflexivity.
  - change (keys (PList _)) with (b_ "123456s") in Hk.
    assert (H : exists g, In (kl, g) [(49, G1); (50, G2); (51, G3); (52, G4); (53, G5); (54, G6); (115, GS)]
      /\ gradeList d kl = Val (alist N.eqb (gradeNumber g) (dGrades d))).
    { destruct Hk as [<-|[<-|[<-|[<-|[<-|[<-|[<-|[]]]]]]]];
        [exists G1|exists G2|exists G3|exists G4|exists G5|exists G6|exists GS]; (split; [cbn; auto 20|reflexivity]). }
    destruct H as (g & Hg & E). exists Info_Grade. eexists. split; [apply (named_grade d kl g Hg)|]. right. left. auto.
  - change (keys (PList _)) with (b_ "123456789abc") in Hk.
    assert (H : exists k, In (kl, k) [(97, K10); (57, K9); (56, K8); (55, K7); (54, K6); (53, K5); (52, K4); (51, K3);
                                     (99, KJ2); (50, K2); (98, KJ1); (49, K1)]
      /\ kyuList d kl = Val (alist N.eqb (kyuNumber k) (dKyus d))).
    { destruct Hk as [<-|[<-|[<-|[<-|[<-|[<-|[<-|[<-|[<-|[<-|[<-|[<-|[]]]]]]]]]]]]];
        [exists K1|exists K2|exists K3|exists K4|exists K5|exists K6|exists K7|exists K8|exists K9|exists K10|exists KJ1|exists KJ2];
        (split; [cbn; auto 20|reflexivity]). }
    destruct H as (k & Hg & E). exists Info_Kyu. eexists. split; [apply (named_kyu d kl k Hg)|]. right. right. left. auto.
  - change (keys (PList _)) with (b_ "12345") in Hk.
    assert (H : exists l, In (kl, l) [(49, N1); (50, N2); (51, N3); (52, N4); (53, N5)]
      /\ levelList d kl = Val (alist N.eqb (levelNumber l) (dLevels d))).
    { destruct Hk as [<-|[<-|[<-|[<-|[<-|[]]]]]]; [exists N1|exists N2|exists N3|exists N4|exists N5]; (split; [cbn; auto 20|reflexivity]). }
    destruct H as (l & Hg & E). exists Info_Level. eexists. split; [apply (named_level d kl l Hg)|]. right. right. right. auto.
Qed.
Lemma member_found : forall kl, In kl (b_ "1234") ->
  exists m, memberType kl = Some m /\ In (kl, m) [(49, MJouyou); (50, MJLPT); (51, MFrequency); (52, MAll)].
Proof.
  intros kl H. destruct H as [<-|[<-|[<-|[<-|[]]]]]; [exists MJouyou|exists MJLPT|exists MFrequency|exists MAll]; (split; [reflexivity|cbn; auto]).
Qed.

Section Start.
Variable R : Type.
Variable draw : N -> R -> N * R.
Variable shuffle : list QKanji -> R -> list QKanji * R.
Variable shuffleGroups : list Group -> R -> list Group * R.
Variable otherNumber : GroupType -> bytes -> option N.
Variable extraTypeInfo reviewDetails : QKanji -> bytes.
Variable d : Data.
Variable meaningGroups patternGroups : list Group.
Variable fuel : nat.
Notation State := (State R).
Implicit Type s : State.
Hypothesis buckets : List.length (dFreqs d) = 10%nat.

Notation result p rnd := (result_of R draw shuffle shuffleGroups otherNumber extraTypeInfo reviewDetails fuel p rnd).
Notation startType' := (startType R draw shuffle shuffleGroups otherNumber extraTypeInfo reviewDetails d meaningGroups patternGroups fuel).

Lemma after_followed : forall s (run : istream -> R -> res State unit),
  followed s (run (input R s) (rng R s)) (NoMode, NoOrder) (do _u, s' <- StartModel.after R s run ;; Ok (NoMode, NoOrder) s').
Proof.
  intros s run. unfold followed, StartModel.after. destruct (run (input R s) (rng R s)) as [u s'|e s'| |]; cbn [rbind]; try reflexivity;
    (eexists; split; [reflexivity|]; auto).
Qed.
Lemma hidden_xor : forall d kt kl hidden ks, list_named d kt kl hidden ks -> N.lxor Info_All hidden = Info_All - hidden.
Proof. intros d0 kt kl hidden ks H. inversion H; reflexivity. Qed.

Variable p : Settings.
Variable rnd : bool.
Notation reset m := (do _u, s' <- m ;; Ok (NoMode, NoOrder) s').

Lemma list_quiz_meets : forall km ko kt kl o hidden ks s ls, km = 114 \/ km = 116 -> order_of ko o -> list_named d kt kl hidden ks ->
  lines_left (input R s) ls ->
  meets R _ (result p rnd) (chosen d meaningGroups patternGroups km ko kt kl) s ls
    (reset (startListQuiz R draw shuffle extraTypeInfo reviewDetails fuel (MkLauncher (km =? 116) o rnd launcherQuit)
       (sQuestion p) (sMeanings p) hidden ks s)).
Proof.
  intros km ko kt kl o hidden ks s ls Hm Ho Hl L. unfold startListQuiz. cbn [isQuizMode]. rewrite (hidden_xor _ _ _ _ _ Hl). destruct Hm as [->| ->].
  - change (114 =? 116) with false. cbn iota.
    eapply meets_impl; [|apply (meets_done R _ _ (Starts false o (ListOf hidden 1 KanjiToReading ks))); [exact L|]].
    + intros ls0 ks0 e ls' D. exists o. split; [exact Ho|]. right. exists hidden, ks. split; [exact Hl|]. left. auto.
    + cbn [result_of]. change (toQuizStyle 107) with KanjiToReading. apply after_followed.
  - change (116 =? 116) with true. cbn iota. rewrite rbind_assoc.
    eapply meets_impl with (D := told None PCount (fun n => told None PStyle (fun st => fun ls ks' e ls' =>
        exists style, style_of st style /\ done (Starts true o (ListOf hidden (n - 48) style ks)) ls ks' e ls'))).
    { intros ls0 ks0 e ls' D. exists o. split; [exact Ho|]. right. exists hidden, ks. split; [exact Hl|]. right. auto. }
    change (asked R countRequest s) with (orAsked R None (requestOf PCount) s).
    apply meets_told; [exact Logic.I|exact L|discriminate| |reflexivity|reflexivity].
    intros n l s1 _ Hn Nn L1. replace (quits n) with false by (unfold quits, isQuit, launcherQuit; lia). rewrite rbind_assoc.
    change (asked R styleRequest s1) with (orAsked R None (requestOf PStyle) s1).
    apply meets_told; [exact Logic.I|exact L1|discriminate| |reflexivity|reflexivity].
    intros st l2 s2 _ Hst Nst L2. replace (quits st) with false by (unfold quits, isQuit, launcherQuit; lia).
    assert (X : exists style, style_of st style /\ toQuizStyle st = style).
    { destruct Hst as [<-|[<-|[]]]; [exists KanjiToReading; split; [apply style_k|reflexivity]|exists ReadingToKanji; split; [apply style_r|reflexivity]]. }
    destruct X as (style & X & ->).
    eapply meets_impl; [|apply (meets_done R _ _ (Starts true o (ListOf hidden (n - 48) style ks))); [exact L2|]].
    + intros ls0 ks0 e ls' D. exists style. auto.
    + cbn [result_of]. apply after_followed.
Qed.

Lemma group_quiz_meets : forall km ko kt gs o s ls, km = 114 \/ km = 116 -> order_of ko o ->
  In (kt, gs) [(109, meaningGroups); (112, patternGroups)] -> lines_left (input R s) ls ->
  (forall c, sList p = Some c -> In c (keys (PList kt))) ->
  meets R _ (result p rnd) (told (sList p) (PList kt) (fun kl => chosen d meaningGroups patternGroups km ko kt kl)) s ls
    (reset (startGroupQuiz R shuffle shuffleGroups otherNumber fuel (MkLauncher (km =? 116) o rnd launcherQuit)
       (sQuestion p) (sMeanings p) (sList p) gs s)).
Proof.
  intros km ko kt gs o s ls Hm Ho Hg L Hs. unfold startGroupQuiz. rewrite rbind_assoc.
  assert (K : keys (PList kt) = b_ "1234" /\ kanjiTypeRequest = requestOf (PList kt) /\ known (PList kt)).
  { destruct Hg as [Hg|[Hg|[]]]; inversion Hg; subst; (split; [reflexivity|split; [reflexivity|cbn; auto 10]]). }
  destruct K as [K1 [K2 K3]]. rewrite K2. rewrite K1 in Hs.
  assert (X : forall c s l, In c (b_ "1234") -> lines_left (input R s) l ->
    meets R _ (result p rnd) (chosen d meaningGroups patternGroups km ko kt c) s l
      (reset (if quits c then Ok tt s else match memberType c with
        | Some m => StartModel.after R s (groupQuiz R shuffleGroups shuffle otherNumber fuel (MkLauncher (km =? 116) o rnd launcherQuit) (sQuestion p) (sMeanings p) gs m)
        | None => Undefined end))).
  { intros c s1 l Hc L1. destruct (member_found c Hc) as (m & E & Hm2).
    replace (quits c) with false by (destruct Hc as [<-|[<-|[<-|[<-|[]]]]]; reflexivity). rewrite E.
    eapply meets_impl; [|apply (meets_done R _ _ (Starts (km =? 116) o (GroupsOf gs m))); [exact L1|]].
    - intros ls0 ks0 e ls' D. exists o. split; [exact Ho|]. left. exists gs, m. split; [constructor; assumption|exact D].
    - cbn [result_of]. apply after_followed. }
  apply meets_told; [exact K3|exact L| | |reflexivity|reflexivity].
  - intros c E. apply X; [apply Hs; exact E|exact L].
  - intros c l s1 _ Hc _ L1. apply X; [rewrite <- K1; exact Hc|exact L1].
Qed.

Lemma type_meets : forall km ko kt o s ls, km = 114 \/ km = 116 -> order_of ko o -> In kt (b_ "fgklmp") -> lines_left (input R s) ls ->
  (forall c, sList p = Some c -> In c (keys (PList kt))) ->
  meets R _ (result p rnd) (told (sList p) (PList kt) (fun kl => chosen d meaningGroups patternGroups km ko kt kl)) s ls
    (reset (startType' (MkLauncher (km =? 116) o rnd launcherQuit) (Some kt) (sList p) (sQuestion p) (sMeanings p) s)).
Proof.
  intros km ko kt o s ls Hm Ho Hk L Hs. unfold startType. cbn [orAsked rbind].
  assert (G : In (kt, if kt =? 109 then meaningGroups else patternGroups) [(109, meaningGroups); (112, patternGroups)] \/ In kt (b_ "fgkl")).
  { destruct Hk as [<-|[<-|[<-|[<-|[<-|[<-|[]]]]]]]; [right; cbn; auto 10..|left; left; reflexivity|left; right; left; reflexivity]. }
  destruct G as [G|G].
  - destruct G as [G|[G|[]]]; inversion G; subst kt.
    + change (109 =? 102) with false. change (109 =? 103) with false. change (109 =? 107) with false. change (109 =? 108) with false.
      change (109 =? 109) with true. cbn iota. apply (group_quiz_meets km ko 109 meaningGroups o s ls); auto. left. reflexivity.
    + change (112 =? 102) with false. change (112 =? 103) with false. change (112 =? 107) with false. change (112 =? 108) with false.
      change (112 =? 109) with false. change (112 =? 112) with true. cbn iota. apply (group_quiz_meets km ko 112 patternGroups o s ls); auto. right. left. reflexivity.
  - assert (Kn : known (PList kt)) by exact Hk.
    assert (Y : forall rq hid f, rq = requestOf (PList kt) ->
        (forall kl, In kl (keys (PList kt)) -> exists ks, list_named d kt kl hid ks /\ f kl = Val ks) ->
        meets R _ (result p rnd) (told (sList p) (PList kt) (fun kl => chosen d meaningGroups patternGroups km ko kt kl)) s ls
          (reset (do c, s <- orAsked R (sList p) rq s ;;
                  if quits c then Ok tt s
                  else do x, s <- lifted R (f c) s ;;
                    startListQuiz R draw shuffle extraTypeInfo reviewDetails fuel (MkLauncher (km =? 116) o rnd launcherQuit)
                      (sQuestion p) (sMeanings p) hid x s))).
    { intros rq hid f -> Hf. rewrite rbind_assoc.
      assert (Z : forall c s l, In c (keys (PList kt)) -> lines_left (input R s) l ->
        meets R _ (result p rnd) (chosen d meaningGroups patternGroups km ko kt c) s l
          (reset (if quits c then Ok tt s else do x, s <- lifted R (f c) s ;;
                    startListQuiz R draw shuffle extraTypeInfo reviewDetails fuel (MkLauncher (km =? 116) o rnd launcherQuit)
                      (sQuestion p) (sMeanings p) hid x s))).
      { intros c s1 l Hc L1. destruct (Hf c Hc) as (ks & Hn & E).
        assert (Q : c <> 47).
        { intros ->. clear -Hn. inversion Hn as [b ks0 Hb Hn2 E1 E2|c g Hi E1 E2|c k Hi E1 E2|c l0 Hi E1 E2]; [lia|..];
            repeat (destruct Hi as [Hi|Hi]; [inversion Hi; subst; discriminate|]); destruct Hi. }
        replace (quits c) with false by (unfold quits, isQuit, launcherQuit; lia). rewrite E. cbn [lifted rbind].
        apply (list_quiz_meets km ko kt c o hid ks s1 l); assumption. }
      apply meets_told; [exact Kn|exact L| | |reflexivity|reflexivity].
      - intros c E. apply Z; [apply Hs; exact E|exact L].
      - intros c l s1 _ Hc _ L1. apply Z; assumption. }
    pose proof (fun kl H => list_found d kt kl buckets G H) as W.
    destruct G as [<-|[<-|[<-|[<-|[]]]]].
    + apply (Y freqRequest Info_Freq (freqList d)); [reflexivity|]. intros kl H. destruct (W kl H) as (h & ks & A & [(_ & -> & E)|[(E0 & _)|[(E0 & _)|(E0 & _)]]]);
        [exists ks; auto|discriminate E0..].
    + apply (Y gradeRequest Info_Grade (gradeList d)); [reflexivity|]. intros kl H. destruct (W kl H) as (h & ks & A & [(E0 & _)|[(_ & -> & E)|[(E0 & _)|(E0 & _)]]]);
        [discriminate E0|exists ks; auto|discriminate E0..].
    + apply (Y kyuRequest Info_Kyu (kyuList d)); [reflexivity|]. intros kl H. destruct (W kl H) as (h & ks & A & [(E0 & _)|[(E0 & _)|[(_ & -> & E)|(E0 & _)]]]);
        [discriminate E0|discriminate E0|exists ks; auto|discriminate E0].
    + apply (Y levelRequest Info_Level (levelList d)); [reflexivity|]. intros kl H. destruct (W kl H) as (h & ks & A & [(E0 & _)|[(E0 & _)|[(E0 & _)|(_ & -> & E)]]]);
        [discriminate E0..|exists ks; auto].
Qed.

Notation startQuiz' := (startQuiz R draw shuffle shuffleGroups otherNumber extraTypeInfo reviewDetails d meaningGroups patternGroups fuel).
Lemma keys_of_type : forall t ks, list_keys t ks -> In t (b_ "fgklmp") /\ keys (PList t) = ks.
Proof. intros t ks H. destruct H; (split; [cbn; auto 10|reflexivity]). Qed.

Lemma start_meets : forall s ls, from_options p -> lines_left (input R s) ls ->
  meets R _ (result p rnd) (start_dialog d meaningGroups patternGroups p) s ls
    (startQuiz' (sMode p) (sOrder p) (sType p) (sList p) (sQuestion p) (sMeanings p) rnd s).
Proof.
  intros s ls [F1 [F2 F3]] L. unfold start_dialog, startQuiz.
  (* the type *)
  assert (T : forall km ko o s ls, km = 114 \/ km = 116 -> order_of ko o -> lines_left (input R s) ls ->
    meets R _ (result p rnd) (told (sType p) PType (fun kt => told (sList p) (PList kt) (fun kl => chosen d meaningGroups patternGroups km ko kt kl))) s ls
      (reset (startType' (MkLauncher (km =? 116) o rnd launcherQuit) (sType p) (sList p) (sQuestion p) (sMeanings p) s))).
  { intros km ko o s1 l1 Hm Ho L1. unfold startType. rewrite rbind_assoc. change typeRequest with (requestOf PType).
    apply meets_told; [exact Logic.I|exact L1| | |reflexivity|reflexivity].
    - intros c E. destruct (F1 c E) as (ks & Hk). destruct (keys_of_type c ks Hk) as [K1 K2]. apply (type_meets km ko c o s1 l1); auto.
      intros x Ex. destruct (F2 x Ex) as (t & ks' & Et & Hk' & Hx). rewrite E in Et. inversion Et; subst t.
      destruct (keys_of_type c ks' Hk') as [_ K3]. rewrite K3. exact Hx.
    - intros c l s2 E Hc _ L2. apply (type_meets km ko c o s2 l); auto.
      intros x Ex. destruct (F2 x Ex) as (t & ks' & Et & _). rewrite E in Et. discriminate. }
  (* the order *)
  assert (O : forall km m s ls, (km = 114 /\ m = Review) \/ (km = 116 /\ m = QuizMode) -> (sMode p <> NoMode -> m = sMode p) ->
    lines_left (input R s) ls ->
    meets R _ (result p rnd) (told (order_key (sOrder p)) POrder (fun ko => told (sType p) PType (fun kt => told (sList p) (PList kt)
        (fun kl => chosen d meaningGroups patternGroups km ko kt kl)))) s ls
      (do o, s <- (match sOrder p with
                  | NoOrder => do c, s <- asked R orderRequest s ;;
                               Ok (if c =? 98 then FromBeginning else if c =? 101 then FromEnd
                                   else if c =? 114 then RandomOrder else NoOrder) s
                  | _ => Ok (sOrder p) s
                  end) ;;
      match o with
      | NoOrder => Ok (m, NoOrder) s
      | _ =>
          let l := MkLauncher (match m with QuizMode => true | _ => false end) o rnd launcherQuit in
          do _u, s <- startType' l (sType p) (sList p) (sQuestion p) (sMeanings p) s ;; Ok (NoMode, NoOrder) s
      end)).
  { intros km m s1 l1 Hm Hp L1.
    assert (Em : match m with QuizMode => true | _ => false end = (km =? 116)) by (destruct Hm as [[-> ->]|[-> ->]]; reflexivity).
    rewrite Em. assert (Hm' : km = 114 \/ km = 116) by tauto.
    assert (Y : forall ko o s l, order_of ko o -> lines_left (input R s) l ->
      meets R _ (result p rnd) (told (sType p) PType (fun kt => told (sList p) (PList kt) (fun kl => chosen d meaningGroups patternGroups km ko kt kl))) s l
       (match o with
        | NoOrder => Ok (m, NoOrder) s
        | _ => let l := MkLauncher (km =? 116) o rnd launcherQuit in
               do _u, s <- startType' l (sType p) (sList p) (sQuestion p) (sMeanings p) s ;; Ok (NoMode, NoOrder) s
        end)).
    { intros ko o s2 l2 Ho L2. pose proof (T km ko o s2 l2 Hm' Ho L2) as Z. destruct Ho; exact Z. }
    destruct (sOrder p) eqn:Eo; cbn [order_key].
    - eapply meets_impl; [|apply (Y 98 FromBeginning s1 l1); [constructor|exact L1]]. intros ls0 ks0 e ls' D. left. exists 98. auto.
    - eapply meets_impl; [|apply (Y 101 FromEnd s1 l1); [constructor|exact L1]]. intros ls0 ks0 e ls' D. left. exists 101. auto.
    - eapply meets_impl; [|apply (Y 114 RandomOrder s1 l1); [constructor|exact L1]]. intros ls0 ks0 e ls' D. left. exists 114. auto.
    - rewrite rbind_assoc. change (asked R orderRequest s1) with (orAsked R None (requestOf POrder) s1).
      apply meets_told; [exact Logic.I|exact L1|discriminate| | |reflexivity].
      + intros c l s2 _ Hc _ L2. cbn [rbind]. destruct Hc as [<-|[<-|[<-|[]]]]; [apply (Y _ FromBeginning)|apply (Y _ FromEnd)|apply (Y _ RandomOrder)];
          (exact L2 || constructor).
      + intros s2 _. cbn [rbind result_of]. exists m. split; [destruct Hm as [[_ ->]|[_ ->]]; discriminate|]. split; [exact Hp|reflexivity]. }
  (* the mode *)
  destruct (sMode p) eqn:Em; cbn [mode_key].
  - eapply meets_impl; [|apply (O 114 Review s ls); auto]. intros ls0 ks0 e ls' D. left. exists 114. auto.
  - eapply meets_impl; [|apply (O 116 QuizMode s ls); auto]. intros ls0 ks0 e ls' D. left. exists 116. auto.
  - rewrite rbind_assoc. change (asked R modeRequest s) with (orAsked R None (requestOf PMode) s).
    apply meets_told; [exact Logic.I|exact L|discriminate| | |reflexivity].
    + intros c l s1 _ Hc _ L1. cbn [rbind]. destruct Hc as [<-|[<-|[]]]; [apply (O _ Review)|apply (O _ QuizMode)]; auto; congruence.
    + intros s1 _. split; [exact Em|reflexivity].
Qed.
End Start.

(** ** There is one dialog for given lines *)

Definition single (D : dialog) : Prop := forall ls k1 e1 l1 k2 e2 l2, D ls k1 e1 l1 -> D ls k2 e2 l2 -> k1 = k2 /\ e1 = e2 /\ l1 = l2.
Lemma answers_fun : forall (ok : N -> Prop) def l a b, answers ok def l a -> answers ok def l b -> a = b.
Proof. intros ok def l a b [[-> _]|[-> H]] [[E _]|[E H2]]; try congruence; inversion E; reflexivity. Qed.
Lemma reply_fun : forall p ls k1 l1 k2 l2, reply p ls k1 l1 -> reply p ls k2 l2 -> k1 = k2 /\ l1 = l2.
Proof.
  intros p ls k1 l1 k2 l2 H1 H2. inversion H1 as [j1 a1 r1 x1 J1 A1|x1 A1]; subst.
  - inversion H2 as [j2 a2 r2 x2 J2 A2 E|x2 A2 E].
    + subst. clear H1 H2. revert j2 J2 E. induction j1 as [|b j1 IH]; intros j2 J2 E.
      * destruct j2 as [|c j2]; cbn [app] in E; inversion E; subst.
        -- split; [eapply answers_fun; eassumption|reflexivity].
        -- inversion J2 as [|? ? X]; subst. exfalso. exact (X _ A1).
      * destruct j2 as [|c j2]; cbn [app] in E; inversion E; subst.
        -- inversion J1 as [|? ? X]; subst. exfalso. exact (X _ A2).
        -- inversion J1; inversion J2; subst. apply (IH ltac:(assumption) j2); assumption.
    + destruct j1; discriminate.
  - inversion H2 as [j2 a2 r2 x2 J2 A2 E|x2 A2 E]; [destruct j2; discriminate|]. subst. split; [congruence|reflexivity].
Qed.
Lemma reply_silent : forall p ls k l, reply p ls k l -> silent p ls -> False.
Proof.
  intros p ls k l H [S1 S2]. inversion H as [j a r x J A|x A]; subst.
  - apply Forall_app in S1. destruct S1 as [_ S1]. inversion S1 as [|? ? X]; subst. exact (X _ A).
  - destruct S2 as [S2|S2]; [congruence|]. congruence.
Qed.
Lemma single_told : forall given p next, (forall k, single (next k)) -> single (told given p next).
Proof.
  intros given p next H ls k1 e1 l1 k2 e2 l2 [(k & E & D1)|(E & [(k & l & ks & Rp & -> & Q)|(Si & -> & -> & ->)])].
  - intros [(k' & E' & D2)|(E' & _)]; [|congruence]. rewrite E in E'. inversion E'; subst. exact (H _ _ _ _ _ _ _ _ D1 D2).
  - intros [(k' & E' & D2)|(_ & [(k' & l' & ks' & Rp' & -> & Q')|(Si & _)])]; [congruence| |destruct (reply_silent _ _ _ _ Rp Si)].
    destruct (reply_fun _ _ _ _ _ _ Rp Rp') as [-> ->]. destruct Q as [(-> & -> & -> & ->)|(Nk & D1)], Q' as [(X & -> & -> & ->)|(Nk' & D2)];
      try congruence; [auto|]. destruct (H _ _ _ _ _ _ _ _ D1 D2) as [-> [-> ->]]. auto.
  - intros [(k' & E' & D2)|(_ & [(k' & l' & ks' & Rp' & _)|(_ & -> & -> & ->)])]; [congruence|destruct (reply_silent _ _ _ _ Rp' Si)|auto].
Qed.
Lemma single_done : forall e, single (done e).
Proof. intros e ls k1 e1 l1 k2 e2 l2 (-> & -> & ->) (-> & -> & ->). auto. Qed.
Lemma named_fun : forall d t c h1 l1 h2 l2, list_named d t c h1 l1 -> list_named d t c h2 l2 -> h1 = h2 /\ l1 = l2.
Proof.
  assert (F : forall A (l : list (N * A)) c x y, NoDup (map fst l) -> In (c, x) l -> In (c, y) l -> x = y).
  { intros A l c x y. induction l as [|[k v] l IH]; [intros _ []|]. cbn [map fst]. intros ND. inversion ND as [|? ? Hn ND']; subst.
    intros [E1|H1] [E2|H2]; [congruence|..].
    - inversion E1; subst. exfalso. apply Hn. apply (in_map fst) in H2. exact H2.
    - inversion E2; subst. exfalso. apply Hn. apply (in_map fst) in H1. exact H1.
    - apply IH; assumption. }
  intros d t c h1 l1 h2 l2 H1 H2.
  destruct H1 as [b ks Hb E|c g Hg|c g Hg|c g Hg].
  - inversion H2 as [b' ks' Hb' E' E1 E2 E3 E4| | |]. assert (b' = b) by lia. subst. split; [reflexivity|congruence].
  - inversion H2 as [|c' g' Hg' E1 E2 E3 E4| |]. subst. split; [reflexivity|].
    assert (E : g = g') by (refine (F _ _ _ _ _ _ Hg Hg'); cbn [map fst]; repeat constructor; cbn [In]; intuition discriminate). rewrite E. reflexivity.
  - inversion H2 as [| |c' g' Hg' E1 E2 E3 E4|]. subst. split; [reflexivity|].
    assert (E : g = g') by (refine (F _ _ _ _ _ _ Hg Hg'); cbn [map fst]; repeat constructor; cbn [In]; intuition discriminate). rewrite E. reflexivity.
  - inversion H2 as [| | |c' g' Hg' E1 E2 E3 E4]. subst. split; [reflexivity|].
    assert (E : g = g') by (refine (F _ _ _ _ _ _ Hg Hg'); cbn [map fst]; repeat constructor; cbn [In]; intuition discriminate). rewrite E. reflexivity.
Qed.
Lemma groups_fun : forall a b t c g1 m1 g2 m2, groups_named a b t c g1 m1 -> groups_named a b t c g2 m2 -> g1 = g2 /\ m1 = m2.
Proof.
  intros a b t c g1 m1 g2 m2 H1 H2. inversion H1 as [t1 c1 x1 y1 A1 B1]; subst. inversion H2 as [t2 c2 x2 y2 A2 B2]; subst. clear H1 H2. split.
  - destruct A1 as [A1|[A1|[]]], A2 as [A2|[A2|[]]]; congruence.
  - cbn [In] in B1, B2. intuition congruence.
Qed.
Lemma groups_not_list : forall d a b t c g m h l, groups_named a b t c g m -> list_named d t c h l -> False.
Proof.
  intros d a b t c g m h l H1 H2. inversion H1 as [t1 c1 x1 y1 A1 B1]; subst. clear H1.
  destruct A1 as [A1|[A1|[]]]; inversion A1; subst; inversion H2.
Qed.
Lemma single_chosen : forall d a b km ko kt kl, single (chosen d a b km ko kt kl).
Proof.
  intros d a b km ko kt kl ls k1 e1 l1 k2 e2 l2 (o1 & Ho1 & D1) (o2 & Ho2 & D2).
  assert (o2 = o1) by (destruct Ho1; inversion Ho2; reflexivity). subst o2.
  destruct D1 as [(g1 & m1 & N1 & D1)|(h1 & x1 & N1 & D1)], D2 as [(g2 & m2 & N2 & D2)|(h2 & x2 & N2 & D2)].
  - destruct (groups_fun _ _ _ _ _ _ _ _ N1 N2) as [-> ->]. exact (single_done _ _ _ _ _ _ _ _ D1 D2).
  - destruct (groups_not_list _ _ _ _ _ _ _ _ _ N1 N2).
  - destruct (groups_not_list _ _ _ _ _ _ _ _ _ N2 N1).
  - destruct (named_fun _ _ _ _ _ _ _ N1 N2) as [-> ->]. destruct D1 as [[E1 D1]|[E1 D1]], D2 as [[E2 D2]|[E2 D2]]; try congruence.
    + exact (single_done _ _ _ _ _ _ _ _ D1 D2).
    + revert D1 D2. apply single_told. intro n. apply single_told. intros st ls0 k3 e3 l3 k4 e4 l4 (s3 & S3 & D3) (s4 & S4 & D4).
      assert (s4 = s3) by (destruct S3; inversion S4; reflexivity). subst s4. exact (single_done _ _ _ _ _ _ _ _ D3 D4).
Qed.
Lemma single_start : forall d a b p, single (start_dialog d a b p).
Proof. intros. unfold start_dialog. do 4 (apply single_told; intro). apply single_chosen. Qed.

(** ** Settings from options *)

Lemma settings_from_options : forall l os p, options l os -> settings os p -> from_options p.
Proof.
  intros l os p [F [O1 O2]] [S1 [S2 [S3 [S4 S5]]]].
  assert (Dc : forall o, In o os -> exists a, documented a o).
  { intros o Ho. clear -F Ho. induction F as [|a o' l os D F IH]; [destruct Ho|]. destruct Ho as [->|Ho]; [exists a; exact D|exact (IH Ho)]. }
  assert (T : (exists t l, In (OType t l) os) \/ (forall t l, ~ In (OType t l) os)).
  { clear. induction os as [|o os [(t & l & H)|H]]; [right; intros t l []|left; exists t, l; right; exact H|].
    destruct o as [m o q|t l|]; [right; intros t l [E|E]; [discriminate|exact (H _ _ E)]|left; exists t, l; left; reflexivity|
      right; intros t l [E|E]; [discriminate|exact (H _ _ E)]]. }
  split; [|split].
  - intros t E. destruct T as [(t' & l' & H)|H].
    + destruct (S3 _ _ H) as [E1 _]. rewrite E in E1. inversion E1; subst t'. destruct (Dc _ H) as (a & D). inversion D; subst; eauto.
    + destruct (S4 H) as [E1 _]. congruence.
  - intros c E. destruct T as [(t' & l' & H)|H].
    + destruct (S3 _ _ H) as [E1 E2]. rewrite E in E2. subst l'. destruct (Dc _ H) as (a & D). inversion D; subst. eauto.
    + destruct (S4 H) as [_ E1]. congruence.
  - intro E. assert (N : forall m o q, ~ In (OMode m o q) os).
    { intros m o q H. destruct (S1 _ _ _ H) as [E1 _]. destruct (Dc _ H) as (a & D).
      assert (m <> NoMode) by (inversion D as [x0 m0 ML|x0 m0 ML|x0 m0 s0 ML|x0 m0 s0 ML|x0 m0 s0 ML| | |]; subst; destruct ML as [[_ X]|[_ X]]; congruence).
      congruence. }
    exact (proj1 (proj2 (S2 N))).
Qed.

(** ** What is asked *)

Lemma told_split : forall given q next ls keys e ls', told given q next ls keys e ls' ->
  exists pre rest, keys = pre ++ rest /\ (pre = [] \/ (given = None /\ exists k, pre = [(q, k)]))
    /\ (rest = [] \/ exists k l e' l', (given = None \/ given = Some k) /\ next k l rest e' l').
Proof.
  intros given q next ls keys e ls' [(k & E & D)|(E & [(k & l & ks' & Rp & -> & [(-> & -> & -> & ->)|(Nk & D)])|(_ & -> & _)])].
  - exists [], keys. split; [reflexivity|]. split; [auto|]. right. exists k, ls, e, ls'. auto.
  - exists [(q, 47)], []. split; [reflexivity|]. split; [right; split; [exact E|exists 47; reflexivity]|auto].
  - exists [(q, k)], ks'. split; [reflexivity|]. split; [right; split; [exact E|exists k; reflexivity]|]. right. exists k, l, e, ls'. auto.
  - exists [], []. auto.
Qed.
Definition opt_list (x : prompt) (P : Prop) (l : list prompt) : Prop := l = [] \/ (P /\ l = [x]).
Lemma start_asks : forall d mg pg p ls keys e ls', start_dialog d mg pg p ls keys e ls' ->
  exists a b c t x y kt, map fst keys = a ++ b ++ c ++ t ++ x ++ y
    /\ opt_list PMode (sMode p = NoMode) a /\ opt_list POrder (sOrder p = NoOrder) b /\ opt_list PType (sType p = None) c
    /\ opt_list (PList kt) (sList p = None) t /\ opt_list PCount (sMode p <> Review) x /\ opt_list PStyle (sMode p <> Review) y.
Proof.
  intros d mg pg p ls keys e ls' H. unfold start_dialog in H.
  assert (O : forall (given : option N) q pre (P : Prop), (pre = [] \/ (given = None /\ exists k : N, pre = [(q, k)])) -> (given = None -> P) -> opt_list q P (map fst pre)).
  { intros given q pre P [->|(E & k & ->)] X; [left; reflexivity|]. right. split; [apply X; exact E|reflexivity]. }
  assert (Em : mode_key (sMode p) = None -> sMode p = NoMode) by (destruct (sMode p); [discriminate..|reflexivity]).
  assert (Eo : order_key (sOrder p) = None -> sOrder p = NoOrder) by (destruct (sOrder p); [discriminate..|reflexivity]).
  assert (Z : forall x P, opt_list x P []) by (intros; left; reflexivity).
  destruct (told_split _ _ _ _ _ _ _ H) as (p1 & r1 & -> & O1 & [->|(km & l1 & e1 & m1 & G1 & H1)]).
  { exists (map fst p1), [], [], [], [], [], 0. rewrite app_nil_r. cbn [app]. rewrite app_nil_r. split; [reflexivity|].
    split; [exact (O _ _ _ _ O1 Em)|auto 10]. }
  destruct (told_split _ _ _ _ _ _ _ H1) as (p2 & r2 & -> & O2 & [->|(ko & l2 & e2 & m2 & _ & H2)]).
  { exists (map fst p1), (map fst p2), [], [], [], [], 0. rewrite app_nil_r, map_app. cbn [app]. rewrite app_nil_r. split; [reflexivity|].
    split; [exact (O _ _ _ _ O1 Em)|]. split; [exact (O _ _ _ _ O2 Eo)|auto 10]. }
  destruct (told_split _ _ _ _ _ _ _ H2) as (p3 & r3 & -> & O3 & [->|(kt & l3 & e3 & m3 & _ & H3)]).
  { exists (map fst p1), (map fst p2), (map fst p3), [], [], [], 0. rewrite app_nil_r, !map_app. cbn [app]. rewrite app_nil_r. split; [reflexivity|].
    split; [exact (O _ _ _ _ O1 Em)|]. split; [exact (O _ _ _ _ O2 Eo)|]. split; [exact (O _ _ _ _ O3 (fun x => x))|auto 10]. }
  destruct (told_split _ _ _ _ _ _ _ H3) as (p4 & r4 & -> & O4 & [->|(kl & l4 & e4 & m4 & _ & H4)]).
  { exists (map fst p1), (map fst p2), (map fst p3), (map fst p4), [], [], kt. rewrite app_nil_r, !map_app. cbn [app]. rewrite app_nil_r. split; [reflexivity|].
    split; [exact (O _ _ _ _ O1 Em)|]. split; [exact (O _ _ _ _ O2 Eo)|]. split; [exact (O _ _ _ _ O3 (fun x => x))|].
    split; [exact (O _ _ _ _ O4 (fun x => x))|auto 10]. }
  exists (map fst p1), (map fst p2), (map fst p3), (map fst p4).
  assert (Y : exists x y, map fst r4 = x ++ y /\ opt_list PCount (sMode p <> Review) x /\ opt_list PStyle (sMode p <> Review) y).
  { destruct H4 as (o & _ & [(gs & m & _ & (-> & _))|(hid & lst & _ & [(_ & (-> & _))|(Ek & D)])]); [exists [], []; auto..|].
    assert (NR : sMode p <> Review) by (intro E; rewrite E in G1; cbn [mode_key] in G1; destruct G1 as [G1|G1]; [discriminate|]; inversion G1; subst km; discriminate).
    destruct (told_split _ _ _ _ _ _ _ D) as (p5 & r5 & -> & O5 & [->|(n & l5 & e5 & m5 & _ & H5)]).
    - exists (map fst p5), []. rewrite !app_nil_r. split; [reflexivity|]. split; [exact (O _ _ _ _ O5 (fun _ => NR))|auto].
    - destruct (told_split _ _ _ _ _ _ _ H5) as (p6 & r6 & -> & O6 & H6).
      assert (E6 : r6 = []) by (destruct H6 as [->|(st & l6 & e6 & m6 & _ & (sty & _ & (-> & _)))]; reflexivity). subst r6.
      exists (map fst p5), (map fst p6). rewrite app_nil_r, map_app. split; [reflexivity|]. split; [exact (O _ _ _ _ O5 (fun _ => NR))|exact (O _ _ _ _ O6 (fun _ => NR))]. }
  destruct Y as (x & y & Y & Ox & Oy). exists x, y, kt. rewrite !map_app, Y. split; [reflexivity|].
  split; [exact (O _ _ _ _ O1 Em)|]. split; [exact (O _ _ _ _ O2 Eo)|]. split; [exact (O _ _ _ _ O3 (fun x => x))|].
  split; [exact (O _ _ _ _ O4 (fun x => x))|]. auto.
Qed.
