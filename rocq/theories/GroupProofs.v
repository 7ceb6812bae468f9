(** Proofs about group quizzes: what the code does is what the table tells. *)
From Verif Require Import BaseFacts.
From Verif Require Export GroupLemmas.
Open Scope N_scope.
Arguments N.add : simpl never.
Arguments N.sub : simpl never.
Arguments N.mul : simpl never.
Arguments u16 : simpl never.
Arguments u64 : simpl never.

Lemma reads_snoc_end : forall q ls ps p, reads q ls ps [] -> rqDefault (sRequest p) = Some (sKey p) -> reads q ls (ps ++ [p]) [].
Proof.
  intros q ls ps p H. remember [] as e eqn:E in H. induction H as [ls|x ls p0 ps rest Hx Hn H IH|x ls p0 ps rest Hx H IH|p0 ps rest Hd H IH]; intro D.
  - subst. cbn [app]. apply reads_end; [exact D|constructor].
  - cbn [app] in *. apply reads_junk; auto.
  - cbn [app] in *. apply reads_key; auto.
  - cbn [app] in *. apply reads_end; auto.
Qed.
Lemma answers_permitted : forall q rq la c, proper q rq -> answers (permitted q rq) (rqDefault rq) la c -> permitted q rq c.
Proof. intros q rq la c P H. destruct H as [[_ H]|[_ H]]; [exact H|]. destruct P as [_ [_ [_ [_ [_ P]]]]]. apply P. exact H. Qed.

Section Group.
Variable R : Type.
Variable shuffle : list QKanji -> R -> list QKanji * R.
Variable otherNumber : GroupType -> bytes -> option N.
Variable l : Launcher.
Variable ty : GroupType.
Variable m : MemberType.
Variable gs : list Group.
Variable entry : QKanji -> bytes.
Hypothesis Hshuffle : shuffles shuffle.
Hypothesis Hquit : quitOption l = launcherQuit.
Hypothesis Hlen : len gs <= 65535.
Hypothesis Hsize : Forall (fun g => (length (gMembers g) <= 58)%nat) gs.
Hypothesis Hentry : forall g k, In g gs -> In k (filter (includeMember m) (gMembers g)) -> entryText otherNumber l ty k = Val (entry k).
Notation State := (State R).
Notation table := (table R).
Implicit Type s : State.
Implicit Type t : table.
Notation quiz := (isQuizMode l).
Notation count := (len gs).
Notation printed s := (snd (transcript [] (events R s))).
Notation prompts s := (fst (transcript [] (events R s))).
Notation Played := (played R shuffle l m gs entry).
Notation After := (table_after R shuffle l m gs entry).
Notation Script := (script R shuffle l m gs entry).
Notation Asks := (asks R l gs).
Notation Painted := (painted R l gs entry).
Notation Opened := (opened R shuffle l m gs entry).
Notation Playable := (playable R shuffle l m gs entry launcherQuit).
Notation Finished := (finished R gs).
Notation Keys t := (listing (offered_key R l t) (described R l gs t)).
Notation lettersOf t := (letters (size R t)).

(** ** The script *)
Lemma after_snoc : forall t ks k, After t (ks ++ [k]) = fst (Played (After t ks) k).
Proof. intros. unfold table_after. rewrite fold_left_app. reflexivity. Qed.
Lemma script_snoc : forall ks t h k, Script t h (ks ++ [k])
  = (fst (Script t h ks) ++ [MkSeen (snd (Script t h ks)) (Asks (After t ks)) k], snd (Played (After t ks) k)).
Proof.
  induction ks as [|x ks IH]; intros t h k; cbn [app script table_after fold_left].
  - destruct (Played t k). reflexivity.
  - destruct (Played t x) as [t' y] eqn:E. rewrite IH. destruct (Script t' y ks) as [ps e]. reflexivity.
Qed.
Lemma script_keys : forall ks t h, map sKey (fst (Script t h ks)) = ks.
Proof.
  induction ks as [|x ks IH]; intros t h; cbn [script]; [reflexivity|]. destruct (Played t x) as [t' y]. specialize (IH t' y).
  destruct (Script t' y ks) as [ps e]. cbn [fst map sKey] in *. rewrite IH. reflexivity.
Qed.
Lemma playable_snoc : forall ks t k, Playable t (ks ++ [k]) <->
  Playable t ks /\ Finished (After t ks) = false /\ permitted launcherQuit (Asks (After t ks)) k /\ ~ overfull R (After t ks) k.
Proof.
  induction ks as [|x ks IH]; intros t k; cbn [app playable table_after fold_left]; [tauto|].
  change (fold_left _ ks (fst (Played t x))) with (After (fst (Played t x)) ks). rewrite IH. tauto.
Qed.

(** ** Tables that can be met *)
Record WF (t : table) : Prop := MkWF {
  W_quit : tQuit R t = false; W_pos : tPos R t < count;
  W_same : length (tReadings R t) = size R t; W_size : (0 < size R t <= 58)%nat;
  W_nodup : NoDup (tSheet R t); W_incl : forall c, In c (tSheet R t) -> In c (lettersOf t);
  W_short : (length (tSheet R t) < size R t)%nat;
  W_review : quiz = false -> tSheet R t = [];
  W_entry : forall k, In k (tQuestions R t) -> entryText otherNumber l ty k = Val (entry k);
  W_phase : match tPhase R t with Choosing => True | Picking => tSheet R t <> [] | Replacing e => (e < length (tSheet R t))%nat end }.
Lemma wf_finished : forall t, WF t -> Finished t = false.
Proof. intros t W. unfold finished. rewrite (W_quit t W). pose proof (W_pos t W). cbn [orb]. lia. Qed.
Lemma wf_letters : forall t c, WF t -> In c (tSheet R t) -> 65 <= c <= 122.
Proof. intros t c W H. apply (letters_range (size R t)); [apply (W_size t W)|apply (W_incl t W), H]. Qed.

Lemma offered_range : forall t c, WF t -> offered_key R l t c = true -> (39 <= c <= 46 \/ 65 <= c <= 122).
Proof.
  intros t c W H. unfold offered_key in H. destruct (c =? 45) eqn:E1; [lia|]. destruct (c =? 46) eqn:E2; [lia|]. cbn [orb] in H. destruct quiz.
  - apply orb_prop in H. destruct H as [H|H]; [lia|]. apply andb_prop in H. destruct H as [H _]. apply member_iff in H. right.
    apply (letters_range (size R t)); [apply (W_size t W)|exact H].
  - lia.
Qed.
Lemma asks_proper : forall t, WF t -> proper launcherQuit (Asks t).
Proof.
  intros t W. unfold asks. destruct (tPhase R t) as [| |e] eqn:P.
  - unfold proper, permitted. cbn [rqChoices rqRange rqUseQuit rqDefault]. split; [apply listing_map|]. split; [|split; [|split; [discriminate|split; [|discriminate]]]].
    + exists 45. left. apply listing_key. split; [reflexivity|lia].
    + intros c [H|[[a [b [H _]]]|[_ [d [= <- _]]]]]; [|discriminate|unfold printable; lia]. apply listing_key in H. destruct H as [H _].
      apply (offered_range t c W) in H. unfold printable. lia.
    + intros c d [= <- _]. split; [|discriminate]. intro H. apply listing_key in H. destruct H as [H _]. apply (offered_range t _ W) in H. lia.
  - unfold proper, permitted. cbn [rqChoices rqRange rqUseQuit rqDefault]. split; [apply listing_map|]. split; [|split; [|split; [discriminate|split; [|discriminate]]]].
    + pose proof (W_phase t W) as Q. rewrite P in Q. destruct (tSheet R t) as [|c r] eqn:E; [congruence|]. exists c. left. apply listing_key.
      assert (X : In c (tSheet R t)) by (rewrite E; left; reflexivity). split; [rewrite <- E; apply member_iff; exact X|]. pose proof (wf_letters t c W X). lia.
    + intros c [H|[[a [b [H _]]]|[H _]]]; [|discriminate|discriminate]. apply listing_key in H. destruct H as [H _]. apply member_iff in H.
      pose proof (wf_letters t c W H). unfold printable. lia.
    + intros c d [= <- _]. split; [|discriminate]. intro H. apply listing_key in H. destruct H as [H _]. apply member_iff in H. pose proof (wf_letters t _ W H). lia.
  - pose proof (W_phase t W) as Q. rewrite P in Q.
    assert (X : In (nth e (tSheet R t) 0) (tSheet R t)) by (apply nth_In; exact Q). pose proof (wf_letters t _ W X) as X2.
    assert (Y : forall c, (c =? nth e (tSheet R t) 0) || (member c (lettersOf t) && negb (member c (tSheet R t))) = true -> 65 <= c <= 122).
    { intros c H. apply orb_prop in H. destruct H as [H|H]; [apply N.eqb_eq in H; subst; exact X2|]. apply andb_prop in H. destruct H as [H _]. apply member_iff in H.
      apply (letters_range (size R t)); [apply (W_size t W)|exact H]. }
    unfold proper, permitted. cbn [rqChoices rqRange rqUseQuit rqDefault]. split; [apply listing_map|]. split; [|split; [|split; [discriminate|split]]].
    + exists (nth e (tSheet R t) 0). left. apply listing_key. rewrite N.eqb_refl. split; [reflexivity|lia].
    + intros c [H|[[a [b [H _]]]|[H _]]]; [|discriminate|discriminate]. apply listing_key in H. destruct H as [H _]. apply Y in H. unfold printable. lia.
    + intros c d [= <- _]. split; [|discriminate]. intro H. apply listing_key in H. destruct H as [H _]. apply Y in H. lia.
    + intros c [= <-]. left. apply listing_key. rewrite N.eqb_refl. split; [reflexivity|lia].
Qed.

(** ** The state of the code and the table *)
Record Agree (s : State) (t : table) : Prop := MkAgree {
  A_cur : current R s = tPos R t; A_mean : meanings R s = tShown R t; A_cor : correctAnswers R s = tRight R t;
  A_mis : mistakes R s = tWrong R t; A_rng : rng R s = tRng R t }.
(** what [Choice] and printing leave alone *)
Record Same (s s' : State) : Prop := MkSame {
  S_cur : current R s' = current R s; S_mean : meanings R s' = meanings R s; S_cor : correctAnswers R s' = correctAnswers R s;
  S_mis : mistakes R s' = mistakes R s; S_rng : rng R s' = rng R s }.
Lemma same_refl : forall s, Same s s.
Proof. intros. constructor; reflexivity. Qed.
Lemma same_trans : forall s s1 s2, Same s s1 -> Same s1 s2 -> Same s s2.
Proof. intros s s1 s2 [A1 A2 A3 A4 A5] [B1 B2 B3 B4 B5]. constructor; congruence. Qed.
Lemma same_printed : forall x s s', Printed R x s s' -> Same s s'.
Proof. intros x s s' [A1 A2 A3 A4 A5 A6 A7 A8]. constructor; assumption. Qed.
Lemma agree_same : forall s s' t, Same s s' -> Agree s t -> Agree s' t.
Proof. intros s s' t [A1 A2 A3 A4 A5] [B1 B2 B3 B4 B5]. constructor; congruence. Qed.

Variable t0 : table.
Variable hd : bytes.
Variable ls0 : list bytes.
(** the prompts before the first group *)
Variable ps0 : list seen.

(** the keys [ks] were given, and [txt] remains to be printed before the next prompt *)
Record Track (s : State) (ks : list N) (txt : bytes) : Prop := MkTrack {
  T_prompts : prompts s = ps0 ++ fst (Script t0 hd ks);
  T_text : printed s ++ txt = snd (Script t0 hd ks);
  T_reads : exists rest, lines_left (input R s) rest /\ reads launcherQuit ls0 (prompts s) rest }.
Lemma track_printed : forall s s' ks x txt, Track s ks (x ++ txt) -> Printed R x s s' -> Track s' ks txt.
Proof.
  intros s s' ks x txt [H1 H2 H3] P. constructor.
  - rewrite (P_prompts _ _ _ _ P). exact H1.
  - rewrite (P_text _ _ _ _ P), <- app_assoc. exact H2.
  - rewrite (P_in _ _ _ _ P), (P_prompts _ _ _ _ P). exact H3.
Qed.
Lemma track_events : forall s s' ks txt, Track s ks txt -> events R s' = events R s -> input R s' = input R s -> Track s' ks txt.
Proof. intros s s' ks txt [H1 H2 H3] E I. constructor; rewrite E; [exact H1|exact H2|rewrite I; exact H3]. Qed.

(** the lines left answer nothing that is asked *)
Definition Stuck : Prop := exists ks rest, Playable t0 ks /\ Finished (After t0 ks) = false
  /\ reads launcherQuit ls0 (ps0 ++ fst (Script t0 hd ks)) rest
  /\ no_answer (permitted launcherQuit (Asks (After t0 ks))) (rqDefault (Asks (After t0 ks))) rest
  /\ (rest <> [] \/ rqDefault (Asks (After t0 ks)) = None).
(** [n] more keys were read *)
Definition Short (n : nat) (ks : list N) : Prop := exists ks' rest,
  reads launcherQuit ls0 (ps0 ++ fst (Script t0 hd ks')) rest /\ (n + length ks <= length ks')%nat.
Lemma ask_track : forall s ks, Track s ks [] -> WF (After t0 ks) -> Playable t0 ks ->
  (ask R (quitOption l) (Asks (After t0 ks)) s = NoReturn /\ Stuck)
  \/ exists k s', ask R (quitOption l) (Asks (After t0 ks)) s = Ok k s' /\ permitted launcherQuit (Asks (After t0 ks)) k
       /\ Track s' (ks ++ [k]) (snd (Played (After t0 ks) k)) /\ Same s s'.
Proof.
  intros s ks [H1 H2 [rest [H3 H4]]] W PLK. rewrite Hquit. rewrite app_nil_r in H2. pose proof (asks_proper _ W) as P. set (rq := Asks (After t0 ks)) in *.
  destruct (ask_cases R launcherQuit rq s rest P H3) as [[junk [la [c [rest' [i [w [E [E2 [Ha [Hj Hl]]]]]]]]]]|[[E0 [d [w [Hd E]]]]|[E [NA ND]]]].
  - right. exists c. eexists. split; [exact E|]. split; [eapply answers_permitted; eassumption|]. split; [|constructor; reflexivity].
    constructor; rewrite printed_ask, ?script_snoc; cbn [fst snd].
    + rewrite H1, H2, app_assoc. reflexivity.
    + reflexivity.
    + exists rest'. split; [exact Hl|]. eapply reads_snoc; [exact H4|exact E2|exact Ha|exact Hj].
  - right. exists d. eexists. split; [exact E|]. split; [destruct P as [_ [_ [_ [_ [_ P]]]]]; apply P; exact Hd|]. split; [|constructor; reflexivity].
    constructor; rewrite printed_ask, ?script_snoc; cbn [fst snd].
    + rewrite H1, H2, app_assoc. reflexivity.
    + reflexivity.
    + exists []. subst rest. split; [exact H3|]. apply reads_snoc_end; [exact H4|exact Hd].
  - left. split; [exact E|]. exists ks, rest. split; [exact PLK|]. split; [apply wf_finished; exact W|]. rewrite <- H1. auto.
Qed.

(** ** Texts *)
Lemma sheet_printed : forall sheet s, Printed R (sheet_text sheet) s (printAssignedAnswers R sheet s).
Proof.
  assert (K : forall sheet i, assignedText (N.of_nat i) sheet
    = flat_map (fun p => b_ " " ++ number (fst p) ++ b_ "->" ++ [snd p]) (combine (seq i (length sheet)) sheet)).
  { induction sheet as [|c sheet IH]; intro i; [reflexivity|]. cbn [assignedText length seq combine flat_map fst snd]. unfold number at 1.
    replace (N.of_nat i + 1) with (N.of_nat (S i)) by lia. rewrite IH, <- !app_assoc. reflexivity. }
  intros sheet s. unfold printAssignedAnswers, sheet_text. destruct sheet as [|c sheet]; [apply Printed_refl|].
  rewrite <- (K (c :: sheet) 0%nat). eapply Printed_eq; [apply Printed_print|reflexivity].
Qed.
Lemma assigned_eq : forall sheet c, assignedTo 0 sheet c = assigned sheet c.
Proof.
  assert (K : forall sheet i c, assignedTo (N.of_nat i) sheet c
    = match option_map (fun j => (i + N.to_nat j)%nat) (indexOf c sheet) with Some j => to_right 2 (number j) ++ b_ "->" | None => b_ "    " end).
  { induction sheet as [|x sheet IH]; intros i c; [reflexivity|]. cbn [assignedTo indexOf]. destruct (x =? c); cbn [option_map].
    - unfold putSetw, to_right, number. change (N.to_nat 0) with 0%nat. rewrite Nat.add_0_r. replace (N.of_nat i + 1) with (N.of_nat (S i)) by lia. reflexivity.
    - replace (N.of_nat i + 1) with (N.of_nat (S i)) by lia. rewrite IH. destruct (indexOf c sheet); cbn [option_map]; [|reflexivity].
      rewrite N2Nat.inj_succ. replace (S i + N.to_nat n)%nat with (i + S (N.to_nat n))%nat by lia. reflexivity. }
  intros sheet c. unfold assigned. change (assignedTo 0 sheet c) with (assignedTo (N.of_nat 0) sheet c). rewrite (K sheet 0%nat c), place_index. destruct (indexOf c sheet); reflexivity.
Qed.
Lemma choice_letter : forall j, (j < 58)%nat -> memberChoice l (N.of_nat j) = Val (if quiz then letter j else 32).
Proof.
  intros j H. unfold memberChoice. destruct quiz; [|reflexivity].
  assert (E : (if N.of_nat j <? TotalLetters then 97 + N.of_nat j else 65 + N.of_nat j - TotalLetters) = letter j).
  { unfold letter, TotalLetters. destruct (j <? 26)%nat eqn:F; [apply Nat.ltb_lt in F|apply Nat.ltb_ge in F].
    - replace (N.of_nat j <? 26) with true by lia. reflexivity.
    - replace (N.of_nat j <? 26) with false by lia. lia. }
  rewrite E. pose proof (letter_range j H). unfold toChar_int. cbn [andb negb].
  replace (Z.of_N (letter j) <? -128)%Z with false by lia. replace (255 <? Z.of_N (letter j))%Z with false by lia.
  rewrite Z.mod_small by lia. rewrite N2Z.id. reflexivity.
Qed.
Lemma show_rows : forall qs rs j sheet again ch s, length rs = length qs -> (j + length qs <= 58)%nat ->
  (forall k, In k qs -> entryText otherNumber l ty k = Val (entry k)) ->
  exists s', showMembers R otherNumber l ty (N.of_nat j) qs rs sheet again ch s
      = Ok (if negb again && quiz then fold_left (fun m k => setKey k [] m) (map letter (seq j (length qs))) ch else ch) s'
    /\ Printed R (rows l entry (meanings R s) sheet j qs rs) s s'.
Proof.
  induction qs as [|q qs IH]; intros rs j sheet again ch s L B E; cbn [showMembers length seq map fold_left].
  - destruct rs; [|discriminate]. eexists. split; [destruct (negb again && quiz); reflexivity|]. cbn [rows]. apply Printed_print.
  - destruct rs as [|r rs]; [discriminate|]. cbn [length] in L, B. rewrite choice_letter by lia. cbn [lift rbind].
    rewrite (E q (or_introl eq_refl)). cbn [lift rbind]. set (c := if quiz then letter j else 32).
    set (s1 := print R (putSetw false 32 4 (to_string (N.of_nat j + 1)) ++ b_ ":  ") s).
    set (s2 := print R (entry q ++ assignedTo 0 sheet c ++ [c] ++ b_ ":  " ++ qReading r) s1).
    set (s3 := printMeaning R r false (meanings R s2) s2).
    replace (N.of_nat j + 1) with (N.of_nat (S j)) in * by lia.
    destruct (IH rs (S j) sheet again (if negb again && quiz then setKey c [] ch else ch) s3) as [s' [E1 P]]; [lia|lia|intros k Hk; apply E; right; exact Hk|].
    exists s'. split.
    + rewrite E1. unfold c. destruct again, quiz; reflexivity.
    + cbn [rows]. change (meanings R s3) with (meanings R s) in P. eapply Printed_trans; [|exact P].
      eapply Printed_eq; [eapply Printed_trans; [apply Printed_print|eapply Printed_trans; [apply Printed_print|apply Printed_print]]|].
      unfold row. fold c. rewrite assigned_eq. change (meanings R s2) with (meanings R s). unfold meaning_text, hasMeaning. rewrite len_nonempty.
      rewrite <- !app_assoc. unfold putSetw, to_right, number. replace (N.of_nat j + 1) with (N.of_nat (S j)) by lia. reflexivity.
Qed.

(** ** The choices *)
Lemma sheet_wf : forall t sheet p, WF t -> NoDup sheet -> (forall c, In c sheet -> In c (lettersOf t)) -> (length sheet < size R t)%nat ->
  (quiz = false -> sheet = []) -> match p with Choosing => True | Picking => sheet <> [] | Replacing e => (e < length sheet)%nat end ->
  WF (with_sheet R t sheet p).
Proof. intros t sheet p [W1 W2 W3 W4 W5 W6 W7 W8 W9 W10] H1 H2 H3 H4 H5. constructor; assumption. Qed.
Lemma shown_wf : forall t b, WF t -> WF (with_shown R t b).
Proof. intros t b [W1 W2 W3 W4 W5 W6 W7 W8 W9 W10]. constructor; assumption. Qed.

Lemma toggled_keys : forall t, setKey 45 (if negb (tShown R t) then b_ "hide meanings" else b_ "show meanings") (Keys t) = Keys (with_shown R t (negb (tShown R t))).
Proof.
  intro t. rewrite setKey_listing by lia. apply listing_ext.
  - intros c _. destruct (c =? 45) eqn:E; [|reflexivity]. unfold offered_key. rewrite E. reflexivity.
  - intros c _ _. unfold described. cbn [with_shown tShown tPos]. destruct (c =? 45) eqn:E; [|reflexivity].
    replace (c =? 39) with false by lia. replace (c =? 42) with false by lia. replace (c =? 44) with false by lia. reflexivity.
Qed.
Lemma letter_described : forall t c, 65 <= c -> described R l gs t c = [].
Proof.
  intros t c H. unfold described. replace (c =? 39) with false by lia. replace (c =? 42) with false by lia. replace (c =? 44) with false by lia.
  replace (c =? 45) with false by lia. replace (c =? 46) with false by lia. reflexivity.
Qed.
Lemma letter_offered : forall t c, 65 <= c -> offered_key R l t c = quiz && (member c (lettersOf t) && negb (member c (tSheet R t))).
Proof.
  intros t c H. unfold offered_key. replace (c =? 39) with false by lia. replace (c =? 42) with false by lia. replace (c =? 44) with false by lia.
  replace (c =? 45) with false by lia. replace (c =? 46) with false by lia. destruct quiz; reflexivity.
Qed.
Lemma small_no_letter : forall n c, (n <= 58)%nat -> c < 65 -> member c (letters n) = false.
Proof. intros n c H K. apply member_false. intro X. apply letters_range in X; [lia|exact H]. Qed.
(** giving a letter *)
Lemma given_keys : forall t k, WF t -> quiz = true -> In k (lettersOf t) ->
  (let c := eraseKey k (Keys t) in
   if len (tSheet R t ++ [k]) =? 1 then setKey 39 (b_ "refresh") (setKey 42 (b_ "edit") c) else c)
  = Keys (with_sheet R t (tSheet R t ++ [k]) Choosing).
Proof.
  intros t k W Q Hk. pose proof (W_size t W) as WS. pose proof (letters_range _ _ (proj2 WS) Hk) as Rk. cbv zeta. rewrite eraseKey_listing.
  assert (MS : forall c, member c (tSheet R t ++ [k]) = member c (tSheet R t) || (c =? k)).
  { intro c. unfold member. rewrite existsb_app. cbn [existsb]. rewrite orb_false_r. reflexivity. }
  assert (L1 : len (tSheet R t ++ [k]) =? 0 = false) by (unfold len; rewrite app_length; cbn [length]; lia).
  assert (L2 : (len (tSheet R t ++ [k]) =? 1) = (len (tSheet R t) =? 0)) by (unfold len; rewrite app_length; cbn [length]; lia).
  assert (OK : forall c, offered_key R l (with_sheet R t (tSheet R t ++ [k]) Choosing) c
     = (c =? 45) || (c =? 46) || ((c =? 39) || (c =? 42) || (member c (lettersOf t) && negb (member c (tSheet R t) || (c =? k))))).
  { intro c. unfold offered_key. rewrite Q. cbn [with_sheet tSheet]. rewrite L1, MS. unfold size. cbn [with_sheet tQuestions negb]. rewrite andb_true_r. reflexivity. }
  assert (DE : forall c, described R l gs (with_sheet R t (tSheet R t ++ [k]) Choosing) c = described R l gs t c) by reflexivity.
  rewrite L2. destruct (len (tSheet R t) =? 0) eqn:E.
  - rewrite !setKey_listing by lia. apply listing_ext.
    + intros c _. rewrite OK. unfold offered_key. rewrite Q, E. cbn [negb]. rewrite andb_false_r. cbn [orb].
      destruct (N.lt_ge_cases c 65).
      * rewrite (small_no_letter _ c (proj2 WS)) by assumption. replace (c =? k) with false by lia.
        destruct (c =? 39), (c =? 42), (c =? 45), (c =? 46); reflexivity.
      * replace (c =? 39) with false by lia. replace (c =? 42) with false by lia. replace (c =? 45) with false by lia. replace (c =? 46) with false by lia. cbn [orb].
        destruct (c =? k), (member c (tSheet R t)), (member c (lettersOf t)); reflexivity.
    + intros c _ _. rewrite DE. unfold described. destruct (c =? 39) eqn:E1; [reflexivity|]. destruct (c =? 42) eqn:E2; reflexivity.
  - apply listing_ext; [|reflexivity]. intros c _. rewrite OK. unfold offered_key. rewrite Q, E. cbn [negb]. rewrite andb_true_r.
    destruct (c =? k) eqn:Ek.
    + apply N.eqb_eq in Ek. subst c. replace (k =? 39) with false by lia. replace (k =? 42) with false by lia. replace (k =? 45) with false by lia. replace (k =? 46) with false by lia.
      cbn [orb negb andb]. rewrite orb_true_r, andb_false_r. reflexivity.
    + cbn [negb andb]. rewrite orb_false_r. reflexivity.
Qed.
(** taking back the letter [nth e] and giving [k] for it *)
Lemma edit_keys : forall t e k, WF t -> quiz = true -> (e < length (tSheet R t))%nat ->
  k = nth e (tSheet R t) 0 \/ (In k (lettersOf t) /\ ~ In k (tSheet R t)) ->
  eraseKey k (setKey (nth e (tSheet R t) 0) [] (Keys t)) = Keys (with_sheet R t (replaced (tSheet R t) e k) Choosing)
  /\ eraseKey 46 (eraseKey 39 (eraseKey 45 (eraseKey 42 (setKey (nth e (tSheet R t) 0) [] (Keys t)))))
     = listing (fun c => (c =? nth e (tSheet R t) 0) || (member c (lettersOf t) && negb (member c (tSheet R t)))) (fun _ => []).
Proof.
  intros t e k W Q He Hk. set (old := nth e (tSheet R t) 0) in *. assert (Ho : In old (tSheet R t)) by (apply nth_In; exact He).
  pose proof (W_size t W) as WS. pose proof (wf_letters t old W Ho) as Ro. pose proof (W_incl t W old Ho) as Io.
  assert (Rk : 65 <= k <= 122) by (destruct Hk as [->|[Hk _]]; [exact Ro|apply (letters_range _ _ (proj2 WS) Hk)]).
  rewrite setKey_listing by lia. rewrite !eraseKey_listing. split.
  - apply listing_ext.
    + intros c _. destruct (N.lt_ge_cases c 65).
      * replace (c =? k) with false by lia. replace (c =? old) with false by lia. cbn [negb andb orb]. unfold offered_key. rewrite Q. cbn [with_sheet tSheet].
        unfold size. cbn [with_sheet tQuestions]. fold (size R t). rewrite !(small_no_letter _ c (proj2 WS)) by assumption. cbn [andb].
        assert (X : (len (replaced (tSheet R t) e k) =? 0) = (len (tSheet R t) =? 0)) by (unfold len; rewrite replaced_length by exact He; reflexivity). rewrite X. reflexivity.
      * rewrite !letter_offered, Q by assumption. cbn [andb with_sheet tSheet]. unfold size. cbn [with_sheet tQuestions]. fold (size R t).
        assert (X : member c (replaced (tSheet R t) e k) = (c =? k) || (member c (tSheet R t) && negb (c =? old))).
        { apply eq_true_iff_eq. rewrite member_iff, replaced_in by (assumption || apply (W_nodup t W)). fold old. rewrite orb_true_iff, andb_true_iff, member_iff, negb_true_iff, N.eqb_eq, N.eqb_neq. tauto. }
        rewrite X. destruct (c =? k) eqn:Ek; cbn [negb andb orb]; [rewrite andb_false_r; reflexivity|].
        destruct (c =? old) eqn:Eo; cbn [negb andb orb]; [|rewrite andb_true_r; reflexivity].
        apply N.eqb_eq in Eo. subst c. rewrite (proj2 (member_iff old (lettersOf t)) Io), andb_false_r. reflexivity.
    + intros c _ _. change (described R l gs (with_sheet R t (replaced (tSheet R t) e k) Choosing) c) with (described R l gs t c).
      destruct (c =? old) eqn:Eo; [|reflexivity]. apply N.eqb_eq in Eo. subst c. rewrite letter_described by lia. reflexivity.
  - apply listing_ext.
    + intros c _. destruct (N.lt_ge_cases c 65).
      * replace (c =? old) with false by lia. cbn [orb]. unfold offered_key. rewrite Q, (small_no_letter _ c (proj2 WS)) by assumption. cbn [andb].
        rewrite orb_false_r. destruct (c =? 39), (c =? 42), (c =? 45), (c =? 46); reflexivity.
      * rewrite letter_offered, Q by assumption. replace (c =? 39) with false by lia. replace (c =? 42) with false by lia. replace (c =? 45) with false by lia. replace (c =? 46) with false by lia.
        reflexivity.
    + intros c _ H. destruct (c =? old) eqn:Eo; [reflexivity|]. apply letter_described. destruct (N.lt_ge_cases c 65) as [Hc|Hc]; [|exact Hc]. exfalso.
      unfold offered_key in H. rewrite Q, (small_no_letter _ c (proj2 WS)) in H by assumption. cbn [andb orb] in H. rewrite orb_false_r in H.
      destruct (c =? 39), (c =? 42), (c =? 45), (c =? 46); discriminate.
Qed.
Lemma first_keys : forall t, WF t -> tSheet R t = [] ->
  (if quiz then fold_left (fun m k => setKey k [] m) (lettersOf t)
       [(45, if tShown R t then b_ "hide meanings" else b_ "show meanings"); (46, if tPos R t + 1 =? count then b_ "finish" else b_ "skip")]
   else (if 0 <? tPos R t then [(44, b_ "prev")] else [])
        ++ [(45, if tShown R t then b_ "hide meanings" else b_ "show meanings"); (46, if tPos R t + 1 =? count then b_ "finish" else b_ "next")])
  = Keys t.
Proof.
  intros t W S. pose proof (W_size t W) as WS. destruct quiz eqn:Q.
  - assert (K : forall ls p d mm, (forall c, In c ls -> c < 128) -> mm = listing p d ->
      fold_left (fun m k => setKey k [] m) ls mm = listing (fun c => member c ls || p c) (fun c => if member c ls then [] else d c)).
    { induction ls as [|k ls IH]; intros p d mm H E; cbn [fold_left]; [rewrite E; apply listing_ext; reflexivity|].
      rewrite (IH (fun c => (c =? k) || p c) (fun c => if c =? k then [] else d c)); [|intros c Hc; apply H; right; exact Hc|].
      - apply listing_ext; [|intros c _ _]; [intros c _|]; unfold member; cbn [existsb]; fold (member c ls); destruct (member c ls), (c =? k); reflexivity.
      - rewrite E, setKey_listing by (apply H; left; reflexivity). reflexivity. }
    rewrite (K (lettersOf t) (fun c => (c =? 45) || (c =? 46)) (described R l gs t)).
    + apply listing_ext.
      * intros c _. unfold offered_key. rewrite Q, S. change (len (@nil N) =? 0) with true. cbn [negb]. rewrite andb_false_r. cbn [orb member existsb negb]. rewrite andb_true_r. apply orb_comm.
      * intros c _ _. destruct (member c (lettersOf t)) eqn:M; [|reflexivity]. apply member_iff in M. apply (letters_range _ _ (proj2 WS)) in M. rewrite letter_described by lia. reflexivity.
    + intros c H. apply (letters_range _ _ (proj2 WS)) in H. lia.
    + apply maps_equal; [|apply listing_map|].
      * unfold is_map. cbn [map fst]. constructor; [constructor; [constructor|constructor]|constructor; [lia|constructor]].
      * intros [c d]. rewrite listing_in. cbn [In fst snd]. split.
        -- intros [[= <- <-]|[[= <- <-]|[]]]; unfold described; cbn [N.eqb Pos.eqb orb]; rewrite ?Q; split; try reflexivity; split; try lia; reflexivity.
        -- intros [H1 [H2 ->]]. apply orb_prop in H1. destruct H1 as [H1|H1]; apply N.eqb_eq in H1; subst c; [left|right; left]; unfold described; cbn [N.eqb Pos.eqb]; rewrite ?Q; reflexivity.
  - apply maps_equal; [|apply listing_map|].
    + unfold is_map. destruct (0 <? tPos R t); cbn [app map fst]; repeat (constructor; try lia).
    + intros [c d]. rewrite listing_in. unfold offered_key. rewrite Q. cbn [fst snd]. rewrite in_app_iff. cbn [In]. split.
      * intros [H|[[= <- <-]|[[= <- <-]|[]]]]; [|unfold described; cbn [N.eqb Pos.eqb orb]; rewrite ?Q; split; try reflexivity; split; try lia; reflexivity
          |unfold described; cbn [N.eqb Pos.eqb orb]; rewrite ?Q; split; try reflexivity; split; try lia; reflexivity].
        destruct (0 <? tPos R t); [|contradiction]. destruct H as [[= <- <-]|[]]. split; [reflexivity|]. split; [lia|reflexivity].
      * intros [H1 [H2 ->]]. unfold described. destruct (c =? 45) eqn:E1; [apply N.eqb_eq in E1; subst c; right; left; reflexivity|].
        destruct (c =? 46) eqn:E2; [apply N.eqb_eq in E2; subst c; right; right; left; rewrite Q; reflexivity|]. cbn [orb] in H1.
        apply andb_prop in H1. destruct H1 as [H1 H3]. apply N.eqb_eq in H1. subst c. left. rewrite H3. left. reflexivity.
Qed.

(** ** One answer *)

(** the keys [ks] lead to a table that waits for an answer or a command *)
Definition Waiting (ks : list N) (t : table) : Prop := t = After t0 ks /\ WF t /\ tPhase R t = Choosing /\ Playable t0 ks.

Lemma edit_spec : forall s ks t, Waiting ks t -> quiz = true -> tSheet R t <> [] ->
  permitted launcherQuit (Asks t) 42 -> Track s (ks ++ [42]) [] ->
  (editAnswer R l (Keys t) (tSheet R t) s = NoReturn /\ Stuck)
  \/ exists ks' sheet s', editAnswer R l (Keys t) (tSheet R t) s = Ok (Keys (with_sheet R t sheet Choosing), sheet) s'
       /\ Waiting ks' (with_sheet R t sheet Choosing) /\ Track s' ks' (sheet_text sheet) /\ Same s s' /\ length sheet = length (tSheet R t) /\ (length ks < length ks')%nat.
Proof.
  intros s ks t [Et [W [Ph Pl]]] Q NE P42 T.
  set (sheet := tSheet R t) in *.
  assert (Pl1 : Playable t0 (ks ++ [42])).
  { apply playable_snoc. rewrite <- Et. split; [exact Pl|]. split; [apply wf_finished; exact W|]. split; [exact P42|]. intros [_ [K _]].
    apply (letters_range _ _ (proj2 (W_size t W))) in K. lia. }
  assert (A1 : After t0 (ks ++ [42]) = with_sheet R t sheet (if (length sheet =? 1)%nat then Replacing 0 else Picking)).
  { rewrite after_snoc, <- Et. unfold played. rewrite Ph. reflexivity. }
  (* the new letter *)
  assert (NL : forall ks2 e s2, After t0 ks2 = with_sheet R t sheet (Replacing e) -> (e < length sheet)%nat -> Playable t0 ks2 -> Track s2 ks2 [] ->
    let r := match nth_error sheet e with
      | None => Undefined
      | Some old =>
          let choices := setKey old [] (Keys t) in
          let newChoices := eraseKey SkipOption (eraseKey RefreshOption (eraseKey MeaningsOption (eraseKey EditOption choices))) in
          do answer, s <- ask R (quitOption l) (MkRequest None (b_ "    New reading for Entry: " ++ to_string (N.of_nat e + 1)) false newChoices (Some old)) s2 ;;
          Ok (eraseKey answer choices, setNth e answer sheet) s
      end in
    (r = NoReturn /\ Stuck) \/ exists ks' sheet' s', r = Ok (Keys (with_sheet R t sheet' Choosing), sheet') s'
       /\ Waiting ks' (with_sheet R t sheet' Choosing) /\ Track s' ks' (sheet_text sheet') /\ Same s2 s' /\ length sheet' = length sheet /\ (length ks2 < length ks')%nat).
  { intros ks2 e s2 E2 He P2 T2. rewrite (nth_error_nth' sheet 0 He). cbv zeta.
    set (old := nth e sheet 0). assert (Ho : In old sheet) by (apply nth_In; exact He).
    assert (W2 : WF (with_sheet R t sheet (Replacing e))).
    { destruct W as [W1 W2 W3 W4 W5 W6 W7 W8 W9 W10]. constructor; assumption. }
    assert (RQ : MkRequest None (b_ "    New reading for Entry: " ++ to_string (N.of_nat e + 1)) false
       (eraseKey SkipOption (eraseKey RefreshOption (eraseKey MeaningsOption (eraseKey EditOption (setKey old [] (Keys t)))))) (Some old) = Asks (After t0 ks2)).
    { rewrite E2. unfold asks. cbn [with_sheet tPhase tSheet]. fold old. unfold number. replace (N.of_nat e + 1) with (N.of_nat (S e)) by lia.
      destruct (edit_keys t e old W Q He (or_introl eq_refl)) as [_ K]. fold sheet in K. fold old in K.
      change SkipOption with 46. change RefreshOption with 39. change MeaningsOption with 45. change EditOption with 42. rewrite K. reflexivity. }
    rewrite RQ. rewrite <- E2 in W2. destruct (ask_track s2 ks2 T2 W2 P2) as [[E ST]|[k [s' [E [Pk [T' S']]]]]]; rewrite E; cbn [rbind]; [left; split; [reflexivity|exact ST]|right].
    assert (Hk : k = old \/ (In k (lettersOf t) /\ ~ In k sheet)).
    { rewrite E2 in Pk. unfold asks in Pk. cbn [with_sheet tPhase tSheet] in Pk. destruct Pk as [Pk|[[a [b [K _]]]|[K _]]]; [|discriminate|discriminate].
      cbn [rqChoices] in Pk. apply listing_key in Pk. destruct Pk as [Pk _]. apply orb_prop in Pk. destruct Pk as [Pk|Pk]; [left; apply N.eqb_eq; exact Pk|right].
      apply andb_prop in Pk. destruct Pk as [P5 P6]. split; [apply member_iff; exact P5|]. apply negb_true_iff in P6. apply member_false in P6. exact P6. }
    exists (ks2 ++ [k]), (replaced sheet e k), s'. destruct (edit_keys t e k W Q He) as [K _].
    { fold sheet. fold old. exact Hk. }
    fold sheet in K. fold old in K. rewrite K, setNth_replaced by exact He. split; [reflexivity|].
    assert (A2 : After t0 (ks2 ++ [k]) = with_sheet R t (replaced sheet e k) Choosing).
    { rewrite after_snoc, E2. reflexivity. }
    split; [|split; [|split; [exact S'|split; [apply replaced_length; exact He|rewrite app_length; cbn [length]; lia]]]].
    - split; [symmetry; exact A2|]. split; [|split; [reflexivity|]].
      + apply sheet_wf; [exact W| | | | |exact I].
        * apply replaced_nodup; [exact He|apply (W_nodup t W)|]. fold old. tauto.
        * intros c Hc. apply replaced_in in Hc; [|exact He|apply (W_nodup t W)]. destruct Hc as [->|[Hc _]]; [|apply (W_incl t W), Hc].
          destruct Hk as [->|[Hk _]]; [apply (W_incl t W), Ho|exact Hk].
        * rewrite replaced_length by exact He. apply (W_short t W).
        * congruence.
      + apply playable_snoc. split; [exact P2|]. split; [apply wf_finished; exact W2|]. split; [exact Pk|]. rewrite E2. intros [K2 _]. discriminate.
    - rewrite E2 in T'. exact T'. }
  unfold editAnswer, getAnswerToEdit. fold sheet. destruct (Nat.eqb_spec (length sheet) 1) as [L1|L1].
  - replace (len sheet =? 1) with true by (unfold len; lia). cbn [rbind].
    destruct (NL (ks ++ [42]) 0%nat s A1) as [H|[ks' [sheet' [s2 [H1 [H2 [H3 [H4 [H5 H6]]]]]]]]]; [lia|exact Pl1|exact T|left; exact H|right].
    rewrite app_length in H6. cbn [length] in H6. exists ks', sheet', s2. split; [exact H1|]. split; [exact H2|]. split; [exact H3|]. split; [exact H4|]. split; [exact H5|lia].
  - replace (len sheet =? 1) with false by (unfold len; lia).
    assert (W1 : WF (After t0 (ks ++ [42]))).
    { rewrite A1. destruct W as [W1 W2 W3 W4 W5 W6 W7 W8 W9 W10]. constructor; assumption. }
    assert (RQ : MkRequest None (b_ "    Answer to edit: ") false (fold_left (fun m k => setKey k [] m) sheet []) None = Asks (After t0 (ks ++ [42]))).
    { rewrite A1. unfold asks. cbn [with_sheet tPhase tSheet]. f_equal. rewrite (keys_listing sheet (fun _ => false)); [apply listing_ext; [|reflexivity]| |symmetry; exact listing_nil].
      - intros c _. apply orb_false_r.
      - apply Forall_forall. intros c Hc. pose proof (wf_letters t c W Hc). lia. }
    rewrite RQ. destruct (ask_track s (ks ++ [42]) T W1 Pl1) as [[E ST]|[k [s' [E [Pk [T' S']]]]]]; rewrite E; cbn [rbind]; [left; split; [reflexivity|exact ST]|].
    assert (Hk : In k sheet).
    { rewrite A1 in Pk. unfold asks in Pk. cbn [with_sheet tPhase tSheet] in Pk. destruct Pk as [Pk|[[a [b [K _]]]|[K _]]]; [|discriminate|discriminate].
      cbn [rqChoices] in Pk. apply listing_key in Pk. destruct Pk as [Pk _]. apply member_iff. exact Pk. }
    destruct (index_some sheet k Hk) as [j [J1 J2]]. rewrite J1. cbn [rbind].
    assert (Hj : (N.to_nat j < length sheet)%nat) by (apply nth_error_Some; congruence).
    assert (A2 : Played (After t0 (ks ++ [42])) k = (with_sheet R t sheet (Replacing (N.to_nat j)), [])).
    { rewrite A1. unfold played. cbn [with_sheet tPhase tSheet]. rewrite place_index, J1. reflexivity. }
    destruct (NL (ks ++ [42] ++ [k]) (N.to_nat j) s') as [[H ST]|[ks' [sheet' [s2 [H1 [H2 [H3 [H4 [H5 H6]]]]]]]]].
    + rewrite app_assoc, after_snoc, A2. reflexivity.
    + exact Hj.
    + rewrite app_assoc. apply playable_snoc. split; [exact Pl1|]. split; [apply wf_finished; exact W1|]. split; [exact Pk|]. rewrite A1. intros [K2 _]. discriminate.
    + rewrite A2 in T'. rewrite app_assoc. exact T'.
    + left. rewrite N2Nat.id in H. split; [exact H|exact ST].
    + right. rewrite N2Nat.id in H1. exists ks', sheet', s2. split; [exact H1|]. split; [exact H2|]. split; [exact H3|]. split; [eapply same_trans; eassumption|]. split; [exact H5|]. rewrite !app_length in H6. lia.
Qed.

(** a letter was given; [Track] is for the keys with it *)
Definition Given (s : State) (ks : list N) (t : table) (k : N) : Prop :=
  Waiting ks t /\ quiz = true /\ In k (lettersOf t) /\ ~ In k (tSheet R t) /\ permitted launcherQuit (Asks t) k
  /\ Agree s t /\ Track s (ks ++ [k]) (snd (Played t k)).
(** the group is painted again *)
Definition Again (s : State) (ks : list N) (t : table) : Prop :=
  Waiting ks t /\ Agree s t /\ Track s ks (Painted t ++ sheet_text (tSheet R t)).
(** the group is left for the one at [p] *)
Definition Left (s : State) (ks : list N) (t : table) (p : N) : Prop :=
  tQuit R t = false /\ p <= count /\ After t0 ks = fst (Opened t p) /\ Playable t0 ks /\ Track s ks (snd (Opened t p))
  /\ u16 (current R s + 1) = p /\ meanings R s = tShown R t /\ correctAnswers R s = tRight R t /\ mistakes R s = tWrong R t /\ rng R s = tRng R t.
(** the user quits *)
Definition Quits (s : State) (ks : list N) : Prop :=
  Playable t0 ks /\ Finished (After t0 ks) = true /\ Agree s (After t0 ks) /\ Track s ks [].

Lemma answer_spec : forall fuel s ks t, Waiting ks t -> Agree s t -> Track s ks (sheet_text (tSheet R t)) ->
  let r := getGroupAnswer R fuel l (MkTurn (Keys t) (tSheet R t) false false) s in
  (r = NoReturn /\ (Stuck \/ Short fuel ks))
  \/ (exists ks' t' k s', r = Ok (true, MkTurn (Keys (with_sheet R t' (tSheet R t' ++ [k]) Choosing)) (tSheet R t' ++ [k]) false false) s' /\ Given s' ks' t' k /\ (length ks <= length ks')%nat
        /\ size R t' = size R t /\ length (tSheet R t') = length (tSheet R t) /\ tQuestions R t' = tQuestions R t /\ tReadings R t' = tReadings R t /\ tPos R t' = tPos R t)
  \/ (exists ks' t' s', r = Ok (false, MkTurn (Keys t') (tSheet R t') false true) s' /\ Again s' ks' t' /\ (length ks < length ks')%nat
        /\ tQuestions R t' = tQuestions R t /\ tReadings R t' = tReadings R t /\ tPos R t' = tPos R t)
  \/ (exists ks' t' p c a s', r = Ok (false, MkTurn c a true false) s' /\ Left s' ks' t' p /\ (length ks < length ks')%nat)
  \/ (exists ks' c a s', r = Ok (false, MkTurn c a false false) s' /\ Quits s' ks').
Proof.
  induction fuel as [|f IH]; intros s ks t WT A T.
  { left. split; [reflexivity|]. right. destruct T as [T1 _ [rest [_ T2]]]. exists ks, rest. split; [rewrite <- T1; exact T2|lia]. }
  cbv zeta. cbn [getGroupAnswer tAnswers tChoices tSkip tRefresh]. cbv zeta.
  pose proof WT as [Et [W [Ph Pl]]]. pose proof (W_size t W) as WS.
  set (s1 := printAssignedAnswers R (tSheet R t) s). pose proof (sheet_printed (tSheet R t) s) as P1. fold s1 in P1.
  assert (T1 : Track s1 ks []) by (eapply track_printed; [|exact P1]; rewrite app_nil_r; exact T).
  pose proof (agree_same _ _ _ (same_printed _ _ _ P1) A) as A1.
  assert (RQ : MkRequest None (if quiz then b_ "  Reading for: " ++ to_string (len (tSheet R t) + 1) else b_ "  Select") true (Keys t) None = Asks (After t0 ks)).
  { rewrite <- Et. unfold asks. rewrite Ph. f_equal. destruct quiz; [|reflexivity]. unfold number, len. replace (N.of_nat (length (tSheet R t)) + 1) with (N.of_nat (S (length (tSheet R t)))) by lia. reflexivity. }
  match goal with |- context [ask R (quitOption l) ?rq s1] => replace rq with (Asks (After t0 ks)) by (symmetry; exact RQ) end. pose proof W as W'. rewrite Et in W'. destruct (ask_track s1 ks T1 W' Pl) as [[E ST]|[k [s2 [E [Pk [T2 S2]]]]]]; rewrite E; cbn [rbind]; [left; split; [reflexivity|left; exact ST]|].
  assert (LK : (length ks < length (ks ++ [k]))%nat) by (rewrite app_length; cbn [length]; lia).
  clear W' E RQ. rewrite <- Et in Pk, T2. pose proof (agree_same _ _ _ S2 A1) as A2.
  assert (Pl1 : ~ In k (lettersOf t) -> Playable t0 (ks ++ [k])).
  { intro N1. apply playable_snoc. rewrite <- Et. split; [exact Pl|]. split; [apply wf_finished; exact W|]. split; [exact Pk|]. intros [_ [K _]]. exact (N1 K). }
  assert (NL : k < 65 -> ~ In k (lettersOf t)) by (intros H K; apply (letters_range _ _ (proj2 WS)) in K; lia).
  assert (KC : k = 47 \/ offered_key R l t k = true).
  { pose proof Pk as Pk2. unfold asks in Pk2. rewrite Ph in Pk2. destruct Pk2 as [H|[[a [b [H _]]]|[_ [d [= <- _]]]]]; [|discriminate|left; reflexivity].
    cbn [rqChoices] in H. apply listing_key in H. right. exact (proj1 H). }
  assert (AF : After t0 (ks ++ [k]) = fst (Played t k)) by (rewrite after_snoc, <- Et; reflexivity).
  change RefreshOption with 39. change MeaningsOption with 45. change PrevOption with 44. change SkipOption with 46. change EditOption with 42.
  cbn [tSkip tRefresh negb andb].
  destruct (N.eqb_spec k 39) as [->|N39].
  { (* refresh *) right. right. left. exists (ks ++ [39]), t, s2. split; [reflexivity|]. split; [|auto].
    assert (PL : Played t 39 = (t, Painted t ++ sheet_text (tSheet R t))) by (unfold played; rewrite Ph; reflexivity).
    rewrite PL in AF, T2. split; [|split; [exact A2|exact T2]]. split; [symmetry; exact AF|]. split; [exact W|]. split; [exact Ph|]. apply Pl1, NL. lia. }
  destruct (N.eqb_spec k 45) as [->|N45].
  { (* meanings *) right. right. left. unfold toggleMeanings. exists (ks ++ [45]), (with_shown R t (negb (tShown R t))). eexists.
    change MeaningsOption with 45. cbn [setMeanings meanings]. rewrite (A_mean _ _ A2). unfold meaningsText. rewrite toggled_keys.
    split; [reflexivity|]. split; [|auto].
    assert (PL : Played t 45 = (with_shown R t (negb (tShown R t)), Painted (with_shown R t (negb (tShown R t))) ++ sheet_text (tSheet R t))) by (unfold played; rewrite Ph; reflexivity).
    rewrite PL in AF, T2. split; [|split].
    - split; [symmetry; exact AF|]. split; [apply shown_wf; exact W|]. split; [exact Ph|]. apply Pl1, NL. lia.
    - destruct A2 as [B1 B2 B3 B4 B5]. constructor; cbn [setMeanings current meanings correctAnswers mistakes rng with_shown tPos tShown tRight tWrong tRng]; auto.
    - eapply track_events; [exact T2|reflexivity|reflexivity]. }
  destruct (N.eqb_spec k 44) as [->|N44].
  { (* back *) right. right. right. left. assert (Hp : 0 < tPos R t).
    { destruct KC as [H|H]; [discriminate|]. unfold offered_key in H. cbn [N.eqb Pos.eqb orb andb] in H. destruct quiz; [|lia].
      rewrite (small_no_letter (size R t) 44 (proj2 WS)) in H by lia. discriminate. }
    exists (ks ++ [44]), t, (tPos R t - 1). eexists. eexists. eexists. split; [reflexivity|]. split; [|exact LK].
    assert (PL : Played t 44 = Opened t (tPos R t - 1)) by (unfold played; rewrite Ph; reflexivity). rewrite PL in AF, T2.
    pose proof (W_pos t W). destruct A2 as [B1 B2 B3 B4 B5].
    split; [apply (W_quit t W)|]. split; [lia|]. split; [exact AF|]. split; [apply Pl1, NL; lia|].
    split; [eapply track_events; [exact T2|reflexivity|reflexivity]|]. split; [|auto].
    cbn [setCurrent current]. rewrite B1. unfold u16. change (2 ^ 16) with 65536. destruct (N.eq_dec (tPos R t) 1) as [E1|E1].
    + rewrite E1. reflexivity.
    + replace (tPos R t + 65534) with (tPos R t - 2 + 1 * 65536) by lia. rewrite N.mod_add by lia. rewrite (N.mod_small (tPos R t - 2)) by lia. rewrite N.mod_small by lia. lia. }
  destruct (N.eqb_spec k 46) as [->|N46].
  { (* on *) right. right. right. left. exists (ks ++ [46]), t, (tPos R t + 1). eexists. eexists. eexists. split; [reflexivity|]. split; [|exact LK].
    assert (PL : Played t 46 = Opened t (tPos R t + 1)) by (unfold played; rewrite Ph; reflexivity). rewrite PL in AF, T2.
    pose proof (W_pos t W). destruct A2 as [B1 B2 B3 B4 B5].
    split; [apply (W_quit t W)|]. split; [lia|]. split; [exact AF|]. split; [apply Pl1, NL; lia|]. split; [exact T2|]. split; [|auto].
    rewrite B1. unfold u16. change (2 ^ 16) with 65536. apply N.mod_small. lia. }
  destruct (N.eqb_spec k 42) as [->|N42].
  { (* edit *)
    assert (X : quiz = true /\ tSheet R t <> []).
    { destruct KC as [H|H]; [discriminate|]. unfold offered_key in H. cbn [N.eqb Pos.eqb orb andb] in H. destruct quiz; [|discriminate]. split; [reflexivity|]. intro K. rewrite K in H.
      rewrite (small_no_letter (size R t) 42 (proj2 WS)) in H by lia. discriminate. }
    destruct X as [Q NE].
    assert (PL : snd (Played t 42) = []) by (unfold played; rewrite Ph; reflexivity). rewrite PL in T2.
    destruct (edit_spec s2 ks t WT Q NE Pk T2) as [[H ST]|[ks' [sheet [s3 [H [WT' [T' [S' [LS LL]]]]]]]]]; rewrite H; cbn [rbind fst snd]; [left; split; [reflexivity|left; exact ST]|].
    assert (A3 : Agree s3 (with_sheet R t sheet Choosing)).
    { pose proof (agree_same _ _ _ S' A2) as [B1 B2 B3 B4 B5]. constructor; assumption. }
    rewrite <- LS.
    destruct (IH s3 ks' (with_sheet R t sheet Choosing) WT' A3 T') as [[K ST]|[[k1 [u1 [x1 [z1 [K1 [K2 [K3 K4]]]]]]]|[[k1 [u1 [z1 [K1 [K2 [K3 K4]]]]]]|[[k1 [u1 [p1 [c1 [a1 [z1 [K1 [K2 K3]]]]]]]]|K]]]].
    - left. split; [exact K|]. destruct ST as [ST|[kk [rr [ST1 ST2]]]]; [left; exact ST|right]. exists kk, rr. split; [exact ST1|lia].
    - right. left. exists k1, u1, x1, z1. split; [exact K1|]. split; [exact K2|]. split; [lia|exact K4].
    - right. right. left. exists k1, u1, z1. split; [exact K1|]. split; [exact K2|]. split; [lia|exact K4].
    - right. right. right. left. exists k1, u1, p1, c1, a1, z1. split; [exact K1|]. split; [exact K2|lia].
    - right. right. right. right. exact K. }
  rewrite Hquit. unfold isQuit, launcherQuit. rewrite (N.eqb_sym 47 k). destruct (N.eqb_spec k 47) as [->|N47].
  { (* quit *) right. right. right. right. exists (ks ++ [47]). eexists. eexists. eexists. split; [reflexivity|].
    assert (PL : Played t 47 = (with_quit R t, [])) by (unfold played; rewrite Ph; reflexivity). rewrite PL in AF, T2. cbn [fst snd] in AF, T2.
    split; [apply Pl1, NL; lia|]. split; [rewrite AF; reflexivity|]. split; [|exact T2]. rewrite AF.
    destruct A2 as [B1 B2 B3 B4 B5]. constructor; assumption. }
  (* a letter *)
  right. left. destruct KC as [H|H]; [congruence|].
  assert (X : quiz = true /\ In k (lettersOf t) /\ ~ In k (tSheet R t)).
  { unfold offered_key in H. replace (k =? 39) with false in H by lia. replace (k =? 42) with false in H by lia. replace (k =? 44) with false in H by lia.
    replace (k =? 45) with false in H by lia. replace (k =? 46) with false in H by lia. destruct quiz; [|discriminate]. cbn [orb andb] in H.
    apply andb_prop in H. destruct H as [H1 H2]. apply member_iff in H1. apply negb_true_iff, member_false in H2. auto. }
  destruct X as [Q [X1 X2]]. exists ks, t, k, s2. split.
  - pose proof (given_keys t k W Q X1) as GK. cbv zeta in GK. change 1 with (N.of_nat 1) in *. rewrite GK. reflexivity.
  - split; [unfold Given; tauto|]. split; [lia|]. auto.
Qed.

(** ** The answers of a group *)
Lemma given_played : forall t k, tPhase R t = Choosing -> 65 <= k -> Played t k =
  let t' := with_sheet R t (tSheet R t ++ [k]) Choosing in
  if (length (tSheet R t') <? size R t)%nat then (t', sheet_text (tSheet R t'))
  else let '(t1, x) := judged R gs t' in let '(t2, y) := Opened t1 (tPos R t1 + 1) in (t2, x ++ y).
Proof.
  intros t k Ph H. unfold played. rewrite Ph. replace (k =? 47) with false by lia. replace (k =? 45) with false by lia. replace (k =? 39) with false by lia.
  replace (k =? 44) with false by lia. replace (k =? 46) with false by lia. replace (k =? 42) with false by lia. reflexivity.
Qed.
Lemma answers_spec : forall fuel n s ks t, Waiting ks t -> Agree s t -> Track s ks (sheet_text (tSheet R t)) ->
  (n + length (tSheet R t) = size R t)%nat ->
  let r := getGroupAnswers R fuel n l (Keys t) (tSheet R t) s in
  (r = NoReturn /\ (Stuck \/ Short fuel ks))
  \/ (exists ks' t' k ch s', r = Ok (true, MkTurn ch (tSheet R t' ++ [k]) false false, false) s' /\ Given s' ks' t' k /\ (length ks <= length ks')%nat
        /\ S (length (tSheet R t')) = size R t' /\ tQuestions R t' = tQuestions R t /\ tReadings R t' = tReadings R t /\ tPos R t' = tPos R t)
  \/ (exists ks' t' s', r = Ok (false, MkTurn (Keys t') (tSheet R t') false true, false) s' /\ Again s' ks' t' /\ (length ks < length ks')%nat
        /\ tQuestions R t' = tQuestions R t /\ tReadings R t' = tReadings R t /\ tPos R t' = tPos R t)
  \/ (exists ks' t' p c a s', r = Ok (false, MkTurn c a true false, false) s' /\ Left s' ks' t' p /\ (length ks < length ks')%nat)
  \/ (exists ks' c a s', r = Ok (false, MkTurn c a false false, true) s' /\ Quits s' ks').
Proof.
  intros fuel n. induction n as [|n IH]; intros s ks t WT A T L.
  { exfalso. destruct WT as [_ [W _]]. pose proof (W_short t W). lia. }
  cbv zeta. cbn [getGroupAnswers].
  destruct (answer_spec fuel s ks t WT A T) as [[H ST]|[[ks' [t' [k [s' [H [G [LK [G1 [G2 [G3 [G4 G5]]]]]]]]]]]|[[ks' [t' [s' [H [G [LK [G3 [G4 G5]]]]]]]]|[[ks' [t' [p [c [a [s' [H G]]]]]]]|[ks' [c [a [s' [H G]]]]]]]]];
    rewrite H; cbn [rbind fst snd tRefresh tSkip tChoices tAnswers negb andb].
  - left. split; [reflexivity|exact ST].
  - destruct n as [|n].
    + right. left. cbn [getGroupAnswers]. exists ks', t', k. eexists. exists s'. split; [reflexivity|]. split; [exact G|]. split; [exact LK|]. split; [lia|auto].
    + pose proof G as [[Et [W [Ph Pl]]] [Q [X1 [X2 [Pk [A' T']]]]]]. pose proof (letters_range _ _ (proj2 (W_size _ W)) X1) as RK.
      set (t2 := with_sheet R t' (tSheet R t' ++ [k]) Choosing).
      assert (LT : (length (tSheet R t2) < size R t')%nat) by (unfold t2; cbn [with_sheet tSheet]; rewrite app_length; cbn [length]; lia).
      assert (PL : Played t' k = (t2, sheet_text (tSheet R t2))).
      { rewrite given_played by (assumption || lia). cbv zeta. fold t2. replace (length (tSheet R t2) <? size R t')%nat with true by (symmetry; apply Nat.ltb_lt; exact LT). reflexivity. }
      assert (WT2 : Waiting (ks' ++ [k]) t2).
      { split; [rewrite after_snoc, <- Et, PL; reflexivity|]. split; [|split; [reflexivity|]].
        - unfold t2. apply sheet_wf; [exact W| | | |congruence|exact I].
          + apply (Permutation_NoDup (Permutation_cons_append (tSheet R t') k)). constructor; [exact X2|apply (W_nodup _ W)].
          + intros c Hc. apply in_app_iff in Hc. destruct Hc as [Hc|[<-|[]]]; [apply (W_incl _ W), Hc|exact X1].
          + exact LT.
        - apply playable_snoc. rewrite <- Et. split; [exact Pl|]. split; [apply wf_finished; exact W|]. split; [exact Pk|]. intros [_ [_ [K _]]]. lia. }
      assert (A2 : Agree s' t2) by (destruct A' as [B1 B2 B3 B4 B5]; constructor; assumption).
      rewrite PL in T'.
      destruct (IH s' (ks' ++ [k]) t2 WT2 A2 T') as [[I1 ST]|[[k1 [u1 [x1 [c1 [z1 [I1 [I2 [LI [I3 [I4 [I5 I6]]]]]]]]]]]|[[k1 [u1 [z1 [I1 [I2 [LI [I4 [I5 I6]]]]]]]]|[[k1 [u1 [p1 [c1 [a1 [z1 [I1 [I2 LI]]]]]]]]|I1]]]].
      { change (size R t2) with (size R t'). unfold t2. cbn [with_sheet tSheet]. rewrite app_length. cbn [length]. lia. }
      * left. split; [exact I1|]. destruct ST as [ST|[kk [rr [ST1 ST2]]]]; [left; exact ST|right]. exists kk, rr. split; [exact ST1|]. rewrite app_length in ST2. lia.
      * right. left. exists k1, u1, x1, c1, z1. rewrite app_length in LI. split; [exact I1|]. split; [exact I2|]. split; [lia|]. split; [exact I3|]. rewrite I4, I5, I6. auto.
      * right. right. left. exists k1, u1, z1. rewrite app_length in LI. split; [exact I1|]. split; [exact I2|]. split; [lia|]. rewrite I4, I5, I6. auto.
      * right. right. right. left. exists k1, u1, p1, c1, a1, z1. rewrite app_length in LI. split; [exact I1|]. split; [exact I2|lia].
      * right. right. right. right. exact I1.
  - right. right. left. exists ks', t', s'. auto 10.
  - right. right. right. left. exists ks', t', p, c, a, s'. auto.
  - right. right. right. right. exists ks', c, a, s'. auto.
Qed.

(** a group with too many members was completed *)
Definition Over : Prop := exists ks k rest, Playable t0 ks /\ Finished (After t0 ks) = false /\ permitted launcherQuit (Asks (After t0 ks)) k
  /\ overfull R (After t0 ks) k /\ reads launcherQuit ls0 (ps0 ++ fst (Script t0 hd (ks ++ [k]))) rest.

Lemma judged_spec : forall s t g x, groupAt R gs t = Some g -> Agree s t ->
  countRight (tShown R t) (tQuestions R t) (tReadings R t) (tSheet R t) = Val (points (tShown R t) (tQuestions R t) (tReadings R t) (tSheet R t)) ->
  x = snd (judged R gs t) ->
  exists s', checkAnswers R (tQuestions R t) (tReadings R t) (gName g) (tSheet R t) s = Ok tt s' /\ Agree s' (fst (judged R gs t))
    /\ input R s' = input R s /\ prompts s' = prompts s /\ printed s' = printed s ++ x.
Proof.
  intros s t g x Hg A C ->. unfold checkAnswers. rewrite (A_mean _ _ A), C. cbn [lift rbind].
  unfold judged. set (n := points (tShown R t) (tQuestions R t) (tReadings R t) (tSheet R t)). destruct (n =? len (tSheet R t)).
  - eexists. split; [reflexivity|]. destruct A as [B1 B2 B3 B4 B5]. cbn [fst snd]. split; [|split; [reflexivity|]].
    + constructor; cbn [correctMessage setCorrect print addEvent current meanings correctAnswers mistakes rng tPos tShown tRight tWrong tRng]; auto. rewrite B3. reflexivity.
    + unfold correctMessage. rewrite printed_print. cbn [fst snd setCorrect events correctAnswers current]. split; [reflexivity|]. rewrite B1, B3. reflexivity.
  - eexists. split; [reflexivity|]. destruct A as [B1 B2 B3 B4 B5]. cbn [fst snd]. split; [|split; [reflexivity|]].
    + constructor; cbn [incorrectMessage addMistake print addEvent current meanings correctAnswers mistakes rng tPos tShown tRight tWrong tRng]; auto. rewrite B4, Hg. reflexivity.
    + rewrite printed_print. unfold incorrectMessage. rewrite printed_print. cbn [fst snd addMistake events]. split; [reflexivity|]. rewrite <- app_assoc. reflexivity.
Qed.
Lemma complete_spec : forall s ks t k g, Given s ks t k -> S (length (tSheet R t)) = size R t -> groupAt R gs t = Some g ->
  let r := checkAnswers R (tQuestions R t) (tReadings R t) (gName g) (tSheet R t ++ [k]) s in
  (r = Undefined /\ Over) \/ exists ks' t' p s', r = Ok tt s' /\ Left s' ks' t' p /\ (length ks < length ks')%nat.
Proof.
  intros s ks t k g [[Et [W [Ph Pl]]] [Q [X1 [X2 [Pk [A T]]]]]] L Hg. cbv zeta. pose proof (W_size _ W) as WS. pose proof (letters_range _ _ (proj2 WS) X1) as RK.
  assert (ND : NoDup (tSheet R t ++ [k])).
  { apply (Permutation_NoDup (Permutation_cons_append (tSheet R t) k)). constructor; [exact X2|apply (W_nodup _ W)]. }
  assert (IN : forall c, In c (tSheet R t ++ [k]) -> In c (lettersOf t)).
  { intros c Hc. apply in_app_iff in Hc. destruct Hc as [Hc|[<-|[]]]; [apply (W_incl _ W), Hc|exact X1]. }
  assert (LE : length (tSheet R t ++ [k]) = size R t) by (rewrite app_length; cbn [length]; lia).
  destruct (Nat.lt_ge_cases 26 (size R t)) as [B|B].
  - left. split.
    + unfold checkAnswers. rewrite (count_undefined _ _ _ _ 65); [reflexivity| | |lia].
      * unfold len. rewrite (W_same _ W). change (2 ^ 32) with 4294967296. lia.
      * apply (full_has (size R t)); [lia|exact ND|exact IN|exact LE].
    + destruct T as [T1 T2 [rest [_ T3]]]. exists ks, k, rest. rewrite <- Et. split; [exact Pl|]. split; [apply wf_finished; exact W|]. split; [exact Pk|].
      split; [split; [exact Ph|]; split; [exact X1|]; split; [exact L|exact B]|]. rewrite <- T1. exact T3.
  - right. set (t2 := with_sheet R t (tSheet R t ++ [k]) Choosing).
    assert (PL : Played t k = let '(t1, x) := judged R gs t2 in let '(t3, y) := Opened t1 (tPos R t1 + 1) in (t3, x ++ y)).
    { rewrite given_played by (assumption || lia). cbv zeta. fold t2. replace (length (tSheet R t2) <? size R t)%nat with false; [reflexivity|].
      symmetry. apply Nat.ltb_ge. unfold t2. cbn [with_sheet tSheet]. lia. }
    assert (A2 : Agree s t2) by (destruct A as [B1 B2 B3 B4 B5]; constructor; assumption).
    destruct (judged_spec s t2 g (snd (judged R gs t2)) Hg A2) as [s' [E [A3 [E1 [E2 E3]]]]]; [|reflexivity|].
    { apply count_points; unfold t2; cbn [with_sheet tReadings tSheet tQuestions]; [rewrite (W_same _ W); exact B|rewrite (W_same _ W); exact IN|unfold size in LE; lia]. }
    exists (ks ++ [k]), (fst (judged R gs t2)), (tPos R t + 1), s'. split; [exact E|]. split; [|rewrite app_length; cbn [length]; lia].
    assert (JP : tPos R (fst (judged R gs t2)) = tPos R t /\ tQuit R (fst (judged R gs t2)) = tQuit R t).
    { unfold judged. destruct (points _ _ _ _ =? _); split; reflexivity. }
    destruct JP as [JP JQ]. destruct (judged R gs t2) as [t1 x] eqn:J. cbn [fst snd] in *. rewrite JP in PL.
    pose proof (W_pos _ W). destruct A3 as [B1 B2 B3 B4 B5].
    split; [rewrite JQ; apply (W_quit _ W)|]. split; [lia|]. split; [rewrite after_snoc, <- Et, PL; destruct (Opened t1 (tPos R t + 1)); reflexivity|].
    split; [apply playable_snoc; rewrite <- Et; split; [exact Pl|]; split; [apply wf_finished; exact W|]; split; [exact Pk|]; intros [_ [_ [_ K]]]; lia|].
    split; [|split; [|auto]].
    + destruct T as [T1 T2 T3]. constructor.
      * rewrite E2. exact T1.
      * rewrite E3, <- app_assoc, <- T2, PL. destruct (Opened t1 (tPos R t + 1)). reflexivity.
      * rewrite E1, E2. exact T3.
    + rewrite B1, JP. unfold u16. change (2 ^ 16) with 65536. apply N.mod_small. lia.
Qed.

(** ** One group *)
Lemma default_keys : forall s, getDefaultChoices R l count s =
  (if quiz then [(45, if meanings R s then b_ "hide meanings" else b_ "show meanings"); (46, if current R s + 1 =? count then b_ "finish" else b_ "skip")]
   else (if 0 <? current R s then [(44, b_ "prev")] else [])
        ++ [(45, if meanings R s then b_ "hide meanings" else b_ "show meanings"); (46, if current R s + 1 =? count then b_ "finish" else b_ "next")]).
Proof.
  intro s. unfold getDefaultChoices, meaningsText. destruct quiz; [reflexivity|]. cbn [negb andb].
  replace (0 <? current R s) with (negb (current R s =? 0)) by lia. destruct (current R s =? 0); reflexivity.
Qed.
Lemma painted_spec : forall s t g again ch, Agree s t -> groupAt R gs t = Some g -> length (tReadings R t) = size R t -> (size R t <= 58)%nat ->
  (forall k, In k (tQuestions R t) -> entryText otherNumber l ty k = Val (entry k)) ->
  exists s', showMembers R otherNumber l ty 0 (tQuestions R t) (tReadings R t) (tSheet R t) again ch
      (print R (groupText g ++ b_ ", "
                 ++ (if len (tQuestions R t) =? len (gMembers g) then to_string (len (tQuestions R t))
                     else b_ "showing " ++ to_string (len (tQuestions R t)) ++ b_ " out of " ++ to_string (len (gMembers g)))
                 ++ b_ " members
") (beginQuestionMessage R l count s))
      = Ok (if negb again && quiz then fold_left (fun m k => setKey k [] m) (lettersOf t) ch else ch) s'
    /\ Printed R (Painted t) s s'.
Proof.
  intros s t g again ch A Hg E1 E2 E3. set (s1 := beginQuestionMessage R l count s). set (s2 := print R _ s1).
  destruct (show_rows (tQuestions R t) (tReadings R t) 0 (tSheet R t) again ch s2 E1) as [s' [E P]]; [exact E2|exact E3|].
  exists s'. split; [exact E|]. change (meanings R s2) with (meanings R s) in P. rewrite (A_mean _ _ A) in P. unfold painted. eapply Printed_trans; [|exact P].
  eapply Printed_eq; [eapply Printed_trans; apply Printed_print|]. unfold heading. rewrite Hg, (A_cur _ _ A).
  assert (Tt : groupText g = title g) by (unfold groupText, title; destruct (gPattern g); rewrite <- ?app_assoc; reflexivity). rewrite Tt.
  assert (X : (len (tQuestions R t) =? len (gMembers g)) = (size R t =? length (gMembers g))%nat).
  { unfold len, size. destruct (Nat.eqb_spec (length (tQuestions R t)) (length (gMembers g))); lia. }
  rewrite X. change (len (tQuestions R t)) with (N.of_nat (size R t)). destruct (size R t =? length (gMembers g))%nat, quiz; rewrite <- ?app_assoc; reflexivity.
Qed.
Lemma group_spec : forall fuel s ks t g again ch, Waiting ks t -> Agree s t -> Track s ks (Painted t ++ sheet_text (tSheet R t)) ->
  groupAt R gs t = Some g ->
  (again = true /\ ch = Keys t) \/ (again = false /\ tSheet R t = [] /\ ch = getDefaultChoices R l count s) ->
  let r := askGroup R otherNumber fuel l ty count g (tQuestions R t) (tReadings R t) ch (tSheet R t) again s in
  (r = NoReturn /\ (Stuck \/ Short (fuel - 1) ks)) \/ (r = Undefined /\ Over)
  \/ (exists ks' t' p s', r = Ok false s' /\ Left s' ks' t' p /\ (length ks < length ks')%nat) \/ (exists ks' s', r = Ok true s' /\ Quits s' ks').
Proof.
  induction fuel as [|f IH]; intros s ks t g again ch WT A T Hg HC.
  { left. split; [reflexivity|]. right. destruct T as [T1 _ [rest [_ T2]]]. exists ks, rest. split; [rewrite <- T1; exact T2|lia]. }
  cbv zeta. cbn [askGroup]. cbv zeta.
  pose proof WT as [Et [W [Ph Pl]]]. pose proof (W_size t W) as WS.
  destruct (painted_spec s t g again ch A Hg (W_same _ W) (proj2 WS) (W_entry _ W)) as [s1 [E P]].
  match goal with |- context [showMembers R otherNumber l ty 0 _ _ _ _ _ ?x] => match type of E with showMembers R otherNumber l ty 0 _ _ _ _ _ ?y = _ => change x with y end end.
  rewrite E. clear E. cbn [rbind].
  assert (CH : (if negb again && quiz then fold_left (fun m k => setKey k [] m) (lettersOf t) ch else ch) = Keys t).
  { destruct HC as [[-> ->]|[-> [S ->]]]; [reflexivity|]. cbn [negb andb]. rewrite <- (first_keys t W S). rewrite default_keys, (A_cur _ _ A), (A_mean _ _ A). destruct quiz; reflexivity. }
  rewrite CH. pose proof (agree_same _ _ _ (same_printed _ _ _ P) A) as A1. pose proof (track_printed _ _ _ _ _ T P) as T1.
  destruct (answers_spec f (length (tQuestions R t) - length (tSheet R t)) s1 ks t WT A1 T1)
    as [[H ST]|[[ks' [t' [k [c [s' [H [G [LK [G1 [G3 [G4 G5]]]]]]]]]]]|[[ks' [t' [s' [H [G [LK [G3 [G4 G5]]]]]]]]|[[ks' [t' [p [c [a [s' [H G]]]]]]]|[ks' [c [a [s' [H G]]]]]]]]].
  { pose proof (W_short _ W). unfold size in *. lia. }
  - rewrite H. left. split; [reflexivity|]. replace (S f - 1)%nat with f by lia. exact ST.
  - rewrite H. cbn [rbind tAnswers]. assert (Hg' : groupAt R gs t' = Some g) by (unfold groupAt in *; rewrite G5; exact Hg).
    destruct (complete_spec s' ks' t' k g G G1 Hg') as [[C O]|[k1 [u1 [p1 [z1 [C [C1 LC]]]]]]]; rewrite G3, G4 in C; rewrite C; cbn [rbind].
    + right. left. split; [reflexivity|exact O].
    + right. right. left. exists k1, u1, p1, z1. split; [reflexivity|]. split; [exact C1|lia].
  - rewrite H. cbn [rbind tSkip tChoices tAnswers negb andb]. rewrite <- G3, <- G4. destruct G as [GW [GA GT]].
    destruct (IH s' ks' t' g true (Keys t') GW GA GT) as [[K ST]|[K|[[k1 [u1 [p1 [z1 [K1 [K2 LI]]]]]]|K]]]; [unfold groupAt in *; rewrite G5; exact Hg|left; auto| | | |].
    + left. split; [exact K|]. destruct ST as [ST|[kk [rr [ST1 ST2]]]]; [left; exact ST|right]. exists kk, rr. split; [exact ST1|lia].
    + right. left. exact K.
    + right. right. left. exists k1, u1, p1, z1. split; [exact K1|]. split; [exact K2|lia].
    + right. right. right. exact K.
  - rewrite H. cbn [rbind tSkip negb andb]. right. right. left. exists ks', t', p, s'. auto.
  - rewrite H. cbn [rbind tSkip negb andb]. right. right. right. exists ks', s'. auto.
Qed.

(** ** All groups *)

(** the group at [p] comes next *)
Definition Enter (s : State) (ks : list N) (t : table) (p : N) : Prop :=
  tQuit R t = false /\ p <= count /\ After t0 ks = fst (Opened t p) /\ Playable t0 ks /\ Track s ks (snd (Opened t p))
  /\ current R s = p /\ meanings R s = tShown R t /\ correctAnswers R s = tRight R t /\ mistakes R s = tWrong R t /\ rng R s = tRng R t.
Notation Moved := (moved R shuffle l m gs).
Lemma opened_end : forall t p, tQuit R t = false -> count <= p -> Opened t p = (Moved t p, []).
Proof.
  intros t p Q H. unfold opened. cbn [settled]. unfold finished. replace (tPos R (Moved t p)) with p.
  - replace (count <=? p) with true by lia. rewrite orb_true_r. reflexivity.
  - unfold moved. destruct (dealt R shuffle l m gs p (tRng R t)) as [[q x] r]. reflexivity.
Qed.
Lemma opened_next : forall t p, tQuit R t = false -> p < count -> Opened t p =
  match tQuestions R (Moved t p) with
  | [] => let '(t1, x) := judged R gs (Moved t p) in let '(t2, y) := Opened t1 (p + 1) in (t2, Painted (Moved t p) ++ x ++ y)
  | _ => (Moved t p, Painted (Moved t p))
  end.
Proof.
  intros t p Q H. unfold opened at 1. cbn [settled].
  assert (MP : tPos R (Moved t p) = p /\ tQuit R (Moved t p) = false).
  { unfold moved. destruct (dealt R shuffle l m gs p (tRng R t)) as [[q x] r]. auto. }
  destruct MP as [MP MQ]. unfold finished. rewrite MP, MQ. replace (count <=? p) with false by lia. cbn [orb].
  destruct (tQuestions R (Moved t p)) as [|q qs] eqn:E; [|reflexivity].
  assert (JP : tPos R (fst (judged R gs (Moved t p))) = p) by (rewrite <- MP at 2; unfold judged; destruct (points _ _ _ _ =? _); reflexivity).
  destruct (judged R gs (Moved t p)) as [t1 x]. cbn [fst] in JP. rewrite JP. unfold opened.
  replace (N.to_nat (count - p)) with (S (N.to_nat (count - (p + 1)))) by lia. reflexivity.
Qed.
Lemma loop_spec : forall fuel s ks t p, Enter s ks t p ->
  let r := groupLoop R shuffle otherNumber fuel l ty m gs s in
  (r = NoReturn /\ (Stuck \/ exists ks' rest, reads launcherQuit ls0 (ps0 ++ fst (Script t0 hd ks')) rest /\ (length ks <= length ks')%nat
     /\ (fuel <= (length ks' - length ks) * (length gs + 2) + (length gs - N.to_nat p) + 2)%nat)) \/ (r = Undefined /\ Over) \/ exists ks' s', r = Ok tt s' /\ Quits s' ks'.
Proof.
  induction fuel as [|f IH]; intros s ks t p [H1 [H2 [H3 [H4 [H5 [H6 [H7 [H8 [H9 H10]]]]]]]]].
  { left. split; [reflexivity|]. right. destruct H5 as [T1 _ [rest [_ T2]]]. exists ks, rest. split; [rewrite <- T1; exact T2|lia]. }
  cbv zeta. cbn [groupLoop]. rewrite H6.
  destruct (p <? count) eqn:LT.
  2:{ right. right. exists ks, s. split; [reflexivity|]. rewrite (opened_end t p H1) in H3, H5 by lia. cbn [fst snd] in H3, H5.
      assert (MP : tPos R (Moved t p) = p /\ tShown R (Moved t p) = tShown R t /\ tRight R (Moved t p) = tRight R t /\ tWrong R (Moved t p) = tWrong R t /\ tRng R (Moved t p) = tRng R t).
      { unfold moved, dealt. rewrite LT, andb_false_r. auto 6. }
      destruct MP as [M1 [M2 [M3 [M4 M5]]]]. unfold Quits. rewrite H3. split; [exact H4|]. split; [unfold finished; rewrite M1; replace (count <=? p) with true by lia; apply orb_true_r|].
      split; [constructor; congruence|exact H5]. }
  assert (Hn : exists g, nth_error gs (N.to_nat p) = Some g).
  { destruct (nth_error gs (N.to_nat p)) as [g|] eqn:E; [eauto|]. apply nth_error_None in E. unfold len in LT. lia. }
  destruct Hn as [g Hg]. rewrite Hg. set (members := filter (includeMember m) (gMembers g)).
  assert (D : exists q x r, dealt R shuffle l m gs p (tRng R t) = (q, x, r) /\ Permutation members q /\ Permutation members x
     /\ (if quiz && randomizeAnswers l then let '(q, r1) := shuffle members (rng R s) in let '(x, r2) := shuffle members r1 in (q, x, setRng R r2 s) else (members, members, s))
        = (q, x, setRng R r s)).
  { unfold dealt. rewrite Hg, LT, andb_true_r. fold members. destruct (quiz && randomizeAnswers l).
    - rewrite H10. pose proof (Hshuffle members (tRng R t)) as K1. destruct (shuffle members (tRng R t)) as [q r1]. pose proof (Hshuffle members r1) as K2.
      destruct (shuffle members r1) as [x r2]. cbn [fst] in *. exists q, x, r2. auto.
    - exists members, members, (tRng R t). split; [reflexivity|]. split; [apply Permutation_refl|]. split; [apply Permutation_refl|]. f_equal. rewrite <- H10. destruct s; reflexivity. }
  destruct D as [q [x [r [D [Pq [Px DE]]]]]]. rewrite DE. clear DE.
  set (t1 := MkTable R p (tShown R t) q x [] Choosing (tRight R t) (tWrong R t) (tQuit R t) r).
  assert (M : Moved t p = t1) by (unfold moved; rewrite D; reflexivity).
  set (s1 := setRng R r s). assert (A1 : Agree s1 t1) by (constructor; assumption || reflexivity).
  assert (HG : In g gs) by (eapply nth_error_In; exact Hg).
  assert (Hsz : (length q <= 58)%nat).
  { rewrite <- (Permutation_length Pq). unfold members. rewrite Forall_forall in Hsize. specialize (Hsize g HG). pose proof (filter_le _ (includeMember m) (gMembers g)). lia. }
  assert (HE : forall k, In k q -> entryText otherNumber l ty k = Val (entry k)).
  { intros k Hk. apply (Hentry g k HG). fold members. apply (Permutation_in k (Permutation_sym Pq) Hk). }
  assert (HL : length x = length q) by (rewrite <- (Permutation_length Pq), <- (Permutation_length Px); reflexivity).
  rewrite (opened_next t p H1) in H3, H5 by lia. rewrite M in H3, H5. cbn [t1 tQuestions] in H3, H5.
  destruct q as [|q0 qs].
  - (* nothing to show *)
    assert (x = []) by (destruct x; [reflexivity|discriminate]). subst x. destruct f as [|f'].
    { left. split; [reflexivity|]. right. destruct H5 as [T1 _ [rest [_ T2]]]. exists ks, rest. split; [rewrite <- T1; exact T2|lia]. }
    destruct (painted_spec s1 t1 g false (getDefaultChoices R l count s1) A1 Hg HL Hsz HE) as [s2 [E P]].
    pose proof (agree_same _ _ _ (same_printed _ _ _ P) A1) as A2.
    destruct (judged_spec s2 t1 g (snd (judged R gs t1)) Hg A2 eq_refl eq_refl) as [s3 [E3 [A3 [I1 [I2 I3]]]]].
    assert (EA : askGroup R otherNumber (S f') l ty count g [] [] (getDefaultChoices R l count s1) [] false s1 = Ok false s3).
    { change (askGroup R otherNumber (S f') l ty count g (tQuestions R t1) (tReadings R t1) (getDefaultChoices R l count s1) (tSheet R t1) false s1 = Ok false s3).
      cbn [askGroup]. cbv zeta. match goal with |- context [showMembers R otherNumber l ty 0 _ _ _ _ _ ?z] => match type of E with showMembers R otherNumber l ty 0 _ _ _ _ _ ?y = _ => change z with y end end.
      rewrite E. cbn [rbind]. change (length (tQuestions R t1) - length (tSheet R t1))%nat with 0%nat. cbn [getGroupAnswers rbind tAnswers]. rewrite E3. reflexivity. }
    rewrite EA. cbn [rbind]. clear EA E E3.
    assert (JP : tPos R (fst (judged R gs t1)) = p /\ tQuit R (fst (judged R gs t1)) = false) by (split; [reflexivity|exact H1]).
    destruct JP as [JP JQ]. destruct (judged R gs t1) as [t2 y]. cbn [fst snd] in *. destruct A3 as [B1 B2 B3 B4 B5].
    destruct (Opened t2 (p + 1)) as [t3 z] eqn:EO. cbn [fst snd] in H3, H5.
    assert (EN : Enter (setCurrent R (u16 (current R s3 + 1)) s3) ks t2 (p + 1)).
    2:{ destruct (IH _ _ _ _ EN) as [[K ST]|K]; [left|right; exact K]. split; [exact K|]. destruct ST as [ST|[kk [rr [ST1 [ST2 ST3]]]]]; [left; exact ST|right].
        exists kk, rr. split; [exact ST1|]. split; [exact ST2|]. unfold len in LT. lia. }
    split; [exact JQ|]. split; [lia|]. rewrite EO. cbn [fst snd]. split; [exact H3|]. split; [exact H4|]. split; [|split; [|auto]].
    + assert (T1 : Track s1 ks (Painted t1 ++ y ++ z)) by (eapply track_events; [exact H5|reflexivity|reflexivity]).
      pose proof (track_printed _ _ _ _ _ T1 P) as [T2 T3 T4]. eapply track_events with (s := s3); [|reflexivity|reflexivity].
      constructor; [rewrite I2; exact T2|rewrite I3, <- app_assoc; exact T3|rewrite I1, I2; exact T4].
    + cbn [setCurrent current]. rewrite B1, JP. unfold u16. change (2 ^ 16) with 65536. apply N.mod_small. lia.
  - (* a group to ask for *)
    cbn [fst snd] in H3, H5.
    assert (W : WF t1).
    { constructor; cbn [t1 tQuit tPos tReadings tSheet tQuestions tPhase]; [exact H1|lia|exact HL|unfold size; cbn [t1 tQuestions length] in *; lia|constructor|intros c []| | |exact HE|exact I].
      - unfold size. cbn [t1 tQuestions length]. lia.
      - reflexivity. }
    assert (WT : Waiting ks t1) by (split; [symmetry; exact H3|]; split; [exact W|]; split; [reflexivity|exact H4]).
    assert (T1 : Track s1 ks (Painted t1 ++ sheet_text (tSheet R t1))) by (cbn [t1 tSheet sheet_text]; rewrite app_nil_r; eapply track_events; [exact H5|reflexivity|reflexivity]).
    destruct (group_spec f s1 ks t1 g false (getDefaultChoices R l count s1) WT A1 T1 Hg) as [[E ST]|[[E O]|[[ks' [t' [p' [s' [E [G LG]]]]]]|[ks' [s' [E G]]]]]].
    { right. auto. }
    + change (askGroup R otherNumber f l ty count g (q0 :: qs) x (getDefaultChoices R l count s1) [] false s1 = NoReturn) in E. rewrite E. left. split; [reflexivity|].
      destruct ST as [ST|[kk [rr [ST1 ST2]]]]; [left; exact ST|right]. exists kk, rr. split; [exact ST1|]. split; [lia|]. nia.
    + change (askGroup R otherNumber f l ty count g (q0 :: qs) x (getDefaultChoices R l count s1) [] false s1 = Undefined) in E. rewrite E. right. left. split; [reflexivity|exact O].
    + change (askGroup R otherNumber f l ty count g (q0 :: qs) x (getDefaultChoices R l count s1) [] false s1 = Ok false s') in E. rewrite E. cbn [rbind].
      assert (EN : Enter (setCurrent R (u16 (current R s' + 1)) s') ks' t' p').
      2:{ destruct (IH _ _ _ _ EN) as [[K ST]|K]; [left|right; exact K]. split; [exact K|]. destruct ST as [ST|[kk [rr [ST1 [ST2 ST3]]]]]; [left; exact ST|right].
          exists kk, rr. split; [exact ST1|]. split; [lia|].
          assert (X : ((length kk - length ks') * (length gs + 2) + (length gs + 2) <= (length kk - length ks) * (length gs + 2))%nat) by nia. unfold len in LT. lia. }
      destruct G as [G1 [G2 [G3 [G4 [G5 [G6 G7]]]]]]. split; [exact G1|]. split; [exact G2|]. split; [exact G3|]. split; [exact G4|].
      split; [eapply track_events; [exact G5|reflexivity|reflexivity]|]. split; [exact G6|exact G7].
    + change (askGroup R otherNumber f l ty count g (q0 :: qs) x (getDefaultChoices R l count s1) [] false s1 = Ok true s') in E. rewrite E. cbn [rbind].
      right. right. exists ks', s'. auto.
Qed.

(** ** Facts about the table *)
Lemma moved_facts : forall t p, tPos R (Moved t p) = p /\ tShown R (Moved t p) = tShown R t /\ tRight R (Moved t p) = tRight R t
  /\ tWrong R (Moved t p) = tWrong R t /\ tQuit R (Moved t p) = tQuit R t /\ tSheet R (Moved t p) = [] /\ tPhase R (Moved t p) = Choosing.
Proof. intros t p. unfold moved. destruct (dealt R shuffle l m gs p (tRng R t)) as [[q x] r]. auto 10. Qed.
Lemma dealt_facts : forall p r g, nth_error gs (N.to_nat p) = Some g ->
  let members := filter (includeMember m) (gMembers g) in
  Permutation members (fst (fst (dealt R shuffle l m gs p r))) /\ Permutation members (snd (fst (dealt R shuffle l m gs p r))).
Proof.
  intros p r g Hg. cbv zeta. unfold dealt. rewrite Hg. destruct (quiz && randomizeAnswers l && (p <? count)); [|split; apply Permutation_refl].
  pose proof (Hshuffle (filter (includeMember m) (gMembers g)) r) as K1. destruct (shuffle (filter (includeMember m) (gMembers g)) r) as [q r1].
  pose proof (Hshuffle (filter (includeMember m) (gMembers g)) r1) as K2. destruct (shuffle (filter (includeMember m) (gMembers g)) r1) as [x r2]. cbn [fst snd] in *. auto.
Qed.
Lemma moved_wf : forall t p, tQuit R t = false -> p < count -> tQuestions R (Moved t p) <> [] -> WF (Moved t p).
Proof.
  intros t p Q H NE. destruct (nth_error gs (N.to_nat p)) as [g|] eqn:Hg; [|apply nth_error_None in Hg; unfold len in H; lia].
  assert (HG : In g gs) by (eapply nth_error_In; exact Hg). pose proof (dealt_facts p (tRng R t) g Hg) as [P1 P2]. unfold moved in *.
  destruct (dealt R shuffle l m gs p (tRng R t)) as [[q x] r]. cbn [fst snd tQuestions] in *.
  assert (L1 : length q = length (filter (includeMember m) (gMembers g))) by (symmetry; apply Permutation_length; exact P1).
  assert (L2 : length x = length (filter (includeMember m) (gMembers g))) by (symmetry; apply Permutation_length; exact P2).
  rewrite Forall_forall in Hsize. pose proof (Hsize g HG) as HS. pose proof (filter_le _ (includeMember m) (gMembers g)) as FL.
  constructor; unfold size; cbn [tQuit tPos tReadings tSheet tQuestions tPhase length]; try lia; auto.
  - destruct q; [congruence|]. cbn [length] in *. lia.
  - constructor.
  - intros c [].
  - destruct q; [congruence|]. cbn [length]. lia.
  - intros k Hk. apply (Hentry g k HG). apply (Permutation_in k (Permutation_sym P1) Hk).
Qed.
Lemma judged_facts : forall t, tPos R (fst (judged R gs t)) = tPos R t /\ tQuit R (fst (judged R gs t)) = tQuit R t
  /\ (tRight R t + len (tWrong R t) < 65535 -> tRight R (fst (judged R gs t)) + len (tWrong R (fst (judged R gs t))) = tRight R t + len (tWrong R t) + 1).
Proof.
  intro t. unfold judged. destruct (points _ _ _ _ =? _); cbn [fst tPos tQuit tRight tWrong]; (split; [reflexivity|]); (split; [reflexivity|]); intro H.
  - rewrite N.mod_small by lia. lia.
  - unfold len in *. rewrite app_length. cbn [length]. lia.
Qed.
(** a group is open, or all are done *)
Lemma opened_facts : forall n t p b, N.to_nat (count - p) = n -> tQuit R t = false -> p <= count ->
  let t' := fst (Opened t p) in
  tQuit R t' = false /\ p <= tPos R t' <= count /\ ((Finished t' = true /\ tPos R t' = count) \/ (WF t' /\ tPhase R t' = Choosing /\ tSheet R t' = []))
  /\ (p = b + tRight R t + len (tWrong R t) -> tPos R t' = b + tRight R t' + len (tWrong R t')).
Proof.
  induction n as [|n IH]; intros t p b Hn Q Hp; cbv zeta.
  - assert (p = count) by lia. subst p. rewrite (opened_end t count Q) by lia. cbn [fst]. destruct (moved_facts t count) as [M1 [M2 [M3 [M4 [M5 [M6 M7]]]]]].
    rewrite M5, M1, M3, M4. split; [exact Q|]. split; [lia|]. split; [left; split; [unfold finished; rewrite M1, N.leb_refl; apply orb_true_r|reflexivity]|auto].
  - rewrite (opened_next t p Q) by lia. destruct (moved_facts t p) as [M1 [M2 [M3 [M4 [M5 [M6 M7]]]]]].
    destruct (tQuestions R (Moved t p)) as [|q qs] eqn:E.
    + destruct (judged_facts (Moved t p)) as [J1 [J2 J3]]. destruct (judged R gs (Moved t p)) as [t1 x]. cbn [fst] in *.
      specialize (IH t1 (p + 1) b). rewrite M1 in J1. rewrite M5, Q in J2. rewrite M3, M4 in J3.
      destruct IH as [I1 [I2 [I3 I4]]]; [lia|exact J2|lia|]. destruct (Opened t1 (p + 1)) as [t2 y]. cbn [fst] in *.
      split; [exact I1|]. split; [lia|]. split; [exact I3|]. intro K. apply I4. assert (tRight R t + len (tWrong R t) < 65535) by lia. specialize (J3 H). lia.
    + cbn [fst]. rewrite M5, M1, M3, M4. split; [exact Q|]. split; [lia|]. split; [right; split; [apply moved_wf; [exact Q|lia|congruence]|auto]|auto].
Qed.

Lemma chosen_letter : forall t k, WF t -> tPhase R t = Choosing -> permitted launcherQuit (Asks t) k ->
  k = 47 \/ k = 45 \/ k = 46 \/ (quiz = true /\ (k = 39 \/ k = 42) /\ tSheet R t <> []) \/ (quiz = false /\ k = 44 /\ 0 < tPos R t)
  \/ (quiz = true /\ In k (lettersOf t) /\ ~ In k (tSheet R t)).
Proof.
  intros t k W Ph P. unfold asks in P. rewrite Ph in P. destruct P as [H|[[a [b [H _]]]|[_ [d [= <- _]]]]]; [|discriminate|tauto].
  cbn [rqChoices] in H. apply listing_key in H. destruct H as [H _]. unfold offered_key in H.
  destruct (k =? 45) eqn:E1; [apply N.eqb_eq in E1; tauto|]. destruct (k =? 46) eqn:E2; [apply N.eqb_eq in E2; tauto|]. cbn [orb] in H.
  destruct quiz.
  - apply orb_prop in H. destruct H as [H|H]; apply andb_prop in H; destruct H as [H1 H2].
    + right. right. right. left. split; [reflexivity|]. split; [apply orb_prop in H1; destruct H1 as [H1|H1]; apply N.eqb_eq in H1; tauto|].
      intro K. rewrite K in H2. discriminate.
    + apply member_iff in H1. apply negb_true_iff, member_false in H2. tauto.
  - right. right. right. right. left. apply andb_prop in H. destruct H as [H1 H2]. apply N.eqb_eq in H1. split; [reflexivity|]. split; [exact H1|lia].
Qed.
Lemma picked_letter : forall t k, tPhase R t = Picking -> permitted launcherQuit (Asks t) k -> In k (tSheet R t).
Proof.
  intros t k Ph P. unfold asks in P. rewrite Ph in P. destruct P as [H|[[a [b [H _]]]|[H _]]]; [|discriminate|discriminate].
  cbn [rqChoices] in H. apply listing_key in H. destruct H as [H _]. apply member_iff. exact H.
Qed.
Lemma new_letter : forall t e k, tPhase R t = Replacing e -> permitted launcherQuit (Asks t) k ->
  k = nth e (tSheet R t) 0 \/ (In k (lettersOf t) /\ ~ In k (tSheet R t)).
Proof.
  intros t e k Ph P. unfold asks in P. rewrite Ph in P. destruct P as [H|[[a [b [H _]]]|[H _]]]; [|discriminate|discriminate].
  cbn [rqChoices] in H. apply listing_key in H. destruct H as [H _]. apply orb_prop in H. destruct H as [H|H]; [left; apply N.eqb_eq; exact H|right].
  apply andb_prop in H. destruct H as [H1 H2]. apply member_iff in H1. apply negb_true_iff, member_false in H2. auto.
Qed.
(** what a key leads to; the groups passed are those skipped and those answered *)
Lemma played_facts : forall t k b, WF t -> permitted launcherQuit (Asks t) k -> (quiz = true -> tPos R t = b + tRight R t + len (tWrong R t)) ->
  let t' := fst (Played t k) in
  (Finished t' = true \/ WF t') /\ tPos R t' <= count
  /\ (quiz = true -> tPos R t' = b + skips [k] + tRight R t' + len (tWrong R t')).
Proof.
  intros t k b W P B. cbv zeta. pose proof (W_quit _ W) as Q. pose proof (W_pos _ W) as HP.
  destruct (tPhase R t) as [| |e] eqn:Ph.
  - destruct (chosen_letter t k W Ph P) as [K|[K|[K|[[QZ [K NE]]|[[QZ [K K2]]|[QZ [K1 K2]]]]]]].
    + subst k. unfold played. rewrite Ph. cbn [N.eqb Pos.eqb fst]. split; [left; reflexivity|]. cbn [with_quit tPos tRight tWrong]. split; [lia|]. intro QZ. rewrite (B QZ). change (skips [47]) with 0. lia.
    + subst k. unfold played. rewrite Ph. cbn [N.eqb Pos.eqb fst]. split; [right; apply shown_wf; exact W|]. cbn [with_shown tPos tRight tWrong]. split; [lia|]. intro QZ. rewrite (B QZ). change (skips [45]) with 0. lia.
    + subst k. unfold played. rewrite Ph. cbn [N.eqb Pos.eqb].
      destruct (opened_facts (N.to_nat (count - (tPos R t + 1))) t (tPos R t + 1) (b + 1) eq_refl Q) as [O1 [O2 [O3 O4]]]; [lia|].
      split; [destruct O3 as [O3|O3]; tauto|]. split; [lia|]. intro QZ. rewrite O4; [change (skips [46]) with 1; lia|rewrite (B QZ); lia].
    + destruct K as [K|K]; subst k; unfold played; rewrite Ph; cbn [N.eqb Pos.eqb fst].
      * split; [right; exact W|]. split; [lia|]. intros _. rewrite (B QZ). change (skips [39]) with 0. lia.
      * split; [right|].
        -- apply sheet_wf; [exact W|apply (W_nodup _ W)|apply (W_incl _ W)|apply (W_short _ W)|congruence|]. destruct (Nat.eqb_spec (length (tSheet R t)) 1); [lia|exact NE].
        -- cbn [with_sheet tPos tRight tWrong]. split; [lia|]. intros _. rewrite (B QZ). change (skips [42]) with 0. lia.
    + subst k. unfold played. rewrite Ph. cbn [N.eqb Pos.eqb].
      destruct (opened_facts (N.to_nat (count - (tPos R t - 1))) t (tPos R t - 1) 0 eq_refl Q) as [O1 [O2 [O3 O4]]]; [lia|].
      split; [destruct O3 as [O3|O3]; tauto|]. split; [lia|]. intro K. congruence.
    + pose proof (letters_range _ _ (proj2 (W_size _ W)) K1) as RK. assert (SK : skips [k] = 0) by (unfold skips; cbn [filter]; replace (46 =? k) with false by lia; reflexivity).
      rewrite (given_played t k Ph) by lia. cbv zeta. set (t2 := with_sheet R t (tSheet R t ++ [k]) Choosing).
      destruct (length (tSheet R t2) <? size R t)%nat eqn:LT.
      * apply Nat.ltb_lt in LT. cbn [fst]. split; [right|].
        -- unfold t2. apply sheet_wf; [exact W| | |exact LT|congruence|exact I].
           ++ apply (Permutation_NoDup (Permutation_cons_append (tSheet R t) k)). constructor; [exact K2|apply (W_nodup _ W)].
           ++ intros c Hc. apply in_app_iff in Hc. destruct Hc as [Hc|[<-|[]]]; [apply (W_incl _ W), Hc|exact K1].
        -- unfold t2. cbn [with_sheet tPos tRight tWrong]. split; [lia|]. intros _. rewrite SK, (B QZ). lia.
      * destruct (judged_facts t2) as [J1 [J2 J3]]. destruct (judged R gs t2) as [t1 x]. cbn [fst] in *.
        change (tPos R t2) with (tPos R t) in J1. change (tQuit R t2) with (tQuit R t) in J2. change (tRight R t2) with (tRight R t) in J3. change (tWrong R t2) with (tWrong R t) in J3.
        destruct (opened_facts (N.to_nat (count - (tPos R t1 + 1))) t1 (tPos R t1 + 1) b eq_refl) as [O1 [O2 [O3 O4]]]; [congruence|lia|].
        destruct (Opened t1 (tPos R t1 + 1)) as [t3 y]. cbn [fst] in *.
        split; [destruct O3 as [O3|O3]; tauto|]. split; [lia|]. intros _. rewrite SK. specialize (B QZ). pose proof (J3 ltac:(lia)) as J4. rewrite O4; lia.
  - pose proof (picked_letter t k Ph P) as K. pose proof (wf_letters t k W K) as RK. assert (SK : skips [k] = 0) by (unfold skips; cbn [filter]; replace (46 =? k) with false by lia; reflexivity).
    unfold played. rewrite Ph, place_index. destruct (index_some _ _ K) as [j [J1 J2]]. rewrite J1. cbn [option_map fst]. split; [right|].
    + apply sheet_wf; [exact W|apply (W_nodup _ W)|apply (W_incl _ W)|apply (W_short _ W)|apply (W_review _ W)|apply nth_error_Some; congruence].
    + cbn [with_sheet tPos tRight tWrong]. split; [lia|]. intro QZ. rewrite SK, (B QZ). lia.
  - pose proof (W_phase _ W) as He. rewrite Ph in He. pose proof (new_letter t e k Ph P) as K. assert (Ho : In (nth e (tSheet R t) 0) (tSheet R t)) by (apply nth_In; exact He).
    assert (KL : In k (lettersOf t)) by (destruct K as [K|[K _]]; [subst k; apply (W_incl _ W), Ho|exact K]).
    pose proof (letters_range _ _ (proj2 (W_size _ W)) KL) as RK. assert (SK : skips [k] = 0) by (unfold skips; cbn [filter]; replace (46 =? k) with false by lia; reflexivity).
    unfold played. rewrite Ph. cbn [fst]. split; [right|].
    + apply sheet_wf; [exact W| | | | |exact I].
      * apply replaced_nodup; [exact He|apply (W_nodup _ W)|]. tauto.
      * intros c Hc. apply replaced_in in Hc; [|exact He|apply (W_nodup _ W)]. destruct Hc as [->|[Hc _]]; [exact KL|apply (W_incl _ W), Hc].
      * rewrite replaced_length by exact He. apply (W_short _ W).
      * intro QZ. pose proof (W_review _ W QZ) as E. rewrite E in He. cbn [length] in He. lia.
    + cbn [with_sheet tPos tRight tWrong]. split; [lia|]. intro QZ. rewrite SK, (B QZ). lia.
Qed.
Lemma skips_snoc : forall ks k, skips (ks ++ [k]) = skips ks + skips [k].
Proof. intros. unfold skips. rewrite filter_app. unfold len. rewrite app_length. lia. Qed.
Lemma playable_facts : forall ks t b, Finished t = true \/ WF t -> tPos R t <= count -> (quiz = true -> tPos R t = b + tRight R t + len (tWrong R t)) -> Playable t ks ->
  (Finished (After t ks) = true \/ WF (After t ks)) /\ tPos R (After t ks) <= count
  /\ (quiz = true -> tPos R (After t ks) = b + skips ks + tRight R (After t ks) + len (tWrong R (After t ks))).
Proof.
  induction ks as [|k ks IH] using rev_ind; intros t b W0 P0 B Pl.
  - split; [exact W0|]. split; [exact P0|]. intro Q. change (skips []) with 0. change (After t []) with t. rewrite (B Q). lia.
  - apply playable_snoc in Pl. destruct Pl as [Pl [F [Pk _]]]. destruct (IH t b W0 P0 B Pl) as [I1 [I2 I3]]. destruct I1 as [I1|I1]; [congruence|].
    rewrite after_snoc. destruct (played_facts (After t ks) k (b + skips ks) I1 Pk I3) as [J1 [J2 J3]]. split; [exact J1|]. split; [exact J2|].
    intro Q. rewrite (J3 Q), skips_snoc. lia.
Qed.

(** ** How many keys can be read *)
Lemma reads_count : forall q ls ps rest, reads q ls ps rest -> (length (filter (fun p => match rqDefault (sRequest p) with None => true | _ => false end) ps) <= length ls)%nat.
Proof.
  intros q ls ps rest H. induction H as [ls|x ls p ps rest Hx Hn H IH|x ls p ps rest Hx H IH|p ps rest Hd H IH]; cbn [filter length] in *; try lia.
  - destruct (rqDefault (sRequest p)); cbn [length]; lia.
  - rewrite Hd. exact IH.
Qed.
Lemma script_count : forall ks t h, (length ks <= 2 * length (filter (fun p => match rqDefault (sRequest p) with None => true | _ => false end) (fst (Script t h ks)))
   + match tPhase R t with Replacing _ => 1 | _ => 0 end)%nat.
Proof.
  induction ks as [|k ks IH]; intros t h; cbn [script length filter]; [lia|]. destruct (Played t k) as [t' y] eqn:E. specialize (IH t' y).
  destruct (Script t' y ks) as [ps e]. cbn [fst filter sRequest] in *. unfold asks at 1. destruct (tPhase R t) as [| |j] eqn:Ph; cbn [rqDefault length].
  - destruct (tPhase R t'); lia.
  - destruct (tPhase R t'); lia.
  - assert (tPhase R t' = Choosing) by (unfold played in E; rewrite Ph in E; injection E as <- <-; reflexivity). rewrite H in IH. lia.
Qed.
Lemma keys_bound : forall t h ls ps ks rest, reads launcherQuit ls (ps ++ fst (Script t h ks)) rest -> (length ks <= 2 * length ls + 1)%nat.
Proof.
  intros t h ls ps ks rest H. apply reads_count in H. rewrite filter_app, app_length in H. pose proof (script_count ks t h) as K. destruct (tPhase R t); lia.
Qed.
End Group.
