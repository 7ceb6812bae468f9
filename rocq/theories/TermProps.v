(** Properties of choices made with single keys. *)
From Verif Require Import BaseFacts ChoiceModel ChoiceSpec ChoiceProofs ChoiceProps TermModel TermSpec.
Open Scope N_scope.
Arguments N.mul : simpl never. Arguments N.add : simpl never. Arguments N.sub : simpl never. Arguments N.pow : simpl never.

(** ** One key *)
Definition next (l : list ReadResult) : ReadResult := hd ReadEnd l.
Lemma typed_other : forall c, c <> 10 -> typed (ReadKey c) = [c].
Proof. intros [|p] H; [reflexivity|]. do 4 (destruct p as [p|p|]; try reflexivity). destruct (H eq_refl). Qed.
Lemma one_char : forall ic ec t, let '(c, t') := getOneChar ic ec t in
  (if c =? 10 then [] else [c]) = typed (next (tReads t)) /\ tReads t' = tl (tReads t).
Proof.
  intros ic ec [[s|] l es ms]; unfold getOneChar, readOne, setAttr, tcgetattr; cbn [tTty tReads tErrors tModes];
    destruct l as [|[c| |] l]; cbn [tTty tReads tErrors tModes next hd tl]; split; try reflexivity;
    (destruct (N.eqb_spec c 10) as [->|H]; [reflexivity|symmetry; apply typed_other; exact H]).
Qed.
Lemma key_step : forall ic ec f m def p t w, exists t', tReads t' = tl (tReads t)
  /\ keyLoop ic ec (S f) m def p t w =
     match typed (next (tReads t)), def with
     | [], Some d => Val (d, t', w ++ p ++ [10])
     | [c], _ => if hasKey c m then Val (c, t', w ++ p ++ [10]) else keyLoop ic ec f m def p t' (w ++ p ++ [10])
     | _, _ => keyLoop ic ec f m def p t' (w ++ p ++ [10])
     end.
Proof.
  intros ic ec f m def p t w. cbn [keyLoop]. pose proof (one_char ic ec t) as H. destruct (getOneChar ic ec t) as [c t']. destruct H as [H1 H2].
  exists t'. split; [exact H2|]. rewrite H1, <- app_assoc. reflexivity.
Qed.
Definition okc (m : Choices) (c : N) : Prop := In c (map fst m).
Lemma key_answer : forall m def p c k rs, first_answer (okc m) def (map typed rs) k c -> forall ic ec t w, tReads t = rs ->
  exists t', tReads t' = skipn (S k) rs
  /\ forall f, (k < f)%nat -> keyLoop ic ec f m def p t w = Val (c, t', w ++ concat (repeat (p ++ [10]) (S k))).
Proof.
  intros m def p c. induction k as [|k IH]; intros rs [[l [Hl Ha]] Hb] ic ec t w Ht; destruct rs as [|r rs]; try discriminate Hl; cbn [map nth_error] in Hl.
  - injection Hl as <-. destruct (key_step ic ec O m def p t w) as [t' [Hr _]]. pose proof (one_char ic ec t) as X.
    exists (snd (getOneChar ic ec t)). destruct (getOneChar ic ec t) as [c1 t1] eqn:Eg. cbn [snd]. destruct X as [X1 X2]. rewrite Ht in X1, X2. cbn [next hd tl] in X1, X2.
    split; [exact X2|]. intros f Hf. destruct f as [|f]; [lia|]. cbn [keyLoop]. rewrite Eg, X1. cbn [repeat concat]. rewrite app_nil_r, <- app_assoc.
    destruct Ha as [[-> Hc]|[-> ->]]; [|reflexivity]. apply hasKey_iff in Hc. rewrite Hc. destruct def; reflexivity.
  - assert (N0 : forall x, ~ answers (okc m) def (typed r) x) by (intros x; apply (Hb 0%nat); [lia|reflexivity]).
    pose proof (one_char ic ec t) as X. destruct (getOneChar ic ec t) as [c1 t1] eqn:Eg. destruct X as [X1 X2]. rewrite Ht in X1, X2. cbn [next hd tl] in X1, X2.
    destruct (IH rs) with (ic := ic) (ec := ec) (t := t1) (w := w ++ p ++ [10]) as [t' [T1 T2]].
    { split; [exists l; split; [exact Hl|exact Ha]|]. intros j l' x Hj Hj'. apply (Hb (S j)); [lia|exact Hj']. }
    { exact X2. }
    exists t'. split; [exact T1|]. intros f Hf. destruct f as [|f]; [lia|]. cbn [keyLoop]. rewrite Eg, X1, <- app_assoc.
    assert (G : keyLoop ic ec f m def p t1 (w ++ p ++ [10]) = Val (c, t', w ++ concat (repeat (p ++ [10]) (S (S k))))).
    { rewrite (T2 f ltac:(lia)). cbn [repeat concat]. rewrite !app_assoc. reflexivity. }
    destruct (typed r) as [|x [|y l']] eqn:Er.
    + destruct def as [d|]; [|exact G]. exfalso. apply (N0 d). right. auto.
    + destruct (hasKey x m) eqn:K; [|destruct def; exact G]. exfalso. apply (N0 x). left. split; [reflexivity|]. apply hasKey_iff. exact K.
    + destruct def; exact G.
Qed.
Lemma key_none : forall m def p, ~ okc m 0 -> forall ic ec f t w, no_answer (okc m) def (map typed (tReads t)) -> keyLoop ic ec f m def p t w = Fuel.
Proof.
  intros m def p H0 ic ec. induction f as [|f IH]; intros t w Hn; [reflexivity|].
  destruct (key_step ic ec f m def p t w) as [t' [Hr ->]].
  assert (N0 : forall x, ~ answers (okc m) def (typed (next (tReads t))) x).
  { intros x. destruct (tReads t) as [|r rs]; [|apply Hn; left; reflexivity]. intros [[K1 K2]|[K1 _]]; [|discriminate K1]. injection K1 as <-. exact (H0 K2). }
  assert (G : keyLoop ic ec f m def p t' (w ++ p ++ [10]) = Fuel).
  { apply IH. intros l c Hl. rewrite Hr in Hl. apply Hn. destruct (tReads t); [exact Hl|right; exact Hl]. }
  destruct (typed (next (tReads t))) as [|x [|y l']].
  - destruct def as [d|]; [|exact G]. exfalso. apply (N0 d). right. auto.
  - destruct (hasKey x m) eqn:K; [|destruct def; exact G]. exfalso. apply (N0 x). left. split; [reflexivity|]. apply hasKey_iff. exact K.
  - destruct def; exact G.
Qed.
Lemma key_spec : forall ic ec q msg u m def t, is_map m -> valid_request q u m def ->
  exists gs, all_apart gs /\ is_map (flat_map group_choices gs)
    /\ (forall e, In e (flat_map group_choices gs) <-> offered q u m e)
    /\ (forall k c, first_answer (allowed q u m) def (map typed (tReads t)) k c ->
          exists t', tReads t' = skipn (S k) (tReads t)
            /\ forall f, (k < f)%nat -> getKey ic ec f q msg u m def t = Val (c, t', concat (repeat (prompt_text msg gs def ++ [10]) (S k))))
    /\ (no_answer (allowed q u m) def (map typed (tReads t)) -> forall f, getKey ic ec f q msg u m def t = Fuel).
Proof.
  intros ic ec q msg u m def t Hm V. destruct (prepare_ok q msg u m def Hm V) as [gs [G1 [G2 G3]]]. exists gs. split; [exact G1|].
  rewrite G2. split; [apply all_map; [exact Hm|apply V]|]. split; [intro e; apply all_offered|].
  pose proof (all_allowed q u m) as A.
  assert (X : forall l c, answers (okc (all_choices q u m)) def l c <-> answers (allowed q u m) def l c) by (intros; apply answers_ext; exact A).
  unfold getKey. rewrite G3. cbn [obind]. split.
  - intros k c [[l [Hl Ha]] Hb].
    apply (key_answer (all_choices q u m) def (prompt_text msg gs def) c k (tReads t)); [|reflexivity].
    split; [exists l; split; [exact Hl|apply X; exact Ha]|]. intros j l' x Hj Hj' K. apply (Hb j l' x Hj Hj'). apply X. exact K.
  - intros Hn f. apply key_none.
    + intro K. apply A in K. apply V in K. unfold printable in K. lia.
    + intros l c Hl K. apply (Hn l c Hl). apply X. exact K.
Qed.

(** * C141: choices made with single keys *)

(** the first key that is an answer is the answer: a key of a choice, or Enter if there is a default.  The keys after it are not read, and
    for every key read the prompt and a line feed are written *)
Theorem C141_first_key : forall ic ec q msg u m def t, is_map m -> valid_request q u m def ->
  exists gs, all_apart gs /\ is_map (flat_map group_choices gs)
    /\ (forall e, In e (flat_map group_choices gs) <-> offered q u m e)
    /\ forall k c, first_answer (allowed q u m) def (map typed (tReads t)) k c ->
        exists t', tReads t' = skipn (S k) (tReads t)
          /\ forall f, (k < f)%nat -> getKey ic ec f q msg u m def t = Val (c, t', concat (repeat (prompt_text msg gs def ++ [10]) (S k))).
Proof.
  intros ic ec q msg u m def t Hm V. destruct (key_spec ic ec q msg u m def t Hm V) as [gs [A1 [A2 [A3 [A4 _]]]]]. exists gs. auto.
Qed.
Print Assumptions C141_first_key.
(** it is the answer that the same lines would be in a stream *)
Theorem C141_like_stream : forall ic ec q msg u m def t i k c, is_map m -> valid_request q u m def -> lines_left i (map typed (tReads t)) ->
  first_answer (allowed q u m) def (map typed (tReads t)) k c ->
  exists t' w i' w', forall f, (k < f)%nat -> getKey ic ec f q msg u m def t = Val (c, t', w) /\ get f q msg u m def i = Val (c, i', w').
Proof.
  intros ic ec q msg u m def t i k c Hm V Hi H. destruct (key_spec ic ec q msg u m def t Hm V) as [gs [_ [_ [_ [A4 _]]]]].
  destruct (A4 k c H) as (t' & _ & T). destruct (C27_first_answer_returned q msg u m def i _ k c Hm Hi V H) as (i' & w' & _ & W).
  eexists. eexists. exists i', w'. intros f Hf. split; [apply T; exact Hf|apply W; exact Hf].
Qed.
Print Assumptions C141_like_stream.
(** requests that make no sense are refused before a key is read; without an answer among the keys the program asks for ever, even if
    the keys have ended and there is a default *)
Theorem C141_never : forall ic ec q msg u m def t, is_map m ->
  (~ valid_request q u m def -> forall f, getKey ic ec f q msg u m def t = Throw DomainError)
  /\ (valid_request q u m def -> no_answer (allowed q u m) def (map typed (tReads t)) -> forall f, getKey ic ec f q msg u m def t = Fuel).
Proof.
  intros ic ec q msg u m def t Hm. split.
  - intros V f. unfold getKey. rewrite prepare_bad by assumption. reflexivity.
  - intros V Hn f. destruct (key_spec ic ec q msg u m def t Hm V) as [gs [_ [_ [_ [_ A5]]]]]. apply A5. exact Hn.
Qed.
Print Assumptions C141_never.

(** ** Settings of the terminal *)
Lemma pow_bit : forall a i, N.testbit (2 ^ a) i = (i =? a).
Proof. intros a i. destruct (N.eqb_spec i a) as [->|H]; [apply N.pow2_bits_true|apply N.pow2_bits_false; congruence]. Qed.
Lemma raw_bits : forall ic ec s, raw ic ec s (MkSettings (N.ldiff (N.ldiff (sLocal s) (2 ^ ic)) (2 ^ ec)) 1 0 (sOthers s)).
Proof.
  intros ic ec s. unfold raw. cbn [sLocal sMin sTime sOthers]. rewrite !N.ldiff_spec, !pow_bit, !N.eqb_refl.
  split; [cbn; rewrite ?andb_false_r; reflexivity|]. split; [cbn; rewrite ?andb_false_r; reflexivity|]. split; [|auto].
  intros i H1 H2. rewrite !N.ldiff_spec, !pow_bit. replace (i =? ic) with false by lia. replace (i =? ec) with false by lia. cbn. rewrite !andb_true_r. reflexivity.
Qed.
Lemma cooked_bits : forall ic ec s, cooked ic ec s (MkSettings (N.lor (N.lor (N.ldiff (N.ldiff (sLocal s) (2 ^ ic)) (2 ^ ec)) (2 ^ ic)) (2 ^ ec)) 1 0 (sOthers s)).
Proof.
  intros ic ec s. unfold cooked. cbn [sLocal sMin sTime sOthers]. rewrite !N.lor_spec, !pow_bit, !N.eqb_refl.
  split; [rewrite orb_true_r; reflexivity|]. split; [rewrite orb_true_r; reflexivity|]. split; [|auto].
  intros i H1 H2. rewrite !N.lor_spec, !N.ldiff_spec, !pow_bit. replace (i =? ic) with false by lia. replace (i =? ec) with false by lia. cbn.
  rewrite !andb_true_r, !orb_false_r. reflexivity.
Qed.
(** what a key does to the terminal *)
Definition Seen (ic ec : N) (s : Settings) (t t' : Term) : Prop :=
  tErrors t' = tErrors t ++ repeat (b_ "read()") (List.length (tErrors t') - List.length (tErrors t))
  /\ (exists s', tTty t' = Some s' /\ cooked ic ec s s')
  /\ exists ms, tModes t' = tModes t ++ ms /\ ms <> [] /\ Forall (fun x => exists r, x = Some r /\ raw ic ec s r) ms.
Lemma seen_one : forall ic ec s t c t', tTty t = Some s -> getOneChar ic ec t = (c, t') -> Seen ic ec s t t'.
Proof.
  intros ic ec s [tty l es ms] c t' H E. cbn [tTty] in H. subst tty.
  assert (R : forall es', exists x, tModes (MkTerm (Some s) l es' (ms ++ [Some (MkSettings (N.ldiff (N.ldiff (sLocal s) (2 ^ ic)) (2 ^ ec)) 1 0 (sOthers s))])) = ms ++ x
            /\ x <> [] /\ Forall (fun x => exists r, x = Some r /\ raw ic ec s r) x).
  { intros es'. eexists. split; [reflexivity|]. split; [discriminate|]. constructor; [|constructor]. eexists. split; [reflexivity|]. apply raw_bits. }
  unfold getOneChar, readOne, setAttr, tcgetattr in E. cbn [tTty tReads tErrors tModes] in E.
  destruct l as [|[k| |] l]; injection E as <- <-; unfold Seen; cbn [tTty tErrors tModes sLocal sMin sTime sOthers]; (split; [|split; [eexists; split; [reflexivity|apply cooked_bits]|apply (R es)]]).
  - rewrite Nat.sub_diag. cbn [repeat]. rewrite app_nil_r. reflexivity.
  - rewrite Nat.sub_diag. cbn [repeat]. rewrite app_nil_r. reflexivity.
  - rewrite Nat.sub_diag. cbn [repeat]. rewrite app_nil_r. reflexivity.
  - rewrite app_length. cbn [List.length]. replace (List.length es + 1 - List.length es)%nat with 1%nat by lia. reflexivity.
Qed.
Lemma cooked_raw : forall ic ec s s' r, cooked ic ec s s' -> raw ic ec s' r -> raw ic ec s r.
Proof.
  intros ic ec s s' r (_ & _ & B1 & _ & _ & B2) (A1 & A2 & A3 & A4 & A5 & A6). split; [exact A1|]. split; [exact A2|]. split; [|split; [exact A4|split; [exact A5|congruence]]].
  intros i H1 H2. rewrite A3, B1 by assumption. reflexivity.
Qed.
Lemma cooked_again : forall ic ec s s' r, cooked ic ec s s' -> cooked ic ec s' r -> cooked ic ec s r.
Proof.
  intros ic ec s s' r (_ & _ & B1 & _ & _ & B2) (A1 & A2 & A3 & A4 & A5 & A6). split; [exact A1|]. split; [exact A2|]. split; [|split; [exact A4|split; [exact A5|congruence]]].
  intros i H1 H2. rewrite A3, B1 by assumption. reflexivity.
Qed.
Lemma seen_loop : forall ic ec m def p f t w s c t' w', tTty t = Some s -> keyLoop ic ec f m def p t w = Val (c, t', w') -> Seen ic ec s t t'.
Proof.
  intros ic ec m def p. induction f as [|f IH]; intros t w s c t' w' H E; [discriminate E|]. cbn [keyLoop] in E.
  destruct (getOneChar ic ec t) as [c1 t1] eqn:Eg. pose proof (seen_one _ _ _ _ _ _ H Eg) as S1.
  assert (G : keyLoop ic ec f m def p t1 ((w ++ p) ++ [10]) = Val (c, t', w') -> Seen ic ec s t t').
  { intro K. destruct S1 as (A1 & (s1 & A2 & A3) & ms & A4 & A5 & A6). destruct (IH _ _ _ _ _ _ A2 K) as (B1 & (s2 & B2 & B3) & ms2 & B4 & B5 & B6).
    split; [|split].
    - remember (List.length (tErrors t1) - List.length (tErrors t))%nat as a. remember (List.length (tErrors t') - List.length (tErrors t1))%nat as b.
      assert (Hr : forall (x : bytes) n k, repeat x n ++ repeat x k = repeat x (n + k)) by (intros; symmetry; apply repeat_app).
      assert (Hl : tErrors t' = tErrors t ++ repeat (b_ "read()") (a + b)) by (rewrite B1, A1, <- app_assoc, Hr; reflexivity).
      rewrite Hl at 1. f_equal. f_equal. rewrite Hl, app_length, repeat_length. lia.
    - exists s2. split; [exact B2|]. eapply cooked_again; eauto.
    - exists (ms ++ ms2). split; [rewrite B4, A4, app_assoc; reflexivity|]. split; [intro K0; apply app_eq_nil in K0; destruct K0; contradiction|].
      apply Forall_app. split; [exact A6|]. eapply Forall_impl; [|exact B6]. intros x (r & -> & R). exists r. split; [reflexivity|]. eapply cooked_raw; eauto. }
  destruct (c1 =? 10).
  - destruct def; [injection E as _ <- _; exact S1|exact (G E)].
  - destruct (hasKey c1 m); [destruct def; injection E as _ <- _; exact S1|destruct def; exact (G E)].
Qed.
(** while a key is waited for, keys are given at once and not shown; after that whole lines are given and shown.  Nothing else of the
    settings is changed but VMIN and VTIME, and only a failed read is reported *)
Theorem C141_settings : forall ic ec f q msg u m def t s c t' w, tTty t = Some s -> getKey ic ec f q msg u m def t = Val (c, t', w) ->
  (exists s', tTty t' = Some s' /\ cooked ic ec s s')
  /\ (exists ms, tModes t' = tModes t ++ ms /\ ms <> [] /\ Forall (fun x => exists r, x = Some r /\ raw ic ec s r) ms)
  /\ exists n, tErrors t' = tErrors t ++ repeat (b_ "read()") n.
Proof.
  intros ic ec f q msg u m def t s c t' w H E. unfold getKey in E. destruct (prepare q msg u m def) as [[m' p]| | |]; try discriminate E. cbn [obind] in E.
  destruct (seen_loop _ _ _ _ _ _ _ _ _ _ _ _ H E) as (A1 & A2 & A3). split; [exact A2|]. split; [exact A3|]. eexists. exact A1.
Qed.
Print Assumptions C141_settings.
(** the settings are as before if they were those of a terminal that gives and shows whole lines *)
Theorem C141_restored_partial : forall ic ec f q msg u m def t s c t' w, tTty t = Some s -> getKey ic ec f q msg u m def t = Val (c, t', w) ->
  N.testbit (sLocal s) ic = true -> N.testbit (sLocal s) ec = true -> sMin s = 1 -> sTime s = 0 -> tTty t' = Some s.
Proof.
  intros ic ec f q msg u m def t s c t' w H E B1 B2 M1 M2. destruct (C141_settings _ _ _ _ _ _ _ _ _ _ _ _ _ H E) as ((s' & T & C1 & C2 & C3 & C4 & C5 & C6) & _).
  rewrite T. f_equal. destruct s as [lo mi ti os], s' as [lo' mi' ti' os']. cbn [sLocal sMin sTime sOthers] in *. subst. f_equal. apply N.bits_inj. intro i.
  destruct (N.eq_dec i ic) as [->|H1]; [congruence|]. destruct (N.eq_dec i ec) as [->|H2]; [congruence|]. apply C3; assumption.
Qed.
Print Assumptions C141_restored_partial.
(** but not in general: a terminal that does not show what is typed does so after a choice *)
Theorem C141_restored_refuted : exists t s s' c t' w, tTty t = Some s /\ N.testbit (sLocal s) 3 = false
  /\ getKey 1 3 1 None [] true [(97, [])] None t = Val (c, t', w) /\ tTty t' = Some s' /\ N.testbit (sLocal s') 3 = true.
Proof.
  exists (MkTerm (Some (MkSettings 2 1 0 [])) [ReadKey 97] [] []). eexists. eexists. eexists. eexists. eexists.
  split; [reflexivity|]. split; [reflexivity|]. split; [vm_compute; reflexivity|]. split; reflexivity.
Qed.
Print Assumptions C141_restored_refuted.
(** without a terminal three errors are reported for each key, the first one about the wrong function (tcgetattr failed) *)
Theorem C141_no_terminal : forall ic ec t c t', tTty t = None -> getOneChar ic ec t = (c, t') ->
  tTty t' = None /\ exists es, tErrors t' = tErrors t ++ [b_ "tcsetattr()"; b_ "tcsetattr() - turning on raw mode"] ++ es ++ [b_ "tcsetattr() - turning off raw mode"]
    /\ (es = [] \/ es = [b_ "read()"]).
Proof.
  intros ic ec [tty l es ms] c t' H E. cbn [tTty] in H. subst tty. unfold getOneChar, readOne, setAttr, tcgetattr in E. cbn [tTty tReads tErrors tModes] in E.
  destruct l as [|[k| |] l]; injection E as <- <-; cbn [tTty tErrors]; (split; [reflexivity|]).
  - exists []. split; [rewrite <- !app_assoc; reflexivity|auto].
  - exists []. split; [rewrite <- !app_assoc; reflexivity|auto].
  - exists []. split; [rewrite <- !app_assoc; reflexivity|auto].
  - exists [b_ "read()"]. split; [rewrite <- !app_assoc; reflexivity|auto].
Qed.
Print Assumptions C141_no_terminal.
(** a key that is no choice, then Enter for the default; 'x' is left *)
Example C141_case : exists t', getKey 1 3 2 (Some (47, b_ "quit")) (b_ "ok?") true [(97, b_ "yes"); (98, [])] (Some 98)
    (MkTerm (Some (MkSettings 10 1 0 [])) [ReadKey 122; ReadKey 10; ReadKey 120] [] [])
  = Val (98, t', b_ "ok? (/=quit, a=yes, b) def 'b': " ++ [10] ++ b_ "ok? (/=quit, a=yes, b) def 'b': " ++ [10])
  /\ tReads t' = [ReadKey 120] /\ tTty t' = Some (MkSettings 10 1 0 []) /\ tModes t' = [Some (MkSettings 0 1 0 []); Some (MkSettings 0 1 0 [])].
Proof. eexists. split; [vm_compute; reflexivity|]. split; [reflexivity|]. split; reflexivity. Qed.
