(** Properties of kanaConvert at a terminal. *)
From Verif Require Import BaseFacts ArgsProofs ProgramModel ProgramSpec ProgramProofs ProgramRun TermModel ConsoleModel ConsoleSpec.
Open Scope N_scope.
Arguments N.mul : simpl never. Arguments N.add : simpl never. Arguments N.sub : simpl never. Arguments N.pow : simpl never.

(** ** Keys *)
Lemma keys_left : forall l, keysLeft (map ReadKey l) = l.
Proof. induction l as [|c l IH]; [reflexivity|]. unfold keysLeft in *. cbn [map flat_map app]. rewrite IH. reflexivity. Qed.
Lemma no_key : forall c, ~ sets_flag c -> hasKey c flagChoices = false.
Proof. intros c H. apply not_true_iff_false. intro K. apply H. apply has_flag_key. exact K. Qed.
Lemma one_key : forall ic ec s k l es ms, exists s' ms', getOneChar ic ec (MkTerm (Some s) (ReadKey k :: l) es ms) = (k, MkTerm (Some s') l es ms').
Proof. intros ic ec s k l es ms. unfold getOneChar, readOne, setAttr, tcgetattr. cbn [tTty tReads tErrors tModes]. eexists. eexists. reflexivity. Qed.
Lemma no_more_keys : forall ic ec s es ms, exists s' ms', getOneChar ic ec (MkTerm (Some s) [] es ms) = (0, MkTerm (Some s') [] es ms').
Proof. intros ic ec s es ms. unfold getOneChar, readOne, setAttr, tcgetattr. cbn [tTty tReads tErrors tModes]. eexists. eexists. reflexivity. Qed.
Lemma wrong_key : forall ic ec f p s k l es ms w, ~ sets_flag k -> exists s' ms',
  keyLoop ic ec (S f) flagChoices None p (MkTerm (Some s) (ReadKey k :: l) es ms) w
  = keyLoop ic ec f flagChoices None p (MkTerm (Some s') l es ms') (w ++ p ++ [10]).
Proof.
  intros ic ec f p s k l es ms w H. destruct (one_key ic ec s k l es ms) as (s' & ms' & E). exists s', ms'. cbn [keyLoop]. rewrite E, <- app_assoc.
  destruct (k =? 10); [reflexivity|]. rewrite (no_key k H). reflexivity.
Qed.
Lemma flag_key : forall ic ec p c n r, flag_letter c n -> forall others, Forall (fun k => ~ sets_flag k) others -> forall f s es ms w,
  (forall x, (length others < f)%nat -> exists t, tReads t = map ReadKey r
     /\ keyLoop ic ec f flagChoices None p (MkTerm (Some s) (map ReadKey (others ++ c :: r)) es ms) (x ++ w)
        = Val (c, t, x ++ w ++ concat (repeat (p ++ [10]) (S (length others)))))
  /\ ((f <= length others)%nat -> keyLoop ic ec f flagChoices None p (MkTerm (Some s) (map ReadKey (others ++ c :: r)) es ms) w = Fuel).
Proof.
  intros ic ec p c n r K others F. induction F as [|k others Hk F IH]; intros f s es ms w.
  - split; [|cbn [length]; intro H; replace f with O by lia; reflexivity]. intros x H. destruct f as [|f]; [cbn [length] in H; lia|].
    cbn [app map]. destruct (one_key ic ec s c (map ReadKey r) es ms) as (s' & ms' & E). eexists. split; [|cbn [keyLoop]; rewrite E].
    2:{ replace (c =? 10) with false by (destruct K; reflexivity). replace (hasKey c flagChoices) with true by (symmetry; apply has_flag_key; eauto).
        cbn [length repeat concat]. rewrite app_nil_r, <- !app_assoc. reflexivity. }
    reflexivity.
  - split.
    + intros x H. destruct f as [|f]; [cbn [length] in H; lia|]. cbn [app map].
      destruct (wrong_key ic ec f p s k (map ReadKey (others ++ c :: r)) es ms (x ++ w) Hk) as (s' & ms' & ->).
      destruct (IH f s' es ms' (p ++ [10])) as [A _]. destruct (A (x ++ w)) as (t & T1 & T2); [cbn [length] in H; lia|].
      exists t. split; [exact T1|]. rewrite T2. cbn [length repeat concat]. rewrite <- !app_assoc. reflexivity.
    + intros H. destruct f as [|f]; [reflexivity|]. cbn [app map].
      destruct (wrong_key ic ec f p s k (map ReadKey (others ++ c :: r)) es ms w Hk) as (s' & ms' & ->).
      apply IH. cbn [length] in H. lia.
Qed.
Lemma no_flag_key : forall ic ec p others, Forall (fun k => ~ sets_flag k) others -> forall f s es ms w,
  keyLoop ic ec f flagChoices None p (MkTerm (Some s) (map ReadKey others) es ms) w = Fuel.
Proof.
  intros ic ec p others F f. revert others F. induction f as [|f IH]; intros others F s es ms w; [reflexivity|]. destruct F as [|k others Hk F].
  - cbn [map keyLoop]. destruct (no_more_keys ic ec s es ms) as (s' & ms' & E). rewrite E. change (0 =? 10) with false. cbv iota.
    change (hasKey 0 flagChoices) with false. apply (IH []). constructor.
  - cbn [map]. destruct (wrong_key ic ec f p s k (map ReadKey others) es ms w Hk) as (s' & ms' & ->). apply IH. exact F.
Qed.

(** ** Lines *)
(** [i] is what is left of the typed text *)
Definition left_of (i : istream) (text : bytes) : Prop := inRest i = text /\ (inEof i = true -> text = []).
Lemma split_all : forall s, ~ In 10 s -> splitLine s = (s, None).
Proof.
  induction s as [|c s IH]; intro H; [reflexivity|]. cbn [splitLine]. destruct (N.eqb_spec c 10) as [->|K]; [destruct H; left; reflexivity|].
  rewrite IH by (intro X; apply H; right; exact X). reflexivity.
Qed.
Lemma read_line : forall i text s r, left_of i text -> first_line text s r ->
  exists i', left_of i' r /\ getlineOk i = true /\ getline i [] = (s, i').
Proof.
  intros [rest e] text s r [H1 H2] [NL E]. cbn [inRest inEof] in *. subst rest.
  assert (Ne : text <> []) by (destruct E as [->|(-> & K & _)]; [destruct s; discriminate|exact K]).
  destruct e; [destruct (Ne (H2 eq_refl))|]. unfold getlineOk, getline. cbn [inEof inRest negb andb]. destruct E as [->|(-> & _ & ->)].
  - rewrite split_lf by exact NL. exists (MkIn r false). split; [split; [reflexivity|discriminate]|]. split; [|reflexivity].
    destruct (s ++ 10 :: r) eqn:X; [destruct s; discriminate|]. reflexivity.
  - rewrite split_all by exact NL. exists (MkIn [] true). split; [split; reflexivity|]. split; [|reflexivity]. destruct s; [destruct (Ne eq_refl)|reflexivity].
Qed.
Lemma nothing_left : forall i, left_of i [] -> getlineOk i = false.
Proof. intros [rest e] [H1 _]. cbn [inRest] in H1. subst. unfold getlineOk. cbn. destruct e; reflexivity. Qed.
Lemma first_line_ex : forall text, text <> [] -> exists s r, first_line text s r.
Proof.
  intros text H. destruct (some_lines text) as [ls L]. destruct L as [|l A B|l s ls A L]; [destruct (H eq_refl)| |].
  - exists l, []. split; [exact B|]. right. auto.
  - exists l, s. split; [exact A|]. left. reflexivity.
Qed.
Lemma first_line_unique : forall text s r s' r', first_line text s r -> first_line text s' r' -> s = s' /\ r = r'.
Proof.
  intros text s r s' r' H H'. assert (Ne : text <> []) by (destruct H as [_ [->|(-> & K & _)]]; [destruct s; discriminate|exact K]).
  assert (Li : left_of (MkIn text false) text) by (split; [reflexivity|discriminate]).
  destruct (read_line _ _ _ _ Li H) as (i1 & [Q1 _] & _ & G1). destruct (read_line _ _ _ _ Li H') as (i2 & [Q2 _] & _ & G2).
  rewrite G1 in G2. injection G2 as -> ->. split; [reflexivity|congruence].
Qed.
Lemma first_line_shorter : forall text s r, first_line text s r -> (length r < length text)%nat.
Proof. intros text s r [_ [->|(-> & K & ->)]]; [rewrite app_length; cbn [length]; lia|destruct s; [congruence|cbn [length]; lia]]. Qed.

Lemma first_of : forall A (x y : A) l l', x :: l = y :: l' -> y = x.
Proof. congruence. Qed.
(** a line other than "f" does the same at a terminal as in a given input *)
Lemma line_done : forall ltr v s w v', step ltr true true v [s] w v' [] -> beq s (b_ "q") = false /\ beq s (b_ "f") = false
  /\ ((forall f i, processLine f v s i = (w, Val (false, v', i)))
      \/ (v' = v /\ exists o, converted ltr v s o /\ w = o ++ [10] /\ forall f i, processLine f v s i = ([], Val (true, v, i)))).
Proof.
  intros ltr v s w v' S. remember [s] as ls eqn:E. remember [] as left eqn:E0 in S. destruct S as [s0 o r Hq Hi C|r Hi|r v' Hi ->|r Hi|c t r v' Hi L ->|c t r v' Hi L ->|s0 r Hi Hs Ht|others c n r v' Hi F L ->];
    try (pose proof (first_of _ _ _ _ _ E); subst s).
  - destruct (Hi eq_refl) as (A1 & A2 & A3 & A4 & A5). split; [apply beq_neq; exact Hq|]. split; [apply beq_neq; exact A3|].
    right. split; [reflexivity|]. exists o. split; [exact C|]. split; [reflexivity|]. intros f i. unfold processLine.
    replace (beq s0 (b_ "c")) with false by (symmetry; apply beq_neq; exact A2).
    replace (beq s0 (b_ "f")) with false by (symmetry; apply beq_neq; exact A3).
    replace (beq s0 (b_ "h")) with false by (symmetry; apply beq_neq; exact A4).
    replace (dashed s0) with false by (symmetry; apply not_true_iff_false; rewrite dashed_hd; exact A5).
    destruct s0; [congruence|reflexivity].
  - split; [reflexivity|]. split; [reflexivity|]. left. reflexivity.
  - split; [reflexivity|]. split; [reflexivity|]. left. intros f i. rewrite <- options_text.
    unfold processLine. change (b_ "c") with [99]. cbv iota. rewrite beq_refl. cbn [wbind say wret app]. rewrite app_nil_r. reflexivity.
  - split; [reflexivity|]. split; [reflexivity|]. left. intros f i. rewrite <- options_text.
    unfold processLine. change (b_ "h") with [104]. change (b_ "c") with [99]. change (b_ "f") with [102]. cbv iota.
    change (beq [104] [99]) with false. change (beq [104] [102]) with false. rewrite beq_refl. cbn [wbind say wret]. rewrite app_nil_r. reflexivity.
  - split; [apply not_q; discriminate|]. split; [reflexivity|]. left. intros f i. rewrite <- options_text. destruct L; apply dash_line; reflexivity.
  - split; [apply not_q; discriminate|]. split; [reflexivity|]. left. intros f i. rewrite <- options_text. destruct L; apply dash_line; reflexivity.
  - destruct s0 as [|x s]; [discriminate|]. injection Hs as ->.
    assert (B : forall y, y <> 45 -> beq (45 :: s) [y] = false) by (intros y Hy; apply beq_neq; congruence).
    split; [apply B; discriminate|]. split; [apply B; discriminate|]. left. intros f i. rewrite <- options_text.
    assert (T : charTypeArgs v (45 :: s) = None).
    { destruct s as [|c [|? ?]]; try reflexivity. destruct (char_type_args v c) as [(t & L & _)|[(t & L & _)|(_ & _ & K)]]; [| |exact K];
        exfalso; apply Ht; exists c, t; auto. }
    unfold processLine. change (b_ "h") with [104]. change (b_ "c") with [99]. change (b_ "f") with [102].
    rewrite !B by discriminate. change (dashed (45 :: s)) with true. cbv iota. rewrite T. cbn [wbind say wret].
    rewrite app_nil_r, <- !app_assoc. reflexivity.
  - exfalso. apply (f_equal (@length bytes)) in E. cbn [length] in E. rewrite app_length in E. cbn [length] in E. lia.
Qed.

(** ** The loop *)
Definition then_console (ltr : bool) (ic ec : N) (st : Settings) (fuel : nat) (w : bytes) (v : Conv) (i : istream) : W unit :=
  let r := consoleLoop ltr ic ec st fuel false v i in (w ++ fst r, snd r).
Lemma flag_line : first_line (b_ "f") (b_ "f") [] /\ ~ In 10 (b_ "f").
Proof. assert (H : ~ In 10 (b_ "f")) by (change (b_ "f") with [102]; intros [K|[]]; discriminate). split; [|exact H]. split; [exact H|]. right. split; [reflexivity|]. split; [discriminate|reflexivity]. Qed.
Lemma flag_asked : forall ic ec st f v i others c n r, Forall (fun k => ~ sets_flag k) others -> flag_letter c n -> left_of i (others ++ c :: r) ->
  (exists i', left_of i' r /\ ((length others < f)%nat -> askFlagKey ic ec st f v i
     = (concat (repeat (flag_prompt ++ [10]) (S (length others))), Val (MkConv (cSource v) (cTarget v) (N.setbit (cFlags v) n), i'))))
  /\ ((f <= length others)%nat -> askFlagKey ic ec st f v i = ([], Fuel)).
Proof.
  intros ic ec st f v [rest e] others c n r F K [L1 L2]. cbn [inRest inEof] in *. subst rest.
  assert (e = false) by (destruct e; [destruct others; discriminate (L2 eq_refl)|reflexivity]). subst e.
  destruct (flag_key ic ec flag_prompt c n r K others F f st [] [] []) as [A1 A2]. split.
  - exists (MkIn r false). split; [split; [reflexivity|discriminate]|]. intro H. destruct (A1 [] H) as (t & T1 & T2).
    unfold askFlagKey, getKey. rewrite flag_prepared. cbn [obind inRest inEof]. cbn [app] in T2. rewrite T2. rewrite (flag_letter_args v c n K), T1, keys_left. reflexivity.
  - intro H. unfold askFlagKey, getKey. rewrite flag_prepared. cbn [obind inRest]. rewrite (A2 H). reflexivity.
Qed.
Lemma console_step : forall ltr ic ec st v text w v' text', key_step ltr v text w v' text' -> forall f i, left_of i text ->
  exists i', left_of i' text' /\ ((length text <= S f)%nat -> consoleLoop ltr ic ec st (S f) false v i = then_console ltr ic ec st f w v' i')
    /\ (snd (consoleLoop ltr ic ec st (S f) false v i) = Fuel \/ consoleLoop ltr ic ec st (S f) false v i = then_console ltr ic ec st f w v' i').
Proof.
  intros ltr ic ec st v text w v' text' H f i Hi. destruct H as [text s r w v' L St|others c n r v' F K ->].
  - destruct (read_line _ _ _ _ Hi L) as (i' & Hi' & O & G). exists i'. split; [exact Hi'|].
    enough (X : consoleLoop ltr ic ec st (S f) false v i = then_console ltr ic ec st f w v' i') by (split; [intros _; exact X|right; exact X]).
    destruct (line_done _ _ _ _ _ St) as (Q & Fl & D). cbn [consoleLoop]. rewrite O, G, Q. unfold processLineKey. rewrite Fl. unfold then_console. destruct D as [D|(-> & o & C & -> & D)].
    + rewrite D, bind_value. unfold wret. rewrite bind_value. reflexivity.
    + rewrite D, bind_value. rewrite (say_text _ _ _ _ C). unfold say. rewrite !bind_value. cbn [fst snd app]. rewrite ?bind_value. cbn [fst snd app]. reflexivity.
  - assert (L : first_line (b_ "f" ++ 10 :: others ++ c :: r) (b_ "f") (others ++ c :: r)) by (split; [apply flag_line|left; reflexivity]).
    destruct (read_line _ _ _ _ Hi L) as (i1 & Hi1 & O & G).
    destruct (flag_asked ic ec st f v i1 others c n r F K Hi1) as [(i' & Hi' & A1) A2]. exists i'. split; [exact Hi'|].
    assert (X : (length others < f)%nat -> consoleLoop ltr ic ec st (S f) false v i
      = then_console ltr ic ec st f (concat (repeat (flag_prompt ++ [10]) (S (length others))) ++ options_shown (MkConv (cSource v) (cTarget v) (N.setbit (cFlags v) n)))
          (MkConv (cSource v) (cTarget v) (N.setbit (cFlags v) n)) i').
    { intro Hf. cbn [consoleLoop]. rewrite O, G. change (beq (b_ "f") (b_ "q")) with false. cbv iota. unfold processLineKey. rewrite beq_refl, (A1 Hf), <- options_text.
      unfold then_console, say, wret. rewrite !bind_value. cbn [fst snd]. rewrite !bind_value. cbn [fst snd]. rewrite !app_nil_r. cbn [app]. reflexivity. }
    split.
    + intro Hf. apply X. rewrite app_length in Hf. cbn [length] in Hf. rewrite app_length in Hf. cbn [length] in Hf. change (length (b_ "f")) with 1%nat in Hf. lia.
    + destruct (Nat.lt_ge_cases (length others) f) as [H|H]; [right; apply X; exact H|left]. cbn [consoleLoop]. rewrite O, G.
      change (beq (b_ "f") (b_ "q")) with false. cbv iota. unfold processLineKey. rewrite beq_refl, (A2 H). reflexivity.
Qed.
Lemma key_step_shorter : forall ltr v text w v' text', key_step ltr v text w v' text' -> (length text' < length text)%nat.
Proof.
  intros ltr v text w v' text' H. destruct H as [text s r w v' L St|others c n r v' F K ->]; [eapply first_line_shorter; exact L|].
  rewrite app_length. cbn [length]. rewrite app_length. cbn [length]. lia.
Qed.
Lemma console_steps : forall ltr ic ec st v text w v' text', key_steps ltr v text w v' text' -> forall f i, left_of i text -> (length text < f)%nat ->
  exists f' i', left_of i' text' /\ (length text' < f')%nat /\ consoleLoop ltr ic ec st f false v i = then_console ltr ic ec st f' w v' i'.
Proof.
  intros ltr ic ec st v text w v' text' H. induction H as [v text|v text w v1 text1 w' v2 text2 H1 H2 IH]; intros f i Hi Hf.
  - exists f, i. split; [exact Hi|]. split; [exact Hf|]. unfold then_console. destruct (consoleLoop _ _ _ _ _ _ _ _); reflexivity.
  - destruct f as [|f]; [lia|]. destruct (console_step _ ic ec st _ _ _ _ _ H1 f i Hi) as (i1 & Hi1 & E1 & _). specialize (E1 ltac:(lia)).
    pose proof (key_step_shorter _ _ _ _ _ _ H1). destruct (IH f i1 Hi1 ltac:(lia)) as (f' & i2 & Hi2 & Hf' & E2).
    exists f', i2. split; [exact Hi2|]. split; [exact Hf'|]. rewrite E1. unfold then_console at 1. rewrite E2. unfold then_console. cbn [fst snd].
    rewrite app_assoc. reflexivity.
Qed.
Lemma console_session : forall ltr ic ec st v text w f i, key_session ltr v text w -> left_of i text -> (length text < f)%nat ->
  consoleLoop ltr ic ec st f false v i = (w, Val tt).
Proof.
  intros ltr ic ec st v text w f i (v' & text' & H & E) Hi Hf. destruct (console_steps _ ic ec st _ _ _ _ _ H f i Hi Hf) as (f' & i' & Hi' & Hf' & ->).
  unfold then_console. destruct f' as [|f']; [lia|]. destruct E as [->|[r E]].
  - cbn [consoleLoop]. rewrite (nothing_left _ Hi'). cbn. rewrite app_nil_r. reflexivity.
  - destruct (read_line _ _ _ _ Hi' E) as (i2 & _ & O & G). cbn [consoleLoop]. rewrite O, G, beq_refl. cbn. rewrite app_nil_r. reflexivity.
Qed.
Lemma console_waits : forall ltr ic ec st v text w v' text' others, key_steps ltr v text w v' text' -> first_line text' (b_ "f") others ->
  Forall (fun k => ~ sets_flag k) others -> forall f i, left_of i text -> snd (consoleLoop ltr ic ec st f false v i) = Fuel.
Proof.
  intros ltr ic ec st v text w v' text' others H L F. induction H as [v text|v text w v1 text1 w' v2 text2 H1 H2 IH]; intros f i Hi; (destruct f as [|f]; [reflexivity|]).
  - destruct (read_line _ _ _ _ Hi L) as (i1 & [R1 R2] & O & G). cbn [consoleLoop]. rewrite O, G. change (beq (b_ "f") (b_ "q")) with false. cbv iota.
    unfold processLineKey, askFlagKey, getKey. rewrite beq_refl, flag_prepared, R1. cbn [obind]. rewrite (no_flag_key ic ec flag_prompt others F). reflexivity.
  - destruct (console_step _ ic ec st _ _ _ _ _ H1 f i Hi) as (i1 & Hi1 & _ & [E|E]); [exact E|]. rewrite E. unfold then_console. cbn [snd]. apply (IH L f i1 Hi1).
Qed.
(** every text has a session *)
Lemma key_found : forall l, (exists others c n r, l = others ++ c :: r /\ Forall (fun k => ~ sets_flag k) others /\ flag_letter c n)
  \/ Forall (fun k => ~ sets_flag k) l.
Proof.
  induction l as [|k l IH]; [right; constructor|]. destruct (hasKey k flagChoices) eqn:E.
  - apply has_flag_key in E. destruct E as [n E]. left. exists [], k, n, l. split; [reflexivity|]. split; [constructor|exact E].
  - assert (~ sets_flag k) by (intro X; apply has_flag_key in X; congruence). destruct IH as [(o & c & n & r & -> & F & K)|F]; [left|right; constructor; assumption].
    exists (k :: o), c, n, r. split; [reflexivity|]. split; [constructor; assumption|exact K].
Qed.
Lemma key_ends_or_waits : forall ltr text v, bytes_ok text -> (exists w, key_session ltr v text w) \/ key_waits ltr v text.
Proof.
  intros ltr text. remember (length text) as k eqn:Hk. assert (L : (length text <= k)%nat) by lia. clear Hk. revert text L.
  induction k as [|k IH]; intros text L v B.
  - destruct text; [|cbn in L; lia]. left. exists [], v, []. split; [constructor|left; reflexivity].
  - destruct (list_eq_dec N.eq_dec text []) as [->|Ne]; [left; exists [], v, []; split; [constructor|left; reflexivity]|].
    destruct (first_line_ex text Ne) as (s & r & Fl).
    destruct (list_eq_dec N.eq_dec s (b_ "q")) as [->|Q]; [left; exists [], v, text; split; [constructor|right; eauto]|].
    assert (Bs : bytes_ok s /\ bytes_ok r).
    { destruct Fl as [_ [->|(-> & _ & ->)]]; [|split; [exact B|constructor]]. unfold bytes_ok in *. apply Forall_app in B. destruct B as [B1 B2]. split; [exact B1|inversion B2; assumption]. }
    destruct Bs as [Bs Br].
    assert (X : (exists w v' text', key_step ltr v text w v' text' /\ bytes_ok text') \/ key_waits ltr v text).
    { destruct (one_step ltr true true v s [] Bs Q) as [(w & v' & ls' & St)|(_ & -> & _)].
      - left. exists w, v', r. split; [|exact Br]. econstructor; [exact Fl|]. pose proof (step_shorter _ _ _ _ _ _ _ _ St) as K. cbn [length] in K. destruct ls'; [exact St|cbn [length] in K; lia].
      - destruct (key_found r) as [(others & c & n & r' & -> & F & K)|F].
        + left. destruct Fl as [_ [->|(_ & _ & E)]]; [|destruct others; discriminate]. do 3 eexists. split; [eapply ks_flag; [exact F|exact K|reflexivity]|].
          unfold bytes_ok in *. apply Forall_app in Br. destruct Br as [_ Br]. inversion Br; assumption.
        + right. exists [], v, text, r. split; [constructor|]. split; [exact Fl|exact F]. }
    destruct X as [(w & v' & text' & St & Bt)|X]; [|right; exact X]. pose proof (key_step_shorter _ _ _ _ _ _ St).
    destruct (IH text' ltac:(lia) v' Bt) as [(w' & v2 & t2 & S2 & E)|(w' & v2 & t2 & o & S2 & E)].
    + left. exists (w ++ w'), v2, t2. split; [econstructor; eassumption|exact E].
    + right. exists (w ++ w'), v2, t2, o. split; [econstructor; eassumption|exact E].
Qed.

(** ** The program *)
Lemma console_program : forall ltr ic ec st fuel prog l i t, len (prog :: l) < 65535 -> (S (length l) < fuel)%nat -> command true l t ->
  (forall interactive newline v, t <> TInput interactive newline v) ->
  console ltr ic ec st fuel (argsOf (prog :: l)) i = program ltr fuel (argsOf (prog :: l)) true i.
Proof.
  intros ltr ic ec st fuel prog l i t Hl Hf C T. pose proof (command_plan _ _ _ C) as P. pose proof (read_program fuel prog l Hl Hf) as R.
  unfold console, program. rewrite R. destruct (readList l noProg) as [[p|]| | |]; try reflexivity. cbn [obind plan] in P. cbn [lift wbind app].
  destruct (pStrings p); [|reflexivity]. destruct (pKana p || pMarkdown p); [reflexivity|]. cbn [andb] in *. destruct (pInteractive p); [|reflexivity].
  cbn [negb] in P. injection P as P. destruct (T _ _ _ (eq_sym P)).
Qed.
Lemma console_input : forall ltr ic ec st fuel prog l i interactive newline v, len (prog :: l) < 65535 -> (S (length l) < fuel)%nat ->
  command true l (TInput interactive newline v) ->
  console ltr ic ec st fuel (argsOf (prog :: l)) i = then_console ltr ic ec st fuel (options_shown v) v i.
Proof.
  intros ltr ic ec st fuel prog l i interactive newline v Hl Hf C. pose proof (command_plan _ _ _ C) as P. pose proof (read_program fuel prog l Hl Hf) as R.
  assert (Nl : newline = true) by (inversion C; congruence).
  unfold console. rewrite R. destruct (readList l noProg) as [[p|]| | |]; try discriminate P. cbn [obind plan] in P. cbn [lift wbind app].
  destruct (pStrings p); [|destruct (pInteractive p || pKana p || pMarkdown p); discriminate P]. destruct (pKana p || pMarkdown p); [discriminate P|]. cbn [andb] in *.
  destruct (pInteractive p); [|discriminate P]. cbn [negb] in P. injection P as _ P1 P2. rewrite P2, options_text. replace (pSuppress p) with false by (destruct (pSuppress p); [cbn in P1; congruence|reflexivity]).
  unfold then_console, say. cbn [negb]. rewrite bind_value. destruct (consoleLoop _ _ _ _ _ _ _ _); reflexivity.
Qed.

(** * C142: kanaConvert at a terminal *)

(** whatever is typed makes a session that ends, or one in which a flag is asked for and never given *)
Theorem C142_typed : forall ltr v text, bytes_ok text -> (exists w, key_session ltr v text w) \/ key_waits ltr v text.
Proof. intros. apply key_ends_or_waits. assumption. Qed.
Print Assumptions C142_typed.
(** a session that ends: the options are shown, and then what the session shows; nothing else is *)
Theorem C142_session : forall ltr ic ec st fuel prog l text interactive newline v w, len (prog :: l) < 65535 -> (S (length l) < fuel)%nat ->
  command true l (TInput interactive newline v) -> (length text < fuel)%nat -> key_session ltr v text w ->
  console ltr ic ec st fuel (argsOf (prog :: l)) (MkIn text false) = (options_shown v ++ w, Val tt).
Proof.
  intros ltr ic ec st fuel prog l text interactive newline v w Hl Hf C Ht H. rewrite (console_input _ _ _ _ _ _ _ _ _ _ _ Hl Hf C).
  unfold then_console. rewrite (console_session _ ic ec st _ _ _ fuel (MkIn text false) H); [reflexivity|split; [reflexivity|discriminate]|exact Ht].
Qed.
Print Assumptions C142_session.
(** while no key for a flag is pressed the program goes on asking *)
Theorem C142_waits : forall ltr ic ec st fuel prog l text interactive newline v, len (prog :: l) < 65535 -> (S (length l) < fuel)%nat ->
  command true l (TInput interactive newline v) -> key_waits ltr v text ->
  snd (console ltr ic ec st fuel (argsOf (prog :: l)) (MkIn text false)) = Fuel.
Proof.
  intros ltr ic ec st fuel prog l text interactive newline v Hl Hf C (w & v' & text' & others & H & L & F). rewrite (console_input _ _ _ _ _ _ _ _ _ _ _ Hl Hf C).
  unfold then_console. cbn [snd]. eapply console_waits; [exact H|exact L|exact F|split; [reflexivity|discriminate]].
Qed.
Print Assumptions C142_waits.
(** all that does not read input is as it is with a given input *)
Theorem C142_no_input : forall ltr ic ec st fuel prog l i t, len (prog :: l) < 65535 -> (S (length l) < fuel)%nat -> command true l t ->
  (forall interactive newline v, t <> TInput interactive newline v) ->
  console ltr ic ec st fuel (argsOf (prog :: l)) i = program ltr fuel (argsOf (prog :: l)) true i.
Proof. exact console_program. Qed.
Print Assumptions C142_no_input.
(** lines that lead to options in a given input lead to the same ones when they are typed, with Enter after each, if every flag asked for is
    given at once; what is shown differs in line feeds after the prompts *)
Theorem C142_same_partial : forall ltr v ls w v' ls', at_once ltr v ls w v' ls' -> Forall (fun l => ~ In 10 l) ls ->
  steps ltr true true v ls w v' ls' /\ exists w', key_steps ltr v (entered ls) w' v' (entered ls') /\ more_breaks w w'.
Proof.
  intros ltr v ls w v' ls' H. induction H as [v ls|v s ls w v1 w1 v2 ls2 St H IH|v c ls w v1 w1 v2 ls2 St H IH]; intro F.
  - split; [constructor|]. exists []. split; constructor.
  - inversion F as [|? ? F1 F2]; subst. destruct (IH F2) as (A & w' & B & M). split; [econstructor; eassumption|]. exists (w ++ w'). split; [|constructor; exact M].
    econstructor; [|exact B]. eapply ks_line; [split; [exact F1|left; unfold entered; cbn [flat_map]; rewrite <- app_assoc; reflexivity]|].
    clear - St. remember (s :: ls) as l eqn:E. destruct St; try (pose proof (first_of _ _ _ _ _ E); subst s; econstructor; eassumption).
    exfalso. apply (f_equal (@length bytes)) in E. cbn [length] in E. rewrite app_length in E. cbn [length] in E. lia.
  - inversion F as [|? ? _ F1]; subst. inversion F1 as [|? ? _ F2]; subst. destruct (IH F2) as (A & w' & B & M). split; [econstructor; eassumption|].
    assert (X : exists n, flag_letter c n /\ v1 = MkConv (cSource v) (cTarget v) (N.setbit (cFlags v) n) /\ w = flag_prompt ++ options_shown v1).
    { clear - St. remember (b_ "f" :: [c] :: ls) as l eqn:E. destruct St as [s o r Hq Hi C|r Hi|r v' Hi ->|r Hi|x t r v' Hi L ->|x t r v' Hi L ->|s r Hi Hs Ht|others x n r v' Hi F L ->];
        try (exfalso; apply (f_equal (@length bytes)) in E; cbn [length] in E; lia).
      pose proof (f_equal (@length bytes) E) as Len. cbn [length] in Len. rewrite app_length in Len. cbn [length] in Len.
      destruct others as [|o others]; [|cbn [length] in Len; lia]. exists n. cbn [app] in E.
      assert (x = c) by congruence. subst x. split; [exact L|]. split; [reflexivity|]. cbn [length repeat concat]. rewrite app_nil_r. reflexivity. }
    destruct X as (n & K & -> & ->). exists ((flag_prompt ++ [10] ++ options_shown (MkConv (cSource v) (cTarget v) (N.setbit (cFlags v) n))) ++ [] ++ w').
    split; [|rewrite <- !app_assoc; cbn [app]; apply (mb_prompt (_ ++ _) (_ ++ _)); constructor; exact M].
    econstructor; [|econstructor; [|exact B]].
    + change (entered (b_ "f" :: [c] :: ls)) with (b_ "f" ++ 10 :: [] ++ c :: 10 :: entered ls).
      replace (flag_prompt ++ [10] ++ options_shown (MkConv (cSource v) (cTarget v) (N.setbit (cFlags v) n)))
        with (concat (repeat (flag_prompt ++ [10]) 1) ++ options_shown (MkConv (cSource v) (cTarget v) (N.setbit (cFlags v) n)))
        by (cbn [repeat concat]; rewrite app_nil_r, <- app_assoc; reflexivity).
      apply (ks_flag ltr v [] c n (10 :: entered ls)); [constructor|exact K|reflexivity].
    + apply (ks_line ltr _ _ [] (entered ls)); [split; [intros []|left; reflexivity]|]. apply st_empty. reflexivity.
Qed.
Print Assumptions C142_same_partial.
(** this fails when a flag is not given at once: the Enter after a wrong key is a wrong key too *)
Theorem C142_same_refuted : exists ls w w', forall ltr, session ltr true true noConv ls w /\ key_session ltr noConv (entered ls) w'
  /\ w = concat (repeat flag_prompt 2) ++ options_shown (MkConv None Hiragana 1) /\ w' = concat (repeat (flag_prompt ++ [10]) 3) ++ options_shown (MkConv None Hiragana 1).
Proof.
  exists [b_ "f"; b_ "x"; b_ "h"]. eexists. eexists. intro ltr. split; [|split; [|split]]; [| |reflexivity|reflexivity].
  - exists (MkConv None Hiragana 1), []. split; [|left; reflexivity]. rewrite <- (app_nil_r (_ ++ _)). eapply sts_one; [|constructor].
    apply (st_flag ltr true true noConv [b_ "x"] 104 0 []); [reflexivity| |constructor|reflexivity]. constructor; [|constructor]. intros (c & n & E & K). injection E as <-. inversion K.
  - exists (MkConv None Hiragana 1), []. split; [|left; reflexivity]. rewrite <- (app_nil_r (_ ++ _)). eapply kss_one.
    + apply (ks_flag ltr noConv [120; 10] 104 0 [10]); [|constructor|reflexivity]. constructor; [intros [n K]; inversion K|constructor; [intros [n K]; inversion K|constructor]].
    + change (@nil N) with (@nil N ++ []). eapply kss_one; [|constructor]. apply (ks_line ltr _ _ [] []); [split; [intros []|left; reflexivity]|]. apply st_empty. reflexivity.
Qed.
Print Assumptions C142_same_refuted.
(** "f", a wrong key, "k" and no Enter, then a target and a text *)
Example C142_case : forall ltr,
  let text := b_ "f" ++ [10] ++ b_ "xk-r" ++ [10] ++ b_ "し" ++ [10] ++ b_ "q" ++ [10] in
  let v1 := MkConv None Hiragana 2 in let v2 := MkConv None Romaji 2 in
  command true [b_ "-i"] (TInput true true noConv)
  /\ key_session ltr noConv text
       ((flag_prompt ++ [10] ++ flag_prompt ++ [10] ++ options_shown v1) ++ options_shown v2 ++ (b_ "si" ++ [10]) ++ [])
  /\ key_waits ltr noConv (b_ "f" ++ [10] ++ b_ "x")
  /\ at_once ltr noConv [b_ "f"; b_ "k"; b_ "c"] ((flag_prompt ++ options_shown v1) ++ options_shown noConv ++ []) noConv [].
Proof.
  intro ltr. cbv zeta. assert (NX : ~ sets_flag 120) by (intros [n K]; inversion K). split; [|split; [|split]].
  - apply cmd_interactive with [IMode MInteractive]; [|reflexivity|].
    + split; [cbn; lia|]. left. split; [apply (sp_cons _ [b_ "-i"]); constructor|reflexivity].
    + split; [reflexivity|]. split; [reflexivity|]. intro n. split; [rewrite N.bits_0; discriminate|intros [K|[]]; discriminate].
  - exists (MkConv None Romaji 2), (b_ "q" ++ [10]). split; [|right; exists []; split; [intros [K|[]]; discriminate|left; reflexivity]]. eapply kss_one.
    { apply (ks_flag ltr noConv [120] 107 1 (b_ "-r" ++ [10] ++ b_ "し" ++ [10] ++ b_ "q" ++ [10])); [constructor; [exact NX|constructor]|constructor|reflexivity]. }
    eapply kss_one. { eapply (ks_line ltr _ _ (b_ "-r")); [split; [intros [K|[K|[]]]; discriminate|left; reflexivity]|].
      eapply (st_target ltr true true _ 114); [reflexivity|constructor|reflexivity]. }
    eapply kss_one; [|constructor]. eapply (ks_line ltr _ _ (b_ "し")); [split; [intros [K|[K|[K|[]]]]; discriminate|left; reflexivity]|].
    apply st_text; [discriminate|intros _; repeat split; discriminate|destruct ltr; vm_compute; reflexivity].
  - exists [], noConv, (b_ "f" ++ [10] ++ b_ "x"), (b_ "x"). split; [constructor|]. split; [split; [intros [K|[]]; discriminate|left; reflexivity]|]. constructor; [exact NX|constructor].
  - eapply (ao_flag ltr noConv 107). { apply (st_flag ltr true true noConv [] 107 1 [b_ "c"]); [reflexivity|constructor|constructor|reflexivity]. }
    eapply ao_line; [|constructor]. apply st_clear; reflexivity.
Qed.
