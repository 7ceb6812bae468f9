(** Facts about the messages about arguments. *)
From Verif Require Import BaseFacts ArgsProofs ColumnFileLemmas LaunchProofs LaunchLoop ErrArgsModel ErrArgsSpec.
Open Scope N_scope.
Arguments N.mul : simpl never. Arguments N.add : simpl never. Arguments N.sub : simpl never.

Lemma plain_val : forall A (r : res A) x, plain r = Val x -> r = Got x.
Proof. intros A [y|e w| |] x H; cbn in H; try discriminate H. congruence. Qed.
Lemma plain_throw : forall A (r : res A) e, plain r = Throw e -> exists w, r = Says e w.
Proof. intros A [y|e' w| |] e H; cbn in H; try discriminate H. exists w. congruence. Qed.

(** ** The same as without texts *)
Lemma newArgs_plain : forall n v, plain (newArgsT n v) = newArgs n v.
Proof. intros n [v|]; unfold newArgsT, newArgs; destruct (n =? 0); reflexivity. Qed.
Lemma newArgsInt_plain : forall n v, plain (newArgsIntT n v) = newArgsInt n v.
Proof.
  intros n v. unfold newArgsIntT, newArgsInt, checkIntT, checkInt. destruct (n <? 0)%Z; [reflexivity|]. destruct (65535 <? n)%Z; [reflexivity|].
  cbn [rbind obind]. apply newArgs_plain.
Qed.
Lemma argAt_plain : forall a i, plain (argAtT a i) = argAt a i.
Proof. intros a i. unfold argAtT, argAt. destruct (argc a <=? i); [reflexivity|]. destruct (argv a) as [l|]; [|reflexivity]. destruct (nth_error l _); reflexivity. Qed.
Lemma nextArg_plain : forall fuel a i, plain (nextArgT fuel a i) = nextArg fuel a i.
Proof.
  induction fuel as [|f IH]; intros a i; [reflexivity|]. cbn [nextArgT nextArg]. destruct (argc a <? i); [reflexivity|].
  destruct (argc a =? 0); [reflexivity|]. cbv zeta. destruct (u16 (i + 1) <? argc a); [|reflexivity].
  rewrite plain_bind, argAt_plain. destruct (argAt a (u16 (i + 1))) as [s|e| |]; [|reflexivity|reflexivity|reflexivity]. cbn [obind].
  destruct (beq s DataArg); [apply IH|]. destruct (beq s DebugArg || beq s InfoArg); [apply IH|reflexivity].
Qed.
Lemma debugLoop_plain : forall n a i r, plain (debugLoopT n a i r) = debugLoop n a i r.
Proof.
  induction n as [|n IH]; intros a i r; [reflexivity|]. cbn [debugLoopT debugLoop]. rewrite plain_bind, argAt_plain.
  destruct (argAt a i) as [s|e| |]; [|reflexivity|reflexivity|reflexivity]. cbn [obind]. cbv zeta.
  destruct (beq s DebugArg); [destruct r; [reflexivity|reflexivity|apply IH]|].
  destruct (beq s InfoArg); [destruct r; [reflexivity|reflexivity|apply IH]|apply IH].
Qed.
Lemma debugMode_plain : forall a, plain (getDebugModeT a) = getDebugMode a.
Proof. intro a. apply debugLoop_plain. Qed.

Section Launch.
Variable std : exn -> bytes.
Lemma withText_plain : forall A (x : out A), plain (withText std x) = x.
Proof. intros A [v|e| |]; reflexivity. Qed.
Lemma modeArg_plain : forall m o arg, plain (processProgramModeArgT std m o arg) = processProgramModeArg m o arg.
Proof.
  intros m o arg. destruct m; [reflexivity|reflexivity|]. unfold processProgramModeArgT, processProgramModeArg.
  destruct arg as [|a [|b [|c r]]]; try reflexivity. destruct ((len (a :: b :: c :: r) =? 3) && (c =? 48)); [reflexivity|]. cbv zeta.
  destruct (negb (allDigits _)); [reflexivity|]. rewrite plain_bind, withText_plain.
  destruct (stoul _) as [i|e| |]; [|reflexivity|reflexivity|reflexivity]. cbn [obind]. destruct (i <=? 65535); reflexivity.
Qed.
Lemma quizType_plain : forall q arg keys r, plain (setQuizTypeT q arg keys r) = setQuizType q arg keys r.
Proof.
  intros q arg keys r. unfold setQuizTypeT, setQuizType. destruct q; [reflexivity|]. destruct arg as [|a [|b [|c l]]]; try reflexivity.
  destruct (_ && _); reflexivity.
Qed.
Lemma processArg_plain : forall p arg, plain (processArgT std p arg) = processArg p arg.
Proof.
  intros p arg. unfold processArgT, processArg. destruct arg as [|a [|c l]]; try reflexivity. cbv zeta.
  assert (Q : forall keys r, plain ('(t, l0) <~ setQuizTypeT (sType p) (a :: c :: l) keys r ;;
      Got (MkSettings t (match l0 with Some c => Some c | None => sList p end) (sQuestion p) (sMeanings p) (sMode p) (sOrder p)))
    = ('(t, l0) <- setQuizType (sType p) (a :: c :: l) keys r ;;
      Val (MkSettings t (match l0 with Some c => Some c | None => sList p end) (sQuestion p) (sMeanings p) (sMode p) (sOrder p)))).
  { intros keys r. rewrite plain_bind, quizType_plain. destruct (setQuizType _ _ _ _) as [[t k]|e| |]; reflexivity. }
  destruct ((c =? 114) || (c =? 116)).
  { rewrite plain_bind, modeArg_plain. destruct (processProgramModeArg _ _ _) as [[mo q]|e| |]; reflexivity. }
  destruct (c =? 102); [apply Q|]. destruct (c =? 103); [apply Q|]. destruct (c =? 107); [apply Q|]. destruct (c =? 108); [apply Q|].
  destruct ((c =? 109) || (c =? 112)); [apply Q|reflexivity].
Qed.
Lemma argsLoop_plain : forall fuel a i e p, plain (argsLoopT std fuel a i e p) = argsLoop fuel a i e p.
Proof.
  induction fuel as [|f IH]; intros a i e p; [reflexivity|]. cbn [argsLoopT argsLoop]. destruct (i <? argc a); [|reflexivity].
  rewrite plain_bind, argAt_plain. destruct (argAt a i) as [s|x| |]; [|reflexivity|reflexivity|reflexivity]. cbn [obind].
  destruct (e || _ || _); [reflexivity|]. destruct (beq s (b_ "-h")); [reflexivity|]. rewrite plain_bind.
  assert (E : plain (if beq s (b_ "--") then Got (true, p)
      else if beq s (b_ "-s") then Got (e, MkSettings (sType p) (sList p) (sQuestion p) true (sMode p) (sOrder p))
      else p <~ processArgT std p s ;; Got (e, p))
    = (if beq s (b_ "--") then Val (true, p)
      else if beq s (b_ "-s") then Val (e, MkSettings (sType p) (sList p) (sQuestion p) true (sMode p) (sOrder p))
      else p <- processArg p s ;; Val (e, p))).
  { destruct (beq s (b_ "--")); [reflexivity|]. destruct (beq s (b_ "-s")); [reflexivity|]. rewrite plain_bind, processArg_plain.
    destruct (processArg p s); reflexivity. }
  rewrite E. clear E. destruct (if beq s (b_ "--") then _ else _) as [[e' p']|x| |]; [|reflexivity|reflexivity|reflexivity]. cbn [obind].
  rewrite plain_bind, nextArg_plain. destruct (nextArg f a i) as [j|x| |]; [|reflexivity|reflexivity|reflexivity]. apply IH.
Qed.
Lemma readArgs_plain : forall fuel a, plain (readArgsT std fuel a) = readArgs fuel a.
Proof.
  intros fuel a. unfold readArgsT, readArgs. rewrite plain_bind, nextArg_plain. destruct (nextArg fuel a 0); [|reflexivity|reflexivity|reflexivity].
  apply argsLoop_plain.
Qed.

(** ** One option *)
Definition fitting (os : list opt) (p : Settings) : Prop :=
  sane p /\ (has_mode os <-> sMode p <> NoMode) /\ (has_type os <-> sType p <> None).

(** what follows the sign, if there is one *)
Definition body (c : N) (r : bytes) : bytes := if (c =? 45) || (c =? 43) then r else c :: r.
Definition numberT (a s : bytes) : res N :=
  if negb (allDigits s) then Says DomainError (badFormat a)
  else i <~ withText std (stoul s) ;; if i <=? 65535 then Got i else Says DomainError (b_ "value for '" ++ firstn 2 a ++ b_ "' exceeds limit").
Lemma numberT_cases : forall a s,
  (numeral s /\ decimal s <= 65535 /\ numberT a s = Got (decimal s))
  \/ (numeral s /\ 65535 < decimal s < 2 ^ 64 /\ numberT a s = Says DomainError (b_ "value for '" ++ firstn 2 a ++ b_ "' exceeds limit"))
  \/ (numeral s /\ 2 ^ 64 <= decimal s /\ numberT a s = Says StdOutOfRange (std StdOutOfRange))
  \/ (s = [] /\ numberT a s = Says StdInvalidArgument (std StdInvalidArgument))
  \/ (~ Forall is_digit s /\ numberT a s = Says DomainError (badFormat a)).
Proof.
  intros a s. unfold numberT. destruct (allDigits s) eqn:E; cbn [negb].
  - apply allDigits_iff in E. destruct s as [|c r].
    + right. right. right. left. split; reflexivity.
    + pose proof (numeral_cons _ _ E) as M. rewrite (stoul_numeral _ M).
      destruct (2 ^ 64 - 1 <? decimal (c :: r)) eqn:B.
      * right. right. left. split; [exact M|]. split; [lia|reflexivity].
      * cbn [withText rbind]. destruct (decimal (c :: r) <=? 65535) eqn:C.
        -- left. split; [exact M|]. split; [lia|reflexivity].
        -- right. left. split; [exact M|]. split; [lia|reflexivity].
  - right. right. right. right. split; [|reflexivity]. intro H. apply allDigits_iff in H. congruence.
Qed.
Lemma modeArgT_unfold : forall y x o s, processProgramModeArgT std NoMode o (y :: x :: s) =
  match s with
  | [] => Got (mode_of x, o, 0)
  | c :: r =>
      if match r with [] => c =? 48 | _ => false end then Got (mode_of x, RandomOrder, 0)
      else n <~ numberT (y :: x :: s) (body c r) ;; Got (mode_of x, if c =? 45 then FromEnd else FromBeginning, n)
  end.
Proof.
  intros y x o s. unfold processProgramModeArgT, numberT. fold (mode_of x). destruct s as [|c r]; [reflexivity|].
  assert (L : (len (y :: x :: c :: r) =? 3) = match r with [] => true | _ => false end).
  { destruct r; rewrite !len_cons; [rewrite len_nil; reflexivity|]. lia. }
  rewrite L. replace (match r with [] => true | _ :: _ => false end && (c =? 48)) with (match r with [] => c =? 48 | _ => false end) by (destruct r; reflexivity).
  destruct (match r with [] => c =? 48 | _ => false end); [reflexivity|]. cbv zeta.
  destruct (negb (allDigits _)); [reflexivity|]. destruct (withText std (stoul _)) as [i|e w| |]; cbn [rbind]; try reflexivity.
  destruct (i <=? 65535); reflexivity.
Qed.
Lemma number_text_sign : forall c r t, number_text (c :: r) t -> t = (body c r) /\ Forall is_digit t.
Proof.
  intros c r t [[E|(d & Hd & E)] F]; unfold body.
  - subst t. split; [|exact F]. inversion F as [|? ? D _]; subst. unfold is_digit in D. replace (c =? 45) with false by lia.
    replace (c =? 43) with false by lia. reflexivity.
  - assert (d = c /\ t = r) as [-> ->] by (split; congruence). split; [|exact F]. destruct Hd as [->| ->]; reflexivity.
Qed.
Lemma sign_number_text : forall c r, Forall is_digit (body c r) ->
  number_text (c :: r) (body c r).
Proof.
  intros c r F. split; [|exact F]. unfold body. destruct ((c =? 45) || (c =? 43)) eqn:E; [|left; reflexivity]. right. exists c. split; [lia|reflexivity].
Qed.
Lemma has_unc : forall a e, unconvertible a e -> exists x m c r, a = 45 :: x :: c :: r /\ mode_letter x m
  /\ (exists w, numberT a (body c r) = w /\ w = Says e (std e))
  /\ match r with [] => c =? 48 | _ => false end = false.
Proof.
  intros a e U. unfold body. destruct U as [x m c M C|x m s M [Hn F] B|x m c s M C [Hn F] B].
  - exists x, m, c, []. split; [reflexivity|]. split; [exact M|]. split; [|destruct C as [->| ->]; reflexivity].
    eexists. split; [reflexivity|]. destruct C as [->| ->]; reflexivity.
  - destruct s as [|c r]; [congruence|]. exists x, m, c, r. split; [reflexivity|]. split; [exact M|].
    assert (D : is_digit c) by (inversion F; assumption). unfold is_digit in D. split.
    + eexists. split; [reflexivity|]. replace (c =? 45) with false by lia. replace (c =? 43) with false by lia. cbn [orb].
      destruct (numberT_cases (45 :: x :: c :: r) (c :: r)) as [(A & B' & E)|[(A & B' & E)|[(A & B' & E)|[(A & E)|(A & E)]]]];
        [lia|lia|exact E|discriminate A|exfalso; exact (A F)].
    + destruct r; [|reflexivity]. destruct (c =? 48) eqn:E; [|reflexivity]. exfalso. apply N.eqb_eq in E. subst c.
      change (decimal [48]) with 0 in B. apply N.le_0_r in B. discriminate B.
  - exists x, m, c, s. split; [reflexivity|]. split; [exact M|]. split; [|destruct C as [->| ->]; destruct s; reflexivity].
    eexists. split; [reflexivity|]. replace ((c =? 45) || (c =? 43)) with true by (destruct C as [->| ->]; reflexivity).
    destruct (numberT_cases (45 :: x :: c :: s) s) as [(A & B' & E)|[(A & B' & E)|[(A & B' & E)|[(A & E)|(A & E)]]]];
      [lia|lia|exact E|congruence|exfalso; exact (A F)].
Qed.

Lemma complaint_says : forall os p a e w, fitting os p -> complaint std os a e w ->
  processArgT std p a = Says e w.
Proof.
  intros os p a e w (S & HM & HT) C.
  assert (ML : forall x m, mode_letter x m -> (x =? 114) || (x =? 116) = true) by (intros x m [[-> _]|[-> _]]; reflexivity).
  assert (NM : ~ has_mode os -> sMode p = NoMode) by (intro H; destruct (sMode p); [exfalso; apply H; apply HM; discriminate|exfalso; apply H; apply HM; discriminate|reflexivity]).
  assert (NT : ~ has_type os -> sType p = None) by (intro H; destruct (sType p); [exfalso; apply H; apply HT; discriminate|reflexivity]).
  destruct C as [x m s M H|x m s M H N|x m s t M H NTx B|a e H U|t ks s K H|t ks s K H N1 N2|x s N1 N2 N3].
  - cbn [processArgT]. rewrite (ML _ _ M). apply HM in H. destruct (sMode p); [reflexivity|reflexivity|congruence].
  - cbn [processArgT]. rewrite (ML _ _ M), (NM H), modeArgT_unfold. destruct s as [|c r].
    { exfalso. apply (N []). split; [left; reflexivity|constructor]. }
    replace (match r with [] => c =? 48 | _ => false end) with false.
    2:{ destruct r; [|reflexivity]. destruct (c =? 48) eqn:E; [|reflexivity]. exfalso. apply N.eqb_eq in E. subst c. apply (N [48]).
        split; [left; reflexivity|constructor; [unfold is_digit; lia|constructor]]. }
    destruct (numberT_cases (45 :: x :: c :: r) (body c r)) as [(A & _)|[(A & _)|[(A & _)|[(A & _)|(A & E)]]]];
      try (exfalso; eapply N; apply sign_number_text; first [exact (proj2 A)|exact (eq_ind_r (Forall is_digit) (Forall_nil _) A)]).
    rewrite E. reflexivity.
  - cbn [processArgT]. rewrite (ML _ _ M), (NM H), modeArgT_unfold. destruct s as [|c r].
    { exfalso. destruct NTx as [[<-|(d & _ & X)] _]; [|discriminate X]. change (decimal []) with 0 in B. lia. }
    destruct (number_text_sign _ _ _ NTx) as [Et F].
    replace (match r with [] => c =? 48 | _ => false end) with false.
    2:{ destruct r; [|reflexivity]. destruct (c =? 48) eqn:E; [|reflexivity]. exfalso. apply N.eqb_eq in E. subst c t. apply (proj1 (N.lt_nge _ _) (proj1 B)). discriminate. }
    rewrite <- Et. destruct (numberT_cases (45 :: x :: c :: r) t) as [(A & B' & E)|[(A & B' & E)|[(A & B' & E)|[(A & E)|(A & E)]]]];
      [lia| |lia| |exfalso; exact (A F)].
    + rewrite E. reflexivity.
    + exfalso. rewrite A in B. change (decimal []) with 0 in B. lia.
  - destruct (has_unc _ _ U) as (x & m & c & r & -> & M & (w & E & ->) & Z). cbn [processArgT]. rewrite (ML _ _ M), (NM H), modeArgT_unfold, Z, E. reflexivity.
  - apply HT in H. destruct (sType p) as [q|] eqn:T; [|congruence]. destruct K; cbn; rewrite T; reflexivity.
  - destruct s as [|c r]; [congruence|].
    assert (G : forall keys rg, (forall c, (existsb (N.eqb c) keys || match rg with Some (a, b) => (a <=? c) && (c <=? b) | None => false end) = true <-> In c ks) ->
       setQuizTypeT None (45 :: t :: c :: r) keys rg = Says DomainError (b_ "invalid format for '-" ++ t :: b_ "', use -h for help")).
    { intros keys rg I. cbn [setQuizTypeT]. destruct r as [|d r].
      - destruct (existsb (N.eqb c) keys || _) eqn:E; [|rewrite andb_false_r; reflexivity]. exfalso. apply I in E. exact (N2 c E eq_refl).
      - replace (len (45 :: t :: c :: d :: r) =? 3) with false by (rewrite !len_cons; lia). reflexivity. }
    destruct K; cbn [processArgT]; rewrite (NT H); cbn - [setQuizTypeT b_].
    + rewrite (G FrequencyKeys FrequencyRange keys_f_iff). reflexivity.
    + rewrite (G GradeKeys GradeRange keys_g_iff). reflexivity.
    + rewrite (G KyuKeys KyuRange keys_k_iff). reflexivity.
    + rewrite (G LevelKeys None keys_l_iff). reflexivity.
    + rewrite (G GroupKanjiKeys None keys_m_iff). reflexivity.
    + rewrite (G GroupKanjiKeys None keys_m_iff). reflexivity.
  - cbn [processArgT]. destruct ((x =? 114) || (x =? 116)) eqn:E. { exfalso. apply (N1 (mode_of x)). apply letter_mode_of. lia. }
    destruct (x =? 102) eqn:E1; [exfalso; apply N.eqb_eq in E1; subst x; exact (N2 _ keys_f)|].
    destruct (x =? 103) eqn:E2; [exfalso; apply N.eqb_eq in E2; subst x; exact (N2 _ keys_g)|].
    destruct (x =? 107) eqn:E3; [exfalso; apply N.eqb_eq in E3; subst x; exact (N2 _ keys_k)|].
    destruct (x =? 108) eqn:E4; [exfalso; apply N.eqb_eq in E4; subst x; exact (N2 _ keys_l)|].
    destruct (x =? 109) eqn:E5; [exfalso; apply N.eqb_eq in E5; subst x; exact (N2 _ keys_m)|].
    destruct (x =? 112) eqn:E6; [exfalso; apply N.eqb_eq in E6; subst x; exact (N2 _ keys_p)|]. reflexivity.
Qed.

(** every option that is refused has a complaint *)
Lemma says_complaint : forall os p x s e w, fitting os p -> ~ In (45 :: x :: s) [b_ "-h"; b_ "--"; b_ "-s"] ->
  processArgT std p (45 :: x :: s) = Says e w -> complaint std os (45 :: x :: s) e w.
Proof.
  intros os p x s e w F N0 H.
  assert (U : forall e' w', complaint std os (45 :: x :: s) e' w' -> complaint std os (45 :: x :: s) e w).
  { intros e' w' C. pose proof (complaint_says _ _ _ _ _ F C) as E. rewrite H in E. assert (e = e' /\ w = w') as [-> ->] by (split; congruence). exact C. }
  destruct F as (S & HM & HT).
  assert (DM : has_mode os \/ ~ has_mode os) by (destruct (mode_dec os) as [D|D]; [left; exact D|right; intros (m & o & q & I); exact (D m o q I)]).
  assert (DT : has_type os \/ ~ has_type os) by (destruct (type_dec os) as [D|D]; [left; exact D|right; intros (t & l & I); exact (D t l I)]).
  destruct ((x =? 114) || (x =? 116)) eqn:E.
  { assert (M : mode_letter x (mode_of x)) by (apply letter_mode_of; lia). destruct DM as [D|D]; [eapply U, cp_two_modes; eassumption|].
    assert (NM : sMode p = NoMode) by (destruct (sMode p); [exfalso; apply D; apply HM; discriminate|exfalso; apply D; apply HM; discriminate|reflexivity]).
    pose proof H as H0. cbn [processArgT] in H0. rewrite E, NM, modeArgT_unfold in H0. destruct s as [|c r]; [discriminate H0|].
    destruct (match r with [] => c =? 48 | _ => false end) eqn:Z; [discriminate H0|].
    set (t := body c r) in *.
    destruct (numberT_cases (45 :: x :: c :: r) t) as [(A & B & Q)|[(A & B & Q)|[(A & B & Q)|[(A & Q)|(A & Q)]]]].
    - rewrite Q in H0. discriminate H0.
    - eapply U, (cp_mode_limit std os x _ (c :: r) t M D); [apply sign_number_text; exact (proj2 A)|exact B].
    - eapply U, (cp_mode_std std os _ StdOutOfRange D). unfold t, body in *. destruct ((c =? 45) || (c =? 43)) eqn:G.
      + eapply unc_large_sign; [exact M|lia|exact A|exact B].
      + eapply unc_large; [exact M|exact A|exact B].
    - eapply U, (cp_mode_std std os _ StdInvalidArgument D). unfold t, body in *. destruct ((c =? 45) || (c =? 43)) eqn:G; [|discriminate A].
      subst r. eapply unc_sign; [exact M|lia].
    - eapply U, (cp_mode_format std os x _ (c :: r) M D). intros t' T. destruct (number_text_sign _ _ _ T) as [-> F]. exact (A F). }
  assert (G : forall keys rg ks, list_keys x ks ->
    (forall c, (existsb (N.eqb c) keys || match rg with Some (a, b) => (a <=? c) && (c <=? b) | None => false end) = true <-> In c ks) ->
    ('(t, l) <~ setQuizTypeT (sType p) (45 :: x :: s) keys rg ;;
     Got (MkSettings t (match l with Some c => Some c | None => sList p end) (sQuestion p) (sMeanings p) (sMode p) (sOrder p))) = Says e w ->
    complaint std os (45 :: x :: s) e w).
  { intros keys rg ks K I H0. destruct DT as [D|D]; [eapply U, cp_two_types; eassumption|].
    assert (NT : sType p = None) by (destruct (sType p); [exfalso; apply D; apply HT; discriminate|reflexivity]).
    eapply U, (cp_type_format std os x ks s K D).
    - intros ->. rewrite NT in H0. discriminate H0.
    - intros c C ->. rewrite NT in H0. cbn [setQuizTypeT] in H0. apply I in C. rewrite C in H0. discriminate H0. }
  pose proof H as H0. cbn [processArgT] in H0. rewrite E in H0.
  destruct (x =? 102) eqn:E1; [apply N.eqb_eq in E1; subst x; apply (G FrequencyKeys FrequencyRange _ keys_f keys_f_iff H0)|].
  destruct (x =? 103) eqn:E2; [apply N.eqb_eq in E2; subst x; apply (G GradeKeys GradeRange _ keys_g keys_g_iff H0)|].
  destruct (x =? 107) eqn:E3; [apply N.eqb_eq in E3; subst x; apply (G KyuKeys KyuRange _ keys_k keys_k_iff H0)|].
  destruct (x =? 108) eqn:E4; [apply N.eqb_eq in E4; subst x; apply (G LevelKeys None _ keys_l keys_l_iff H0)|].
  destruct ((x =? 109) || (x =? 112)) eqn:E5.
  { destruct (x =? 109) eqn:E6; [apply N.eqb_eq in E6; subst x; apply (G GroupKanjiKeys None _ keys_m keys_m_iff H0)|].
    assert (x = 112) by lia. subst x. apply (G GroupKanjiKeys None _ keys_p keys_m_iff H0). }
  eapply U, (cp_illegal std os x s); [intros m [[-> _]|[-> _]]; discriminate E|intros ks K; destruct K; discriminate|exact N0].
Qed.

(** ** The loop *)
Fixpoint runT (l : list bytes) (endOptions : bool) (p : Settings) : res Command :=
  match l with
  | [] => Got (Options p)
  | arg :: r =>
      if endOptions || negb (optionLike arg) || (len arg <? 2) then Got (KanjiDetails arg)
      else if beq arg (b_ "-h") then Got HelpMessage
      else
        '(endOptions, p) <~
          (if beq arg (b_ "--") then Got (true, p)
           else if beq arg (b_ "-s") then Got (endOptions, MkSettings (sType p) (sList p) (sQuestion p) true (sMode p) (sOrder p))
           else p <~ processArgT std p arg ;; Got (endOptions, p)) ;;
        runT r endOptions p
  end.
Lemma loop_runT : forall fuel a i js, visitArgs fuel a i = Val js ->
  forall l, Forall2 (fun j s => argAt a j = Val s) js l -> forall e p, argsLoopT std fuel a i e p = runT l e p.
Proof.
  induction fuel as [|f IH]; intros a i js V l F e p; [discriminate|]. cbn [visitArgs] in V. cbn [argsLoopT].
  destruct (i <? argc a).
  - destruct (nextArg f a i) as [next| | |] eqn:En; try discriminate. cbn [obind] in V.
    destruct (visitArgs f a next) as [r| | |] eqn:Er; try discriminate. cbn [obind] in V. inversion V; subst js.
    inversion F as [|j s r' l' A F']; subst. rewrite <- argAt_plain in A. rewrite (plain_val _ _ _ A). cbn [rbind runT]. fold (optionLike s).
    destruct (e || negb (optionLike s) || (len s <? 2)); [reflexivity|]. destruct (beq s (b_ "-h")); [reflexivity|].
    destruct (if beq s (b_ "--") then Got (true, p)
      else if beq s (b_ "-s") then Got (e, MkSettings (sType p) (sList p) (sQuestion p) true (sMode p) (sOrder p))
      else p <~ processArgT std p s ;; Got (e, p)) as [[e' p']| | |]; cbn [rbind]; try reflexivity.
    rewrite <- nextArg_plain in En. rewrite (plain_val _ _ _ En). cbn [rbind]. apply (IH a next r Er). exact F'.
  - inversion V; subst. inversion F; subst. reflexivity.
Qed.
Lemma read_runT : forall fuel prog l, len (prog :: l) < 65535 -> (S (length (prog :: l)) < fuel)%nat ->
  readArgsT std fuel (argsOf (prog :: l)) = runT (kept l) false noSettings.
Proof.
  intros fuel prog l Hl Hf. pose proof (allArgs_spec fuel prog l Hl Hf) as A. unfold readArgsT. unfold allArgs in A.
  destruct (nextArg fuel (argsOf (prog :: l)) 0) as [i| | |] eqn:En; try discriminate. cbn [obind] in *.
  rewrite <- nextArg_plain in En. rewrite (plain_val _ _ _ En). cbn [rbind].
  pose proof (others_kept l [prog]) as K. change (len [prog]) with 1 in K.
  assert (F : Forall2 (fun j s => argAt (argsOf (prog :: l)) j = Val s) (others 1 l) (kept l)).
  { clear A En. induction K as [|j s js ss H K IH]; constructor; [apply argAt_spec; exact H|exact IH]. }
  apply (loop_runT fuel _ i _ A). exact F.
Qed.

Lemma runT_option : forall a o r p, documented a o -> sane p -> can_add p o -> runT (a :: r) false p = runT r false (applyO p o).
Proof.
  intros a o r p D S C. destruct (documented_shape _ _ D) as (x & s & E & X & Y & Z). cbn [runT].
  replace (optionLike a) with true by (subst a; reflexivity). replace (len a <? 2) with false by (subst a; rewrite !len_cons; lia). cbn [orb negb].
  destruct (beq a (b_ "-h")) eqn:B1. { apply beq_eq in B1. exfalso. change (b_ "-h") with [45; 104] in B1. rewrite B1 in E. inversion E. congruence. }
  destruct (beq a (b_ "--")) eqn:B2. { apply beq_eq in B2. exfalso. change (b_ "--") with [45; 45] in B2. rewrite B2 in E. inversion E. congruence. }
  destruct (beq a (b_ "-s")) eqn:B3.
  - apply beq_eq in B3. assert (X5 : x = 115) by (change (b_ "-s") with [45; 115] in B3; rewrite B3 in E; inversion E; reflexivity). destruct (Z X5) as [_ ->]. reflexivity.
  - assert (NS : a <> b_ "-s") by (intro H; rewrite H in B3; vm_compute in B3; discriminate).
    destruct (process_arg_cases p a x s S E NS) as [(o' & D' & C' & P)|(e & _ & _ & N)].
    + rewrite <- processArg_plain in P. rewrite (plain_val _ _ _ P), (documented_fun _ _ _ D D'). reflexivity.
    + exfalso. exact (N o D C).
Qed.
Lemma runT_options : forall l os, Forall2 documented l os -> forall p tail, sane p -> mode_room p os -> type_room p os ->
  runT (l ++ tail) false p = runT tail false (fold_left applyO os p) /\ sane (fold_left applyO os p).
Proof.
  intros l os F. induction F as [|a o l os D F IH]; intros p tail S M T; cbn [app fold_left].
  - split; [reflexivity|exact S].
  - destruct (applyO_room _ _ _ M T) as (C & M' & T'). rewrite (runT_option a o (l ++ tail) p D S C). apply IH; try assumption.
    eapply applyO_sane; eassumption.
Qed.
Lemma run_plain : forall l e p, plain (runT l e p) = LaunchLoop.run l e p.
Proof.
  induction l as [|a l IH]; intros e p; [reflexivity|]. cbn [runT LaunchLoop.run]. destruct (e || _ || _); [reflexivity|]. destruct (beq a (b_ "-h")); [reflexivity|].
  destruct (beq a (b_ "--")); [apply IH|]. destruct (beq a (b_ "-s")); [apply IH|]. rewrite !plain_bind, processArg_plain. destruct (processArg p a); try reflexivity. apply IH.
Qed.

Lemma options_fitting : forall l os, options l os -> fitting os (fold_left applyO os noSettings).
Proof.
  intros l os O. pose proof (settings_fold _ _ O) as (A1 & A2 & A3 & A4 & _). destruct O as (F & M & T).
  split; [apply (run_options l os F noSettings []); [exact sane_none|unfold mode_room; cbn; lia|unfold type_room; cbn; lia]|]. split.
  - split.
    + intros (m & o & q & I). rewrite (proj1 (A1 _ _ _ I)). intros ->. clear - F I. induction F as [|b o' l os D F IH]; [destruct I|].
      destruct I as [->|I]; [|exact (IH I)]. remember (OMode NoMode o q) as d.
      destruct D as [x m' L|x m' L|x m' s L A B C|x m' s L A C|x m' s L A C| | |]; inversion Heqd; subst; destruct L as [[_ L]|[_ L]]; discriminate L.
    + intro H. destruct (mode_dec os) as [D|D]; [exact D|]. exfalso. apply H. apply (A2 D).
  - split.
    + intros (t & k & I). rewrite (proj1 (A3 _ _ I)). discriminate.
    + intro H. destruct (type_dec os) as [D|D]; [exact D|]. exfalso. apply H. apply (A4 D).
Qed.

Lemma not_special : forall x s, ~ In (45 :: x :: s) [b_ "-h"; b_ "--"; b_ "-s"] ->
  beq (45 :: x :: s) (b_ "-h") = false /\ beq (45 :: x :: s) (b_ "--") = false /\ beq (45 :: x :: s) (b_ "-s") = false.
Proof.
  intros x s H. split; [|split]; (match goal with |- ?t = false => destruct t eqn:E; [|reflexivity] end); exfalso; apply H; apply beq_eq in E; rewrite E;
    [left|right; left|right; right; left]; reflexivity.
Qed.
Lemma complaint_shape : forall os a e w, complaint std os a e w -> exists x s, a = 45 :: x :: s /\ ~ In a [b_ "-h"; b_ "--"; b_ "-s"].
Proof.
  assert (L : forall x s, x <> 104 /\ x <> 45 /\ x <> 115 -> ~ In (45 :: x :: s) [b_ "-h"; b_ "--"; b_ "-s"]).
  { intros x s (A & B & C) [H|[H|[H|[]]]].
    - change (b_ "-h") with [45; 104] in H. inversion H. congruence.
    - change (b_ "--") with [45; 45] in H. inversion H. congruence.
    - change (b_ "-s") with [45; 115] in H. inversion H. congruence. }
  intros os a e w C.
  destruct C as [x m s M H|x m s M H N|x m s t M H NTx B|a e H U|t ks s K H|t ks s K H N1 N2|x s N1 N2 N3].
  - exists x, s. split; [reflexivity|]. apply L. eapply letter_not. exact M.
  - exists x, s. split; [reflexivity|]. apply L. eapply letter_not. exact M.
  - exists x, s. split; [reflexivity|]. apply L. eapply letter_not. exact M.
  - destruct (has_unc _ _ U) as (x & m & c & r & -> & M & _). exists x, (c :: r). split; [reflexivity|]. apply L. eapply letter_not. exact M.
  - exists t, s. split; [reflexivity|]. apply L. eapply keys_not. exact K.
  - exists t, s. split; [reflexivity|]. apply L. eapply keys_not. exact K.
  - exists x, s. split; [reflexivity|exact N3].
Qed.
Lemma runT_says : forall l pre os e w, options pre os -> runT l false (fold_left applyO os noSettings) = Says e w ->
  first_complaint std (pre ++ l) e w.
Proof.
  induction l as [|a r IH]; intros pre os e w O H; [discriminate H|].
  pose proof (options_fitting _ _ O) as F.
  cbn [runT] in H. destruct (false || negb (optionLike a) || (len a <? 2)) eqn:Q; [discriminate H|]. cbn [orb] in Q.
  destruct (beq a (b_ "-h")) eqn:B1; [discriminate H|].
  destruct (beq a (b_ "--")) eqn:B2.
  { exfalso. cbn [rbind] in H. destruct r; discriminate H. }
  destruct a as [|c [|x s]]; [discriminate Q|rewrite len_cons, len_nil in Q; cbn in Q; destruct (c =? 45); discriminate Q|].
  cbn [optionLike] in Q. assert (c = 45) by (destruct (c =? 45) eqn:E; [lia|discriminate Q]). subst c.
  destruct (beq (45 :: x :: s) (b_ "-s")) eqn:B3.
  { cbn [rbind] in H. apply beq_eq in B3. rewrite B3. assert (O' : options (pre ++ [b_ "-s"]) (os ++ [OMeanings])).
    { destruct O as (F2 & M & T). split; [|split].
      - apply Forall2_app; [exact F2|]. constructor; [exact doc_meanings|constructor].
      - rewrite filter_app, app_length. cbn. lia.
      - rewrite filter_app, app_length. cbn. lia. }
    specialize (IH _ _ e w O'). rewrite fold_left_app in IH. rewrite <- app_assoc in IH. apply IH. exact H. }
  assert (NI : ~ In (45 :: x :: s) [b_ "-h"; b_ "--"; b_ "-s"]).
  { intros [E|[E|[E|[]]]]; rewrite <- E, beq_refl in *; discriminate. }
  assert (NS : 45 :: x :: s <> b_ "-s") by (intro X; apply NI; rewrite X; right; right; left; reflexivity).
  destruct (process_arg_cases _ (45 :: x :: s) x s (proj1 F) eq_refl NS) as [(o & D & C & E)|(e' & E & _ & _)].
  - rewrite <- processArg_plain in E. rewrite (plain_val _ _ _ E) in H. cbn [rbind] in H.
    assert (O' : options (pre ++ [45 :: x :: s]) (os ++ [o])).
    { destruct F as (_ & HM & HT). destruct O as (F2 & M & T). split; [|split].
      - apply Forall2_app; [exact F2|]. constructor; [exact D|constructor].
      - rewrite filter_app, app_length. destruct o as [m od q|t k|]; cbn; try lia.
        assert (Z : filter is_mode_opt os = []).
        { destruct (filter is_mode_opt os) as [|y ys] eqn:Y; [reflexivity|]. exfalso.
          assert (I : In y (filter is_mode_opt os)) by (rewrite Y; left; reflexivity). apply filter_In in I. destruct I as [I X].
          destruct y as [m' o' q'| |]; try discriminate X. apply (proj1 HM); [exists m', o', q'; exact I|exact C]. }
        rewrite Z. cbn. lia.
      - rewrite filter_app, app_length. destruct o as [m od q|t k|]; cbn; try lia.
        assert (Z : filter is_type_opt os = []).
        { destruct (filter is_type_opt os) as [|y ys] eqn:Y; [reflexivity|]. exfalso.
          assert (I : In y (filter is_type_opt os)) by (rewrite Y; left; reflexivity). apply filter_In in I. destruct I as [I X].
          destruct y as [|t' k'|]; try discriminate X. apply (proj1 HT); [exists t', k'; exact I|exact C]. }
        rewrite Z. cbn. lia. }
    specialize (IH _ _ e w O'). rewrite fold_left_app in IH. rewrite <- app_assoc in IH. apply IH. exact H.
  - assert (P : exists w', processArgT std (fold_left applyO os noSettings) (45 :: x :: s) = Says e' w') by (apply plain_throw; rewrite processArg_plain; exact E).
    destruct P as (w' & P). rewrite P in H. cbn [rbind] in H. assert (e' = e /\ w' = w) as [-> ->] by (split; congruence).
    exists pre, (45 :: x :: s), r, os. split; [reflexivity|]. split; [exact O|]. eapply says_complaint; [exact F|exact NI|exact P].
Qed.
Lemma runT_complaint : forall l e w, first_complaint std l e w -> runT l false noSettings = Says e w.
Proof.
  intros l e w (before & a & after & os & -> & O & C). pose proof (options_fitting _ _ O) as F. pose proof O as (F2 & M & T).
  rewrite (proj1 (runT_options before os F2 noSettings (a :: after) sane_none ltac:(unfold mode_room; cbn; lia) ltac:(unfold type_room; cbn; lia))).
  destruct (complaint_shape _ _ _ _ C) as (x & s & -> & NI). destruct (not_special _ _ NI) as (B1 & B2 & B3).
  cbn [runT]. rewrite B1, B2, B3. replace (len (45 :: x :: s) <? 2) with false by (rewrite !len_cons; lia). cbn [optionLike orb negb].
  change (45 =? 45) with true. cbn [negb]. rewrite (complaint_says _ _ _ _ _ F C). reflexivity.
Qed.

Lemma quiz_says : forall fuel prog l e w, len (prog :: l) < 65535 -> (S (length (prog :: l)) < fuel)%nat ->
  (readArgsT std fuel (argsOf (prog :: l)) = Says e w <-> first_complaint std (kept l) e w).
Proof.
  intros fuel prog l e w H1 H2. rewrite read_runT by assumption. split; [|apply runT_complaint].
  intro H. apply (runT_says (kept l) [] [] e w); [split; [constructor|split; cbn; lia]|exact H].
Qed.
Lemma quiz_got : forall fuel prog l c, len (prog :: l) < 65535 -> (S (length (prog :: l)) < fuel)%nat ->
  (readArgsT std fuel (argsOf (prog :: l)) = Got c <-> command (kept l) c).
Proof.
  intros fuel prog l c H1 H2. rewrite <- (read_iff fuel prog l c H1 H2), <- readArgs_plain. split; [intros ->; reflexivity|apply plain_val].
Qed.
Lemma quiz_total : forall fuel prog l, len (prog :: l) < 65535 -> (S (length (prog :: l)) < fuel)%nat ->
  (exists c, command (kept l) c) \/ exists e w, first_complaint std (kept l) e w.
Proof.
  intros fuel prog l H1 H2. destruct (read_total fuel prog l H1 H2) as [(c & E)|(e & E & _)].
  - left. exists c. apply (read_iff fuel prog l c H1 H2). exact E.
  - right. rewrite <- readArgs_plain in E. destruct (plain_throw _ _ _ E) as (w & E'). exists e, w. apply (quiz_says fuel prog l e w H1 H2). exact E'.
Qed.
End Launch.
