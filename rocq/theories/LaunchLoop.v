(** Proofs about all arguments of the command line. *)
From Verif Require Import BaseFacts ArgsProofs ColumnFileLemmas LaunchModel LaunchSpec LaunchProofs.
Open Scope N_scope.
Arguments N.mul : simpl never. Arguments N.add : simpl never. Arguments N.sub : simpl never.

(** ** one option and the settings *)
Definition applyO (p : Settings) (o : opt) : Settings :=
  match o with
  | OMode m od q => MkSettings (sType p) (sList p) q (sMeanings p) m od
  | OType t l => MkSettings (Some t) (match l with Some c => Some c | None => sList p end) (sQuestion p) (sMeanings p) (sMode p) (sOrder p)
  | OMeanings => MkSettings (sType p) (sList p) (sQuestion p) true (sMode p) (sOrder p)
  end.
Definition can_add (p : Settings) (o : opt) : Prop :=
  match o with OMode _ _ _ => sMode p = NoMode | OType _ _ => sType p = None | OMeanings => True end.
(** what holds of settings made from options *)
Definition sane (p : Settings) : Prop := (sMode p = NoMode -> sOrder p = NoOrder) /\ (sType p = None -> sList p = None).
Lemma sane_none : sane noSettings.
Proof. split; reflexivity. Qed.

Lemma applyO_sane : forall a o p, documented a o -> sane p -> sane (applyO p o).
Proof.
  intros a o p D [S1 S2]. destruct o as [m od q|t l|]; cbn; split; cbn; auto; try discriminate.
  intros ->. exfalso. remember (OMode NoMode od q) as d. destruct D as [x m' L|x m' L|x m' s L A B C|x m' s L A C|x m' s L A C| | |]; inversion Heqd; subst;
    destruct L as [[_ L]|[_ L]]; discriminate L.
Qed.

Lemma keys_f_iff : forall c, (existsb (N.eqb c) FrequencyKeys || ((49 <=? c) && (c <=? 57))) = true <-> In c (b_ "0123456789").
Proof. intro c. cbn. lia. Qed.
Lemma keys_g_iff : forall c, (existsb (N.eqb c) GradeKeys || ((49 <=? c) && (c <=? 54))) = true <-> In c (b_ "123456s").
Proof. intro c. cbn. lia. Qed.
Lemma keys_k_iff : forall c, (existsb (N.eqb c) KyuKeys || ((49 <=? c) && (c <=? 57))) = true <-> In c (b_ "123456789abc").
Proof. intro c. cbn. lia. Qed.
Lemma keys_l_iff : forall c, (existsb (N.eqb c) LevelKeys || false) = true <-> In c (b_ "12345").
Proof. intro c. cbn. lia. Qed.
Lemma keys_m_iff : forall c, (existsb (N.eqb c) GroupKanjiKeys || false) = true <-> In c (b_ "1234").
Proof. intro c. cbn. lia. Qed.

Lemma set_type_cases : forall p t s keys r ks, sType p = None -> list_keys t ks ->
  (forall c, (existsb (N.eqb c) keys || match r with Some (a, b) => (a <=? c) && (c <=? b) | None => false end) = true <-> In c ks) ->
  (exists l, setQuizType (sType p) (45 :: t :: s) keys r = Val (Some t, l) /\ documented (45 :: t :: s) (OType t l))
  \/ (setQuizType (sType p) (45 :: t :: s) keys r = Throw DomainError /\ forall o, documented (45 :: t :: s) o -> o = OMeanings \/ is_mode_opt o = true).
Proof.
  intros p t s keys r ks T K I. rewrite T. cbn [setQuizType]. destruct s as [|c rest].
  { left. exists None. split; [reflexivity|]. eapply doc_type. exact K. }
  assert (L : (len (45 :: t :: c :: rest) =? 3) = match rest with [] => true | _ => false end).
  { destruct rest; rewrite !len_cons; [rewrite len_nil; reflexivity|]. lia. }
  rewrite L. destruct rest as [|d rest]; cbn [andb].
  - destruct (existsb (N.eqb c) keys || _) eqn:E.
    + left. exists (Some c). split; [reflexivity|]. apply I in E. eapply doc_list; eassumption.
    + right. split; [reflexivity|]. intros o D. remember [45; t; c] as a eqn:Ha.
      destruct D as [x m M|x m M|x m s M A B C|x m s M A C|x m s M A C|t' ks' K'|t' ks' c' K' I'|]; try (right; reflexivity); try (left; reflexivity).
      * discriminate.
      * exfalso. inversion Ha; subst. assert (ks' = ks) by (inversion K; subst; inversion K'; reflexivity). subst ks'.
        apply I in I'. congruence.
  - right. split; [reflexivity|]. intros o D. remember (45 :: t :: c :: d :: rest) as a eqn:Ha.
    destruct D as [x m M|x m M|x m s M A B C|x m s M A C|x m s M A C|t' ks' K'|t' ks' c' K' I'|]; try (right; reflexivity); try (left; reflexivity); discriminate.
Qed.

(** what an option stands for is unique *)
Lemma documented_fun : forall a o1 o2, documented a o1 -> documented a o2 -> o1 = o2.
Proof.
  assert (T : forall a t l o, documented a (OType t l) -> documented a o -> OType t l = o).
  { intros a t l o D1 D2. remember (OType t l) as d eqn:Hd.
    destruct D1 as [x m M|x m M|x m s M A B C|x m s M A C|x m s M A C|t' ks' K'|t' ks' c' K' I'|]; try discriminate Hd; clear Hd.
    - remember [45; t'] as a eqn:Ha.
      destruct D2 as [x m M|x m M|x m s M A B C|x m s M A C|x m s M A C|t2 ks2 K2|t2 ks2 c2 K2 I2|]; try discriminate Ha; inversion Ha; subst.
      + exfalso. eapply not_keys_mode; eassumption.
      + exfalso. eapply not_keys_mode; eassumption.
      + reflexivity.
      + inversion K'.
    - remember [45; t'; c'] as a eqn:Ha.
      destruct D2 as [x m M|x m M|x m s M A B C|x m s M A C|x m s M A C|t2 ks2 K2|t2 ks2 c2 K2 I2|]; try discriminate Ha; inversion Ha; subst; try (exfalso; eapply not_keys_mode; eassumption).
      reflexivity. }
  assert (S : forall o, documented (b_ "-s") o -> o = OMeanings).
  { intros o D. remember (b_ "-s") as a eqn:Ha. change (b_ "-s") with [45; 115] in Ha.
    destruct D as [x m M|x m M|x m s M A B C|x m s M A C|x m s M A C|t2 ks2 K2|t2 ks2 c2 K2 I2|]; try discriminate Ha; try reflexivity; inversion Ha; subst.
    - destruct M as [[M _]|[M _]]; discriminate M.
    - destruct M as [[M _]|[M _]]; discriminate M.
    - inversion K2. }
  intros a o1 o2 D1 D2. destruct o1 as [m1 d1 q1|t l|]; [|apply (T a t l o2 D1 D2)|].
  - destruct o2 as [m2 d2 q2|t l|]; [|symmetry; apply (T a t l _ D2 D1)|].
    + apply mode_arg_doc in D1, D2. congruence.
    + remember OMeanings as d eqn:Hd. destruct D2; try discriminate Hd. apply S. exact D1.
  - remember OMeanings as d eqn:Hd. destruct D1; try discriminate Hd. subst. symmetry. apply S. exact D2.
Qed.

Lemma process_arg_cases : forall p arg c r, sane p -> arg = 45 :: c :: r -> arg <> b_ "-s" ->
  (exists o, documented arg o /\ can_add p o /\ processArg p arg = Val (applyO p o))
  \/ (exists e, processArg p arg = Throw e /\ (e = DomainError \/ unconvertible arg e) /\ forall o, documented arg o -> ~ can_add p o).
Proof.
  intros p arg c r [SM ST] -> NS. unfold processArg.
  destruct ((c =? 114) || (c =? 116)) eqn:E.
  { assert (Hc : c = 114 \/ c = 116) by lia. destruct (sMode p) eqn:M.
    - right. exists DomainError. split; [reflexivity|]. split; [left; reflexivity|]. intros o D.
      destruct (mode_arg_cases c r Hc) as [(m & o' & q & X & D')|(e & X & _)].
      + rewrite (documented_fun _ _ _ D D'). cbn. congruence.
      + destruct o as [m o' q|t l|].
        * apply mode_arg_doc in D. congruence.
        * exfalso. inversion D; subst; eapply not_keys_mode; try eassumption; apply letter_mode_of; exact Hc.
        * exfalso. inversion D; subst. apply NS. reflexivity.
    - right. exists DomainError. split; [reflexivity|]. split; [left; reflexivity|]. intros o D.
      destruct (mode_arg_cases c r Hc) as [(m & o' & q & X & D')|(e & X & _)].
      + rewrite (documented_fun _ _ _ D D'). cbn. congruence.
      + destruct o as [m o' q|t l|].
        * apply mode_arg_doc in D. congruence.
        * exfalso. inversion D; subst; eapply not_keys_mode; try eassumption; apply letter_mode_of; exact Hc.
        * exfalso. inversion D; subst. apply NS. reflexivity.
    - rewrite (SM eq_refl). destruct (mode_arg_cases c r Hc) as [(m & o' & q & X & D')|(e & X & U)].
      + left. exists (OMode m o' q). split; [exact D'|]. split; [exact M|]. rewrite X. reflexivity.
      + right. exists e. rewrite X. split; [reflexivity|]. split; [exact U|]. intros o D.
        destruct o as [m o' q|t l|].
        * apply mode_arg_doc in D. congruence.
        * exfalso. inversion D; subst; eapply not_keys_mode; try eassumption; apply letter_mode_of; exact Hc.
        * exfalso. inversion D; subst. apply NS. reflexivity. }
  assert (NM : forall o, documented (45 :: c :: r) o -> is_mode_opt o = true -> False).
  { intros o D X. destruct o; try discriminate X.
    remember (45 :: c :: r) as a eqn:Ha. remember (OMode m o q) as d eqn:Hd.
    destruct D as [x m' M|x m' M|x m' s M A B C|x m' s M A C|x m' s M A C| | |]; try discriminate Hd; inversion Ha; subst; destruct M as [[-> _]|[-> _]]; discriminate E. }
  assert (NO : documented (45 :: c :: r) OMeanings -> False).
  { intros D. remember (45 :: c :: r) as a eqn:Ha. remember OMeanings as d eqn:Hd. destruct D; try discriminate Hd. apply NS. reflexivity. }
  assert (G : forall keys rg ks, list_keys c ks ->
    (forall c, (existsb (N.eqb c) keys || match rg with Some (a, b) => (a <=? c) && (c <=? b) | None => false end) = true <-> In c ks) ->
    (exists o, documented (45 :: c :: r) o /\ can_add p o /\
      ('(t, l) <- setQuizType (sType p) (45 :: c :: r) keys rg ;;
       Val (MkSettings t (match l with Some c => Some c | None => sList p end) (sQuestion p) (sMeanings p) (sMode p) (sOrder p))) = Val (applyO p o))
    \/ (exists e,
      ('(t, l) <- setQuizType (sType p) (45 :: c :: r) keys rg ;;
       Val (MkSettings t (match l with Some c => Some c | None => sList p end) (sQuestion p) (sMeanings p) (sMode p) (sOrder p))) = Throw e
      /\ (e = DomainError \/ unconvertible (45 :: c :: r) e) /\ forall o, documented (45 :: c :: r) o -> ~ can_add p o)).
  { intros keys rg ks K I. destruct (sType p) eqn:T.
    - right. exists DomainError. split; [reflexivity|]. split; [left; reflexivity|]. intros o D X. destruct o as [m o q|t l|].
      + exact (NM _ D eq_refl).
      + cbn in X. congruence.
      + exact (NO D).
    - rewrite <- T. destruct (set_type_cases p c r keys rg ks T K I) as [(l & X & D)|[X Y]]; rewrite X; cbn [obind].
      + left. exists (OType c l). split; [exact D|]. split; [exact T|]. reflexivity.
      + right. exists DomainError. split; [reflexivity|]. split; [left; reflexivity|]. intros o D.
        destruct (Y o D) as [->|Z]; [exfalso; exact (NO D)|exfalso; exact (NM _ D Z)]. }
  destruct (c =? 102) eqn:E1; [apply N.eqb_eq in E1; subst c; apply (G FrequencyKeys FrequencyRange _ keys_f keys_f_iff)|].
  destruct (c =? 103) eqn:E2; [apply N.eqb_eq in E2; subst c; apply (G GradeKeys GradeRange _ keys_g keys_g_iff)|].
  destruct (c =? 107) eqn:E3; [apply N.eqb_eq in E3; subst c; apply (G KyuKeys KyuRange _ keys_k keys_k_iff)|].
  destruct (c =? 108) eqn:E4; [apply N.eqb_eq in E4; subst c; apply (G LevelKeys None _ keys_l keys_l_iff)|].
  destruct ((c =? 109) || (c =? 112)) eqn:E5.
  { destruct (c =? 109) eqn:E6; [apply N.eqb_eq in E6; subst c; apply (G GroupKanjiKeys None _ keys_m keys_m_iff)|].
    assert (c = 112) by lia. subst c. apply (G GroupKanjiKeys None _ keys_p keys_m_iff). }
  right. exists DomainError. split; [reflexivity|]. split; [left; reflexivity|]. intros o D _.
  destruct o as [m o q|t l|]; [exact (NM _ D eq_refl)| |exact (NO D)].
  remember (45 :: c :: r) as a eqn:Ha. remember (OType t l) as d eqn:Hd.
  destruct D as [x m' M|x m' M|x m' s M A B C|x m' s M A C|x m' s M A C|t' ks K|t' ks c' K I|]; try discriminate Hd; inversion Ha; subst; inversion K; subst; discriminate.
Qed.

(** ** the loop as a function of the arguments that are left *)
Definition optionLike (arg : bytes) : bool := match arg with c :: _ => c =? 45 | [] => false end.
Fixpoint run (l : list bytes) (endOptions : bool) (p : Settings) : out Command :=
  match l with
  | [] => Val (Options p)
  | arg :: r =>
      if endOptions || negb (optionLike arg) || (len arg <? 2) then Val (KanjiDetails arg)
      else if beq arg (b_ "-h") then Val HelpMessage
      else
        '(endOptions, p) <-
          (if beq arg (b_ "--") then Val (true, p)
           else if beq arg (b_ "-s") then Val (endOptions, MkSettings (sType p) (sList p) (sQuestion p) true (sMode p) (sOrder p))
           else p <- processArg p arg ;; Val (endOptions, p)) ;;
        run r endOptions p
  end.

Lemma loop_run : forall fuel a i js, visitArgs fuel a i = Val js ->
  (forall j, In j js -> exists s, argAt a j = Val s) ->
  forall l, Forall2 (fun j s => argAt a j = Val s) js l -> forall e p, argsLoop fuel a i e p = run l e p.
Proof.
  induction fuel as [|f IH]; intros a i js V K l F e p; [discriminate|]. cbn [visitArgs] in V. cbn [argsLoop].
  destruct (i <? argc a).
  - destruct (nextArg f a i) as [next| | |] eqn:En; try discriminate. cbn [obind] in V.
    destruct (visitArgs f a next) as [r| | |] eqn:Er; try discriminate. cbn [obind] in V. inversion V; subst js.
    inversion F as [|j s r' l' A F']; subst. rewrite A. cbn [obind run]. fold (optionLike s).
    destruct (e || negb (optionLike s) || (len s <? 2)); [reflexivity|]. destruct (beq s (b_ "-h")); [reflexivity|].
    destruct (if beq s (b_ "--") then Val (true, p)
      else if beq s (b_ "-s") then Val (e, MkSettings (sType p) (sList p) (sQuestion p) true (sMode p) (sOrder p))
      else p <- processArg p s ;; Val (e, p)) as [[e' p']| | |]; cbn [obind]; try reflexivity.
    apply (IH a next r Er); [|exact F']. intros j Hj. apply K. right. exact Hj.
  - inversion V; subst. inversion F; subst. reflexivity.
Qed.

Lemma others_kept : forall l pre, Forall2 (fun j s => nth_error (pre ++ l) (N.to_nat j) = Some s) (others (len pre) l) (kept l).
Proof.
  assert (W : forall n l pre, (length l <= n)%nat -> Forall2 (fun j s => nth_error (pre ++ l) (N.to_nat j) = Some s) (others (len pre) l) (kept l)).
  { induction n as [|n IH]; intros l pre Hn.
    - destruct l; [constructor|cbn in Hn; lia].
    - destruct l as [|a r]; [constructor|]. cbn [others kept]. destruct (beq a (b_ "-data")).
      + destruct r as [|b r]; [constructor|]. replace (pre ++ a :: b :: r) with ((pre ++ [a; b]) ++ r) by (rewrite <- app_assoc; reflexivity).
        replace (len pre + 2) with (len (pre ++ [a; b])) by (unfold len; rewrite app_length; cbn [length]; lia). apply IH. cbn in Hn. lia.
      + assert (X : len pre + 1 = len (pre ++ [a])) by (unfold len; rewrite app_length; cbn [length]; lia).
        assert (Y : pre ++ a :: r = (pre ++ [a]) ++ r) by (rewrite <- app_assoc; reflexivity).
        destruct (beq a (b_ "-debug") || beq a (b_ "-info")).
        * rewrite X, Y. apply IH. cbn in Hn. lia.
        * constructor.
          -- unfold len. rewrite Nat2N.id. rewrite nth_error_app2 by lia. rewrite Nat.sub_diag. reflexivity.
          -- rewrite X, Y. apply IH. cbn in Hn. lia. }
  intros l pre. exact (W _ l pre (le_n _)).
Qed.

Lemma read_run : forall fuel prog l, len (prog :: l) < 65535 -> (S (length (prog :: l)) < fuel)%nat ->
  readArgs fuel (argsOf (prog :: l)) = run (kept l) false noSettings.
Proof.
  intros fuel prog l Hl Hf. pose proof (allArgs_spec fuel prog l Hl Hf) as A. unfold readArgs. unfold allArgs in A.
  destruct (nextArg fuel (argsOf (prog :: l)) 0) as [i| | |]; try discriminate. cbn [obind] in *.
  pose proof (others_kept l [prog]) as K. change (len [prog]) with 1 in K.
  assert (F : Forall2 (fun j s => argAt (argsOf (prog :: l)) j = Val s) (others 1 l) (kept l)).
  { clear A. induction K as [|j s js ss H K IH]; constructor; [apply argAt_spec; exact H|exact IH]. }
  apply (loop_run fuel _ i _ A); [|exact F]. clear A K. intros j Hj.
  induction F as [|x s js ss X F IH]; [destruct Hj|]. destruct Hj as [->|Hj]; [exists s; exact X|apply IH; exact Hj].
Qed.

(** ** options in front *)
Definition mode_room (p : Settings) (os : list opt) : Prop :=
  (length (filter is_mode_opt os) + (match sMode p with NoMode => 0 | _ => 1 end) <= 1)%nat.
Definition type_room (p : Settings) (os : list opt) : Prop :=
  (length (filter is_type_opt os) + (match sType p with None => 0 | _ => 1 end) <= 1)%nat.

Lemma letter_not : forall x m, mode_letter x m -> x <> 104 /\ x <> 45 /\ x <> 115.
Proof. intros x m [[-> _]|[-> _]]; repeat split; discriminate. Qed.
Lemma keys_not : forall x ks, list_keys x ks -> x <> 104 /\ x <> 45 /\ x <> 115.
Proof. intros x ks K. inversion K; repeat split; discriminate. Qed.
Lemma documented_shape : forall a o, documented a o -> exists x r, a = 45 :: x :: r /\ x <> 104 /\ x <> 45 /\ (x = 115 -> a = b_ "-s" /\ o = OMeanings).
Proof.
  intros a o D. destruct D as [x m M|x m M|x m s M A B C|x m s M A C|x m s M A C|t' ks K|t' ks c' K I|];
    try (destruct (letter_not _ _ M) as (X & Y & Z); eexists _, _; split; [reflexivity|]; split; [exact X|]; split; [exact Y|]; intro; congruence);
    try (destruct (keys_not _ _ K) as (X & Y & Z); eexists _, _; split; [reflexivity|]; split; [exact X|]; split; [exact Y|]; intro; congruence).
  exists 115, []. split; [reflexivity|]. split; [discriminate|]. split; [discriminate|]. intros _. split; reflexivity.
Qed.

Lemma run_option : forall a o r p, documented a o -> sane p -> can_add p o -> run (a :: r) false p = run r false (applyO p o).
Proof.
  intros a o r p D S C. destruct (documented_shape _ _ D) as (x & s & E & X & Y & Z). cbn [run].
  replace (optionLike a) with true by (subst a; reflexivity). replace (len a <? 2) with false by (subst a; rewrite !len_cons; lia). cbn [orb negb].
  destruct (beq a (b_ "-h")) eqn:B1. { apply beq_eq in B1. exfalso. change (b_ "-h") with [45; 104] in B1. rewrite B1 in E. inversion E. congruence. }
  destruct (beq a (b_ "--")) eqn:B2. { apply beq_eq in B2. exfalso. change (b_ "--") with [45; 45] in B2. rewrite B2 in E. inversion E. congruence. }
  destruct (beq a (b_ "-s")) eqn:B3.
  - apply beq_eq in B3. assert (X5 : x = 115) by (change (b_ "-s") with [45; 115] in B3; rewrite B3 in E; inversion E; reflexivity). destruct (Z X5) as [_ ->]. reflexivity.
  - assert (NS : a <> b_ "-s") by (intro H; rewrite H in B3; vm_compute in B3; discriminate).
    destruct (process_arg_cases p a x s S E NS) as [(o' & D' & C' & ->)|(e & _ & _ & N)].
    + rewrite (documented_fun _ _ _ D D'). reflexivity.
    + exfalso. exact (N o D C).
Qed.

Lemma applyO_room : forall p o os, mode_room p (o :: os) -> type_room p (o :: os) ->
  can_add p o /\ mode_room (applyO p o) os /\ type_room (applyO p o) os.
Proof.
  intros p o os M T. unfold mode_room, type_room in *. destruct o as [m od q|t l|]; cbn [filter is_mode_opt is_type_opt length] in *; cbn [applyO can_add sMode sType].
  - destruct (sMode p); [lia|lia|]. split; [reflexivity|]. split; [destruct m; lia|exact T].
  - destruct (sType p); [lia|]. split; [reflexivity|]. split; [exact M|lia].
  - auto.
Qed.
Lemma run_options : forall l os, Forall2 documented l os -> forall p tail, sane p -> mode_room p os -> type_room p os ->
  run (l ++ tail) false p = run tail false (fold_left applyO os p) /\ sane (fold_left applyO os p).
Proof.
  intros l os F. induction F as [|a o l os D F IH]; intros p tail S M T; cbn [app fold_left].
  - split; [reflexivity|exact S].
  - destruct (applyO_room _ _ _ M T) as (C & M' & T'). rewrite (run_option a o (l ++ tail) p D S C). apply IH; try assumption.
    eapply applyO_sane; eassumption.
Qed.

(** ** the settings that options stand for *)
Lemma fold_no_mode : forall os p, (forall m o q, ~ In (OMode m o q) os) ->
  sMode (fold_left applyO os p) = sMode p /\ sOrder (fold_left applyO os p) = sOrder p /\ sQuestion (fold_left applyO os p) = sQuestion p.
Proof.
  induction os as [|o os IH]; intros p H; cbn [fold_left]; [auto|].
  destruct (IH (applyO p o)) as (A & B & C). { intros m d q X. exact (H m d q (or_intror X)). }
  rewrite A, B, C. destruct o as [m d q|t l|]; cbn; auto. exfalso. exact (H m d q (or_introl eq_refl)).
Qed.
Lemma fold_no_type : forall os p, (forall t l, ~ In (OType t l) os) ->
  sType (fold_left applyO os p) = sType p /\ sList (fold_left applyO os p) = sList p.
Proof.
  induction os as [|o os IH]; intros p H; cbn [fold_left]; [auto|].
  destruct (IH (applyO p o)) as (A & B). { intros t l X. exact (H t l (or_intror X)). }
  rewrite A, B. destruct o as [m d q|t l|]; cbn; auto. exfalso. exact (H t l (or_introl eq_refl)).
Qed.
Lemma fold_meanings : forall os p, sMeanings (fold_left applyO os p) = true <-> sMeanings p = true \/ In OMeanings os.
Proof.
  induction os as [|o os IH]; intro p; cbn [fold_left In]; [tauto|]. rewrite IH. destruct o; cbn; split; intros H; intuition (auto; discriminate).
Qed.
Lemma filter_none : forall (f : opt -> bool) a, (length (filter f a) = 0)%nat -> forall o, In o a -> f o = true -> False.
Proof.
  intros f a H o I X. assert (Y : In o (filter f a)) by (apply filter_In; auto). destruct (filter f a); [destruct Y|discriminate H].
Qed.
Lemma only_one : forall (f : opt -> bool) a o b, (length (filter f (a ++ o :: b)) <= 1)%nat -> f o = true ->
  (forall x, In x a -> f x = true -> False) /\ (forall x, In x b -> f x = true -> False).
Proof.
  intros f a o b H X. rewrite filter_app, app_length in H. cbn [filter] in H. rewrite X in H. cbn [length] in H.
  split; apply filter_none; lia.
Qed.

Lemma settings_fold : forall l os, options l os -> settings os (fold_left applyO os noSettings).
Proof.
  intros l os (_ & M & T). split; [|split; [|split; [|split]]].
  - intros m o q I. apply in_split in I. destruct I as (a & b & ->). destruct (only_one _ _ _ _ M eq_refl) as [_ B].
    rewrite fold_left_app. cbn [fold_left]. destruct (fold_no_mode b (applyO (fold_left applyO a noSettings) (OMode m o q))) as (X & Y & Z).
    { intros m' o' q' I. exact (B _ I eq_refl). } rewrite X, Y, Z. auto.
  - intro H. destruct (fold_no_mode os noSettings H) as (X & Y & Z). rewrite X, Y, Z. auto.
  - intros t k I. apply in_split in I. destruct I as (a & b & ->). destruct (only_one _ _ _ _ T eq_refl) as [A B].
    rewrite fold_left_app. cbn [fold_left]. destruct (fold_no_type b (applyO (fold_left applyO a noSettings) (OType t k))) as (X & Y).
    { intros t' k' I. exact (B _ I eq_refl). } rewrite X, Y. cbn. split; [reflexivity|]. destruct k; [reflexivity|].
    destruct (fold_no_type a noSettings) as (_ & Z); [|exact Z]. intros t' k' I. exact (A _ I eq_refl).
  - intro H. destruct (fold_no_type os noSettings H) as (X & Y). rewrite X, Y. auto.
  - rewrite fold_meanings. cbn. intuition (auto; discriminate).
Qed.
Lemma mode_dec : forall os, (exists m o q, In (OMode m o q) os) \/ (forall m o q, ~ In (OMode m o q) os).
Proof.
  induction os as [|o os [(m & d & q & I)|IH]]; [right; intros m o q []|left; exists m, d, q; right; exact I|].
  destruct o as [m d q|t l|]; [left; exists m, d, q; left; reflexivity| |]; right; intros m' d' q' [X|X]; try discriminate; exact (IH _ _ _ X).
Qed.
Lemma type_dec : forall os, (exists t l, In (OType t l) os) \/ (forall t l, ~ In (OType t l) os).
Proof.
  induction os as [|o os [(t & l & I)|IH]]; [right; intros t l []|left; exists t, l; right; exact I|].
  destruct o as [m d q|t l|]; [|left; exists t, l; left; reflexivity|]; right; intros t' l' [X|X]; try discriminate; exact (IH _ _ X).
Qed.
Lemma settings_unique : forall os p q, settings os p -> settings os q -> p = q.
Proof.
  intros os [t1 l1 q1 m1 d1 o1] [t2 l2 q2 m2 d2 o2] (A1 & B1 & C1 & D1 & E1) (A2 & B2 & C2 & D2 & E2).
  cbn [sType sList sQuestion sMeanings sMode sOrder] in *.
  assert (X : d1 = d2 /\ o1 = o2 /\ q1 = q2).
  { destruct (mode_dec os) as [(m & o & q & I)|N].
    - destruct (A1 _ _ _ I) as (? & ? & ?), (A2 _ _ _ I) as (? & ? & ?). subst. auto.
    - destruct (B1 N) as (? & ? & ?), (B2 N) as (? & ? & ?). subst. auto. }
  assert (Y : t1 = t2 /\ l1 = l2).
  { destruct (type_dec os) as [(t & l & I)|N].
    - destruct (C1 _ _ I) as (? & ?), (C2 _ _ I) as (? & ?). subst. auto.
    - destruct (D1 N) as (? & ?), (D2 N) as (? & ?). subst. auto. }
  assert (Z : m1 = m2) by (destruct m1, m2; try reflexivity; [symmetry; apply E2, E1|apply E1, E2]; reflexivity).
  destruct X as (? & ? & ?), Y. subst. reflexivity.
Qed.

(** ** all arguments *)
Lemma run_command : forall l c, command l c -> run l false noSettings = Val c.
Proof.
  intros l c H.
  assert (R : forall l os tail, options l os -> run (l ++ tail) false noSettings = run tail false (fold_left applyO os noSettings)).
  { intros l' os tail (F & M & T). apply (run_options l' os F); [exact sane_none|unfold mode_room; cbn; lia|unfold type_room; cbn; lia]. }
  destruct H as [l os p O S|l os p O S|l os r O|l os a r O N|l os a r O].
  - rewrite <- (app_nil_r l), (R _ os _ O). cbn. rewrite (settings_unique os p _ S (settings_fold _ _ O)). reflexivity.
  - rewrite (R _ os _ O). cbn. rewrite (settings_unique os p _ S (settings_fold _ _ O)). reflexivity.
  - rewrite (R _ os _ O). reflexivity.
  - rewrite (R _ os _ O). cbn [run]. destruct N as [->|[->|(c & s & -> & X)]]; [reflexivity|reflexivity|].
    cbn [optionLike]. replace (c =? 45) with false by lia. reflexivity.
  - rewrite (R _ os _ O). reflexivity.
Qed.

Lemma run_cases : forall l pre os, options pre os ->
  (exists c, run l false (fold_left applyO os noSettings) = Val c /\ command (pre ++ l) c)
  \/ (exists e, run l false (fold_left applyO os noSettings) = Throw e
      /\ (e = DomainError \/ exists before a after os', pre ++ l = before ++ a :: after /\ options before os' /\ unconvertible a e)).
Proof.
  induction l as [|a r IH]; intros pre os O.
  { left. eexists. split; [reflexivity|]. rewrite app_nil_r. eapply cmd_options; [exact O|]. eapply settings_fold. exact O. }
  assert (S : sane (fold_left applyO os noSettings)).
  { destruct O as (F & M & T). apply (run_options pre os F noSettings []); [exact sane_none|unfold mode_room; cbn; lia|unfold type_room; cbn; lia]. }
  destruct (optionLike a) eqn:OL.
  2:{ left. exists (KanjiDetails a). cbn [run]. rewrite OL. cbn [negb orb]. split; [reflexivity|]. eapply cmd_kanji; [exact O|].
      destruct a as [|c s]; [left; reflexivity|]. right. right. exists c, s. split; [reflexivity|]. cbn in OL. lia. }
  destruct (len a <? 2) eqn:L.
  { left. exists (KanjiDetails a). cbn [run]. rewrite L, orb_true_r. split; [reflexivity|]. eapply cmd_kanji; [exact O|].
    destruct a as [|c s]; [left; reflexivity|]. right. left. cbn in OL. destruct s; [|rewrite !len_cons in L; lia]. f_equal. lia. }
  destruct a as [|c [|x s]]; [discriminate| |].
  { rewrite len_cons, len_nil in L. lia. }
  cbn in OL. apply N.eqb_eq in OL. subst c.
  destruct (beq (45 :: x :: s) (b_ "-h")) eqn:B1.
  { left. exists HelpMessage. cbn [run]. rewrite L, B1. cbn [optionLike]. change (45 =? 45) with true. cbn [negb orb]. split; [reflexivity|].
    apply beq_eq in B1. rewrite B1. eapply cmd_help. exact O. }
  destruct (beq (45 :: x :: s) (b_ "--")) eqn:B2.
  { apply beq_eq in B2. rewrite B2. destruct r as [|a r].
    - left. eexists. split; [reflexivity|]. eapply cmd_options_end; [exact O|]. eapply settings_fold. exact O.
    - left. eexists. split; [reflexivity|]. eapply cmd_kanji_end. exact O. }
  destruct (beq (45 :: x :: s) (b_ "-s")) eqn:B3.
  { apply beq_eq in B3. rewrite B3. assert (O' : options (pre ++ [b_ "-s"]) (os ++ [OMeanings])).
    { destruct O as (F & M & T). split; [|split].
      - apply Forall2_app; [exact F|]. constructor; [exact doc_meanings|constructor].
      - rewrite filter_app, app_length. cbn. lia.
      - rewrite filter_app, app_length. cbn. lia. }
    specialize (IH _ _ O'). rewrite fold_left_app in IH. rewrite <- app_assoc in IH. exact IH. }
  assert (NS : 45 :: x :: s <> b_ "-s") by (intro H; rewrite H in B3; vm_compute in B3; discriminate).
  destruct (process_arg_cases _ (45 :: x :: s) x s S eq_refl NS) as [(o & D & C & E)|(e & E & U & N)].
  - assert (O' : options (pre ++ [45 :: x :: s]) (os ++ [o])).
    { pose proof (settings_fold _ _ O) as (A1 & _ & A2 & _ & _). destruct O as (F & M & T). split; [|split].
      - apply Forall2_app; [exact F|]. constructor; [exact D|constructor].
      - rewrite filter_app, app_length. destruct o as [m od q|t k|]; cbn; try lia.
        assert (Z : filter is_mode_opt os = []).
        { destruct (filter is_mode_opt os) as [|y ys] eqn:Y; [reflexivity|]. exfalso.
          assert (I : In y (filter is_mode_opt os)) by (rewrite Y; left; reflexivity). apply filter_In in I. destruct I as [I X].
          destruct y as [m' o' q'| |]; try discriminate X. destruct (A1 _ _ _ I) as [A _]. cbn in C. rewrite A in C. subst m'.
          clear - F I. revert I. induction F as [|b o l os D F IH]; intros I; [destruct I|]. destruct I as [->|I]; [|exact (IH I)].
          remember (OMode NoMode o' q') as d. destruct D as [x m' L|x m' L|x m' s L A B C|x m' s L A C|x m' s L A C| | |]; inversion Heqd; subst;
            destruct L as [[_ L]|[_ L]]; discriminate L. }
        rewrite Z. cbn. lia.
      - rewrite filter_app, app_length. destruct o as [m od q|t k|]; cbn; try lia.
        assert (Z : filter is_type_opt os = []).
        { destruct (filter is_type_opt os) as [|y ys] eqn:Y; [reflexivity|]. exfalso.
          assert (I : In y (filter is_type_opt os)) by (rewrite Y; left; reflexivity). apply filter_In in I. destruct I as [I X].
          destruct y as [|t' k'|]; try discriminate X. destruct (A2 _ _ I) as [A _]. cbn in C. congruence. }
        rewrite Z. cbn. lia. }
    rewrite (run_option _ o r _ D S C). specialize (IH _ _ O'). rewrite fold_left_app in IH. rewrite <- app_assoc in IH. exact IH.
  - right. exists e. split.
    + cbn [run]. rewrite L, B1, B2, B3, E. reflexivity.
    + destruct U as [->|U]; [left; reflexivity|]. right. exists pre, (45 :: x :: s), r, os. auto.
Qed.

Lemma read_iff : forall fuel prog l c, len (prog :: l) < 65535 -> (S (length (prog :: l)) < fuel)%nat ->
  (readArgs fuel (argsOf (prog :: l)) = Val c <-> command (kept l) c).
Proof.
  intros fuel prog l c H1 H2. rewrite read_run by assumption. split; [|apply run_command].
  intro E. assert (O : options [] []) by (split; [constructor|split; cbn; lia]).
  destruct (run_cases (kept l) [] [] O) as [(c' & E' & C)|(e & E' & _)]; cbn [fold_left app] in *; rewrite E in E'; [|discriminate].
  inversion E'; subst. exact C.
Qed.
Lemma read_total : forall fuel prog l, len (prog :: l) < 65535 -> (S (length (prog :: l)) < fuel)%nat ->
  (exists c, readArgs fuel (argsOf (prog :: l)) = Val c) \/
  (exists e, readArgs fuel (argsOf (prog :: l)) = Throw e
    /\ (e = DomainError \/ exists before a after os, kept l = before ++ a :: after /\ options before os /\ unconvertible a e)).
Proof.
  intros fuel prog l H1 H2. rewrite read_run by assumption. assert (O : options [] []) by (split; [constructor|split; cbn; lia]).
  destruct (run_cases (kept l) [] [] O) as [(c & E & C)|(e & E & X)]; cbn [fold_left app] in *; [left; exists c; exact E|right; exists e; auto].
Qed.
