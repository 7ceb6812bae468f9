(** Proofs about reading the command line. *)
From Verif Require Import BaseFacts ArgsProofs ColumnFileLemmas LaunchModel LaunchSpec.
Open Scope N_scope.
Arguments N.mul : simpl never. Arguments N.add : simpl never. Arguments N.sub : simpl never.

(** ** one option *)
Lemma isdigit_iff : forall c, isdigit c = true <-> is_digit c.
Proof. intro c. unfold isdigit, is_digit. lia. Qed.
Lemma allDigits_iff : forall s, allDigits s = true <-> Forall is_digit s.
Proof.
  intro s. unfold allDigits. rewrite forallb_forall, Forall_forall. split; intros H c Hc; apply isdigit_iff; auto.
Qed.
Lemma stoul_empty : stoul [] = Throw StdInvalidArgument.
Proof. reflexivity. Qed.
Lemma numeral_cons : forall c r, Forall is_digit (c :: r) -> numeral (c :: r).
Proof. intros c r H. split; [discriminate|exact H]. Qed.

(** the number part *)
Definition number (s : bytes) : out N :=
  if negb (allDigits s) then Throw DomainError else i <- stoul s ;; if i <=? 65535 then Val i else Throw DomainError.
Lemma number_cases : forall s,
  (numeral s /\ decimal s <= 65535 /\ number s = Val (decimal s))
  \/ (numeral s /\ 65535 < decimal s /\ decimal s < 2 ^ 64 /\ number s = Throw DomainError)
  \/ (numeral s /\ 2 ^ 64 <= decimal s /\ number s = Throw StdOutOfRange)
  \/ (s = [] /\ number s = Throw StdInvalidArgument)
  \/ (~ Forall is_digit s /\ number s = Throw DomainError).
Proof.
  intro s. unfold number. destruct (allDigits s) eqn:E; cbn [negb].
  - apply allDigits_iff in E. destruct s as [|c r].
    + right. right. right. left. split; reflexivity.
    + pose proof (numeral_cons _ _ E) as M. rewrite (stoul_numeral _ M).
      destruct (2 ^ 64 - 1 <? decimal (c :: r)) eqn:B.
      * right. right. left. split; [exact M|]. split; [lia|reflexivity].
      * cbn [obind]. destruct (decimal (c :: r) <=? 65535) eqn:C.
        -- left. split; [exact M|]. split; [lia|reflexivity].
        -- right. left. split; [exact M|]. split; [lia|]. split; [lia|reflexivity].
  - right. right. right. right. split; [|reflexivity]. intro H. apply allDigits_iff in H. congruence.
Qed.

Definition mode_of (x : N) : ProgramMode := if x =? 114 then Review else QuizMode.
Lemma mode_of_letter : forall x m, mode_letter x m -> mode_of x = m.
Proof. intros x m [[-> ->]|[-> ->]]; reflexivity. Qed.
Lemma letter_mode_of : forall x, x = 114 \/ x = 116 -> mode_letter x (mode_of x).
Proof. intros x [->|Hx]; [left; split; reflexivity|]. subst x. right; split; reflexivity. Qed.

(** the argument as a case distinction over its third byte *)
Lemma mode_arg_unfold : forall y x o s, processProgramModeArg NoMode o (y :: x :: s) =
  match s with
  | [] => Val (mode_of x, o, 0)
  | c :: r =>
      if match r with [] => c =? 48 | _ => false end then Val (mode_of x, RandomOrder, 0)
      else if c =? 45 then n <- number r ;; Val (mode_of x, FromEnd, n)
      else if c =? 43 then n <- number r ;; Val (mode_of x, FromBeginning, n)
      else n <- number s ;; Val (mode_of x, FromBeginning, n)
  end.
Proof.
  intros y x o s. unfold processProgramModeArg, number. fold (mode_of x). destruct s as [|c r]; [reflexivity|].
  assert (L : (len (y :: x :: c :: r) =? 3) = match r with [] => true | _ => false end).
  { destruct r; rewrite !len_cons; [rewrite len_nil; reflexivity|]. lia. }
  rewrite L. destruct r as [|d r]; cbn [andb].
  - destruct (c =? 48) eqn:E; [reflexivity|]. destruct (c =? 45) eqn:E1; cbn [orb]; [reflexivity|].
    destruct (c =? 43) eqn:E2; cbn [orb]; [reflexivity|].
    destruct (allDigits [c]); cbn [negb]; [|reflexivity]. destruct (stoul [c]); cbn [obind]; try reflexivity. destruct (_ <=? _); reflexivity.
  - destruct (c =? 45) eqn:E1; cbn [orb].
    { destruct (allDigits (d :: r)); cbn [negb]; [|reflexivity]. destruct (stoul (d :: r)); cbn [obind]; try reflexivity. destruct (_ <=? _); reflexivity. }
    destruct (c =? 43) eqn:E2; cbn [orb].
    { destruct (allDigits (d :: r)); cbn [negb]; [|reflexivity]. destruct (stoul (d :: r)); cbn [obind]; try reflexivity. destruct (_ <=? _); reflexivity. }
    destruct (allDigits (c :: d :: r)); cbn [negb]; [|reflexivity]. destruct (stoul (c :: d :: r)); cbn [obind]; try reflexivity. destruct (_ <=? _); reflexivity.
Qed.

Lemma mode_arg_cases : forall x s, x = 114 \/ x = 116 ->
  (exists m o q, processProgramModeArg NoMode NoOrder (45 :: x :: s) = Val (m, o, q) /\ documented (45 :: x :: s) (OMode m o q))
  \/ (exists e, processProgramModeArg NoMode NoOrder (45 :: x :: s) = Throw e /\ (e = DomainError \/ unconvertible (45 :: x :: s) e)).
Proof.
  intros x s Hx. pose proof (letter_mode_of x Hx) as L. rewrite mode_arg_unfold. destruct s as [|c r].
  { left. eexists _, _, _. split; [reflexivity|]. apply doc_mode. exact L. }
  destruct (match r with [] => c =? 48 | _ => false end) eqn:E.
  { destruct r; [|discriminate]. apply N.eqb_eq in E. subst c. left. eexists _, _, _. split; [reflexivity|]. apply doc_random. exact L. }
  destruct (c =? 45) eqn:E1.
  { apply N.eqb_eq in E1. subst c. destruct (number_cases r) as [(A & B & ->)|[(A & B & C & ->)|[(A & B & ->)|[(-> & H)|(A & ->)]]]]; try rewrite H; cbn [obind].
    - left. eexists _, _, _. split; [reflexivity|]. apply doc_minus; assumption.
    - right. eexists. split; [reflexivity|left; reflexivity].
    - right. eexists. split; [reflexivity|right]. eapply unc_large_sign; eauto.
    - right. eexists. split; [reflexivity|right]. eapply unc_sign; eauto.
    - right. eexists. split; [reflexivity|left; reflexivity]. }
  destruct (c =? 43) eqn:E2.
  { apply N.eqb_eq in E2. subst c. destruct (number_cases r) as [(A & B & ->)|[(A & B & C & ->)|[(A & B & ->)|[(-> & H)|(A & ->)]]]]; try rewrite H; cbn [obind].
    - left. eexists _, _, _. split; [reflexivity|]. apply doc_plus; assumption.
    - right. eexists. split; [reflexivity|left; reflexivity].
    - right. eexists. split; [reflexivity|right]. eapply unc_large_sign; eauto.
    - right. eexists. split; [reflexivity|right]. eapply unc_sign; eauto.
    - right. eexists. split; [reflexivity|left; reflexivity]. }
  destruct (number_cases (c :: r)) as [(A & B & ->)|[(A & B & C & ->)|[(A & B & ->)|[(X & H)|(A & ->)]]]]; try discriminate; cbn [obind].
  - left. eexists _, _, _. split; [reflexivity|]. apply doc_number; try assumption. intro X. inversion X; subst. discriminate.
  - right. eexists. split; [reflexivity|left; reflexivity].
  - right. eexists. split; [reflexivity|right]. eapply unc_large; eauto.
  - right. eexists. split; [reflexivity|left; reflexivity].
Qed.

Lemma not_keys_mode : forall x m ks, mode_letter x m -> list_keys x ks -> False.
Proof. intros x m ks L K. destruct L as [[-> _]|[-> _]]; inversion K. Qed.
Lemma numeral_first : forall c r, numeral (c :: r) -> c <> 45 /\ c <> 43.
Proof. intros c r [_ H]. apply Forall_cons_iff in H. destruct H as [[A B] _]. lia. Qed.

Lemma number_ok : forall s, numeral s -> decimal s <= 65535 -> number s = Val (decimal s).
Proof.
  intros s A B. destruct (number_cases s) as [(_ & _ & E)|[(_ & C & _)|[(_ & C & _)|[(-> & _)|(X & _)]]]]; [exact E|lia|lia| |].
  - destruct A as [A _]. congruence.
  - destruct A as [_ A]. contradiction.
Qed.
Lemma number_large : forall s, numeral s -> 2 ^ 64 <= decimal s -> number s = Throw StdOutOfRange.
Proof.
  intros s A B. destruct (number_cases s) as [(_ & C & E)|[(_ & C & D & _)|[(_ & C & E)|[(-> & _)|(X & _)]]]]; [lia|lia|exact E| |].
  - destruct A as [A _]. congruence.
  - destruct A as [_ A]. contradiction.
Qed.

Lemma mode_arg_doc : forall arg m o q, documented arg (OMode m o q) -> processProgramModeArg NoMode NoOrder arg = Val (m, o, q).
Proof.
  intros arg m o q H. remember (OMode m o q) as d eqn:D.
  destruct H as [x m' L|x m' L|x m' s L A B C|x m' s L A C|x m' s L A C|t ks K|t ks c K I|]; try discriminate D; inversion D; subst; clear D;
    rewrite mode_arg_unfold; try rewrite (mode_of_letter _ _ L).
  - reflexivity.
  - reflexivity.
  - destruct s as [|c r]; [destruct A; congruence|]. destruct (numeral_first _ _ A) as [N1 N2].
    replace (match r with [] => c =? 48 | _ => false end) with false.
    2:{ destruct r; [|reflexivity]. symmetry. apply N.eqb_neq. congruence. }
    replace (c =? 45) with false by lia. replace (c =? 43) with false by lia. rewrite number_ok by assumption. reflexivity.
  - replace (match s with [] => 43 =? 48 | _ => false end) with false by (destruct s; reflexivity).
    change (43 =? 45) with false. change (43 =? 43) with true. cbn [obind]. cbv iota. rewrite number_ok by assumption. reflexivity.
  - replace (match s with [] => 45 =? 48 | _ => false end) with false by (destruct s; reflexivity).
    change (45 =? 45) with true. cbv iota. rewrite number_ok by assumption. reflexivity.
Qed.
Lemma mode_arg_unc : forall arg e, unconvertible arg e -> processProgramModeArg NoMode NoOrder arg = Throw e.
Proof.
  intros arg e H. destruct H as [x m c L C|x m s L A B|x m c s L C A B]; rewrite mode_arg_unfold.
  - destruct C as [->| ->]; reflexivity.
  - destruct s as [|c r]; [destruct A; congruence|]. destruct (numeral_first _ _ A) as [N1 N2].
    replace (match r with [] => c =? 48 | _ => false end) with false.
    2:{ destruct r; [|reflexivity]. symmetry. apply N.eqb_neq. intro; subst. vm_compute in B. congruence. }
    replace (c =? 45) with false by lia. replace (c =? 43) with false by lia. rewrite number_large by assumption. reflexivity.
  - replace (match s with [] => c =? 48 | _ => false end) with false.
    2:{ destruct s; [|reflexivity]. destruct C; subst; reflexivity. }
    destruct C as [->| ->].
    + change (43 =? 45) with false. change (43 =? 43) with true. cbv iota. rewrite number_large by assumption. reflexivity.
    + change (45 =? 45) with true. cbv iota. rewrite number_large by assumption. reflexivity.
Qed.
