(** Facts about the messages of kanjiStats. *)
From Verif Require Import BaseFacts MapProofs ArgsSpec ArgsProofs CountSpec StatsReportModel StatsReportSpec StatsReportProofs ErrStatsSpec ErrArgsProofs.
From Verif Require LaunchLoop.
From Verif Require Import ErrStatsModel StatsReportModel StatsReportSpec ErrStatsSpec.
Open Scope N_scope.
Arguments N.mul : simpl never. Arguments N.add : simpl never. Arguments N.sub : simpl never.

(** ** The same as without texts *)
Lemma statsLoop_plain : forall fuel a i b e v files, plain (statsLoopT fuel a i b e v files) = argsLoop fuel a i b e v files.
Proof.
  induction fuel as [|f IH]; intros a i b e v files; [reflexivity|]. cbn [statsLoopT argsLoop]. destruct (i <? argc a); [|reflexivity].
  rewrite plain_bind, argAt_plain. destruct (argAt a i) as [s|x| |]; [|reflexivity|reflexivity|reflexivity]. cbn [obind]. cbv zeta.
  assert (K : forall b e v files, plain (next <~ nextArgT f a i ;; statsLoopT f a next b e v files) = (next <- nextArg f a i ;; argsLoop f a next b e v files)).
  { intros. rewrite plain_bind, nextArg_plain. destruct (nextArg f a i); try reflexivity. apply IH. }
  destruct (negb e && BlockModel.startsWith s (b_ "-")); [|apply K].
  destruct (beq s (b_ "-h")); [reflexivity|]. destruct (beq s (b_ "-b")); [apply K|]. destruct (beq s (b_ "-v")); [apply K|].
  destruct (beq s (b_ "--")); [apply K|reflexivity].
Qed.
Lemma statsArgs_plain : forall fuel a, plain (statsArgsT fuel a) = readArgs fuel a.
Proof.
  intros fuel a. unfold statsArgsT, readArgs. rewrite plain_bind, nextArg_plain. destruct (nextArg fuel a 0); try reflexivity. apply statsLoop_plain.
Qed.

Lemma some_same : forall A (x y : A), Some x = Some y -> y = x.
Proof. intros A x y H. congruence. Qed.
(** ** The arguments *)
Definition outcomeT (b v : bool) (files l : list bytes) : res Command :=
  match other_switch l with
  | Some a => if beq a (b_ "-h") then Got Help else Says DomainError (b_ "illegal option '" ++ a ++ b_ "' use -h for help")
  | None => Got (Count (b || StatsReportSpec.has (b_ "-b") (switches l)) (v || StatsReportSpec.has (b_ "-v") (switches l)) (files ++ file_names l))
  end.
Lemma outcomeT_plain : forall b v files l, plain (outcomeT b v files l) = outcome b v files l.
Proof. intros. unfold outcomeT, outcome. destruct (other_switch l) as [a|]; [|reflexivity]. destruct (beq a (b_ "-h")); reflexivity. Qed.
Lemma illegal_text : forall fuel a i js, visitArgs fuel a i = Val js ->
  forall l, Forall2 (fun j s => argAt a j = Val s) js l -> forall b v files x,
    other_switch l = Some x -> x <> b_ "-h" -> statsLoopT fuel a i b false v files = Says DomainError (b_ "illegal option '" ++ x ++ b_ "' use -h for help").
Proof.
  induction fuel as [|f IH]; intros a i js V l F b v files x O NH; [discriminate|]. cbn [visitArgs] in V. cbn [statsLoopT].
  destruct (i <? argc a).
  - destruct (nextArg f a i) as [next| | |] eqn:En; try discriminate. cbn [obind] in V.
    destruct (visitArgs f a next) as [r| | |] eqn:Er; try discriminate. cbn [obind] in V. inversion V; subst js.
    inversion F as [|j s r' l' A F']; subst. rewrite <- argAt_plain in A. rewrite (plain_val _ _ _ A). cbn [rbind]. cbv zeta. cbn [negb andb]. rewrite option_starts.
    rewrite <- nextArg_plain in En. rewrite (plain_val _ _ _ En). cbn [rbind].
    pose proof (fun b v files => IH a next r Er l' F' b v files x) as IHn.
    unfold other_switch, switches in O. cbn [before_end] in O. destruct (beq s (b_ "--")) eqn:N.
    { cbn in O. discriminate O. }
    cbn [filter] in O. destruct (option_like s) eqn:OL.
    + cbn [List.find] in O. unfold StatsReportSpec.has in O at 1. cbn [existsb] in O. rewrite orb_false_r in O.
      destruct (beq s (b_ "-h")) eqn:B0.
      { apply beq_eq in B0. subst s. exfalso. apply NH. exact (some_same _ _ _ (O : Some (b_ "-h") = Some x)). }
      destruct (beq s (b_ "-b")) eqn:B1; [apply (IHn _ _ _ O NH)|]. destruct (beq s (b_ "-v")) eqn:B2; [apply (IHn _ _ _ O NH)|].
      cbn [orb negb] in O. congruence.
    + apply (IHn _ _ _ O NH).
  - inversion V; subst. inversion F; subst. discriminate O.
Qed.
Lemma readT_outcome : forall fuel prog l, len (prog :: l) < 65535 -> (S (List.length (prog :: l)) < fuel)%nat ->
  statsArgsT fuel (argsOf (prog :: l)) = outcomeT false false [] (kept l).
Proof.
  intros fuel prog l Hl Hf. pose proof (read_outcome fuel prog l Hl Hf) as R. rewrite <- statsArgs_plain in R. unfold outcomeT, outcome in *.
  destruct (other_switch (kept l)) as [x|] eqn:O; [|apply plain_val; exact R]. destruct (beq x (b_ "-h")) eqn:B; [apply plain_val; exact R|].
  clear R. pose proof (allArgs_spec fuel prog l Hl Hf) as A. unfold statsArgsT. unfold allArgs in A.
  destruct (nextArg fuel (argsOf (prog :: l)) 0) as [i| | |] eqn:En; try discriminate. cbn [obind] in *.
  rewrite <- nextArg_plain in En. rewrite (plain_val _ _ _ En). cbn [rbind].
  pose proof (LaunchLoop.others_kept l [prog]) as K. change (len [prog]) with 1 in K.
  assert (F : Forall2 (fun j s => argAt (argsOf (prog :: l)) j = Val s) (others 1 l) (kept l)).
  { clear A O. induction K as [|j s js ss H K IH]; constructor; [apply argAt_spec; exact H|exact IH]. }
  apply (illegal_text fuel _ i _ A _ F _ _ _ _ O). intros ->. rewrite beq_refl in B. discriminate B.
Qed.

(** ** The files *)
Section Whole.
  Variable stdWhat : exn -> bytes.
  Variable ucd : bytes -> bool.
  Variable findByName : bytes -> option StatsModel.Entry.
  Variable order : list StatsModel.SCount -> list StatsModel.SCount.
  Variable fs : bytes -> option CountModel.node.
  Lemma exists_missing : forall p, exists_ fs p = false <-> missing fs p.
  Proof.
    intro p. unfold exists_, missing, leads_to. destruct (fs p) as [n|]; [destruct (CountModel.resolve n) as [t|] eqn:E|].
    - split; [discriminate|]. intro H. exfalso. apply (H t). eauto.
    - split; [|reflexivity]. intros _ t (m & H1 & H2). congruence.
    - split; [|reflexivity]. intros _ t (m & H1 & H2). congruence.
  Qed.
  Lemma count_plain : forall b v p,
    (fst (countKanjiT stdWhat ucd findByName order fs b v p), plain (snd (countKanjiT stdWhat ucd findByName order fs b v p))) = countKanji ucd findByName order fs b v p.
  Proof.
    intros b v p. unfold countKanjiT. destruct (exists_ fs p) eqn:E.
    - destruct (countKanji ucd findByName order fs b v p) as [t x]. cbn [outT fst snd]. rewrite withText_plain. reflexivity.
    - apply exists_missing in E. rewrite (count_missing ucd findByName order fs b v p E). reflexivity.
  Qed.
  Lemma countAll_plain : forall b v files text,
    (fst (countAllT stdWhat ucd findByName order fs b v files text), plain (snd (countAllT stdWhat ucd findByName order fs b v files text))) = countAll ucd findByName order fs b v files text.
  Proof.
    intros b v files. induction files as [|p files IH]; intro text; [reflexivity|]. cbn [countAllT countAll]. rewrite <- count_plain.
    destruct (countKanjiT stdWhat ucd findByName order fs b v p) as [t [u|e w| |]]; [apply IH|reflexivity|reflexivity|reflexivity].
  Qed.
  Lemma stats_plain : forall fuel a debug,
    (fst (statsT stdWhat ucd findByName order fs fuel a debug), plain (snd (statsT stdWhat ucd findByName order fs fuel a debug))) = stats ucd findByName order fs fuel a debug.
  Proof.
    intros fuel a debug. unfold statsT, stats. rewrite <- statsArgs_plain. destruct (statsArgsT fuel a) as [[|b v files]|e w| |]; try reflexivity.
    cbn [plain]. destruct files as [|p files]; [destruct debug; reflexivity|apply countAll_plain].
  Qed.
  (** all files are there, and the reports are made, or the first that is not is named *)
  Lemma all_texts : forall b v files text, (forall p, ~ missing fs p -> In p files -> exists s, countKanji ucd findByName order fs b v p = (s, Val tt)) ->
    (Forall (fun q => ~ missing fs q) files /\ exists t, countAllT stdWhat ucd findByName order fs b v files text = (t, Got tt))
    \/ exists done p rest, files = done ++ p :: rest /\ Forall (fun q => ~ missing fs q) done /\ missing fs p
       /\ exists t, countAllT stdWhat ucd findByName order fs b v files text = (t, Says DomainError (b_ "file not found: " ++ p)).
  Proof.
    intros b v files. induction files as [|p files IH]; intros text H; [left; split; [constructor|eexists; reflexivity]|].
    cbn [countAllT]. unfold countKanjiT. destruct (exists_ fs p) eqn:E.
    - assert (M : ~ missing fs p) by (intro M; apply exists_missing in M; congruence).
      destruct (H p M (or_introl eq_refl)) as (s & C). rewrite C. cbn [outT fst snd withText].
      destruct (IH (text ++ s) (fun q Hq I => H q Hq (or_intror I))) as [(F & t & T)|(done & q & rest & -> & F & Q & t & T)].
      + left. split; [constructor; assumption|]. exists t. exact T.
      + right. exists (p :: done), q, rest. split; [reflexivity|]. split; [constructor; assumption|]. split; [exact Q|]. exists t. exact T.
    - apply exists_missing in E. right. exists [], p, files. split; [reflexivity|]. split; [constructor|]. split; [exact E|]. eexists. reflexivity.
  Qed.
End Whole.
Lemma first_missing : forall fs done p rest done' p' rest', done ++ p :: rest = done' ++ p' :: rest' ->
  Forall (fun q => ~ missing fs q) done -> Forall (fun q => ~ missing fs q) done' -> missing fs p -> missing fs p' -> p = p'.
Proof.
  intros fs done. induction done as [|d done IH]; intros p rest [|d' done'] p' rest' H F F' M M'; cbn [app] in H.
  - injection H as ->. reflexivity.
  - injection H as -> _. inversion F'; contradiction.
  - injection H as -> _. inversion F; contradiction.
  - injection H as _ H. inversion F; inversion F'; subst. eapply IH; eassumption.
Qed.
Lemma says_once : forall fs debug l w w', stats_says fs debug l w -> stats_says fs debug l w' -> w = w'.
Proof.
  intros fs debug l w w' H H'. destruct H as [a A1 A2|A1 A2 A3|d p r A1 A2 A3 A4]; destruct H' as [a' B1 B2|B1 B2 B3|d' p' r' B1 B2 B3 B4]; try congruence.
  - rewrite A3 in B2. destruct d'; discriminate B2.
  - rewrite A2 in B3. destruct d; discriminate B3.
  - rewrite A2 in B2. rewrite (first_missing fs d p r d' p' r' B2 A3 B3 A4 B4). reflexivity.
Qed.
