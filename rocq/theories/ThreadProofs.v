(** Facts about the threads of kanjiStats. *)
From Verif Require Import BaseFacts ThreadModel ColumnFileProofs.
Open Scope N_scope.
Arguments N.mul : simpl never. Arguments N.add : simpl never. Arguments N.sub : simpl never.

Section Threads.
Variable findUcd : bytes -> bool.
Variable findByName : bytes -> option Entry.
Variable order : list SCount -> list SCount.
Variable fs : bytes -> option node.
Variables b v : bool.
Notation rws := (rows findUcd).
Notation runRow i top row := (run findByName order fs b v (match i with O => true | _ => false end) top row).
Notation tstep := (threadStep findByName order fs b v).
Notation mstep := (mainStep findUcd).
Notation gstep := (step findUcd findByName order fs b v).
Notation gsteps := (steps findUcd findByName order fs b v).
Notation countF := (countKanji findUcd findByName order fs b v).
Notation countL := (countAll findUcd findByName order fs b v).
Notation runs := (runRows findUcd findByName order fs b v).

Lemma some_inj : forall A (x y : A), Some x = Some y -> x = y.
Proof. congruence. Qed.

(** *** One thread *)

Definition prologue (row : bytes * (bytes -> out bool)) : bytes :=
  if beq (fst row) (b_ "Hiragana") && v then b_ ">>> Showing all Furigana replacements:" ++ [10] else [].
Definition added (top : bytes) (row : bytes * (bytes -> out bool)) : out (N * (Counter * bytes)) :=
  let name := fst row in
  let isHiragana := beq name (b_ "Hiragana") in
  addFileV (if isHiragana || beq name (b_ "Katakana") || beq name (b_ "MB-Letter") then Some removeFurigana else None) (snd row) (isHiragana && v)
    (fs top) (filename top) (isKanjiRow name || beq name (b_ "Unrecognized") || (isHiragana && v)) true true (newCounter, prologue row).
Definition header (i : nat) (top : bytes) (c : Counter) : bytes := match i with O => printHeaderInfo top c | _ => [] end.
Definition last_part (row : bytes * (bytes -> out bool)) (c : Counter) (total : N) : out bytes :=
  let name := fst row in
  let isKanji := isKanjiRow name in
  let frequency := order (rowCounts findByName isKanji (cMap c)) in
  if negb (total =? 0) then
    breakdown <- (if beq name (b_ "Unrecognized") || (isKanji && b) then printBreakdown name b c frequency else Val []) ;;
    Val (printTotalAndUnique name total (len frequency)
         ++ (if isKanji && BlockModel.startsWith name (b_ "Common") then b_ ", 100.00%" ++ [10] ++ printKanjiTypeCounts total frequency
             else if isKanji then printRareExamples frequency else [10]) ++ breakdown)
  else Val [].
Lemma run_parts : forall i top row, runRow i top row =
  ('(_, (c, os)) <- added top row ;;
   l <- last_part row c (rowTotal (cMap c)) ;;
   Val (rowTotal (cMap c), (os ++ header i top c) ++ l)).
Proof.
  intros i top row. unfold run, added, last_part, header, prologue. cbv zeta.
  destruct (addFileV _ _ _ _ _ _ _ _ _) as [[n [c os]]|e| |]; try reflexivity. cbn [obind].
  destruct (negb (rowTotal (cMap c) =? 0)).
  - destruct (beq (fst row) (b_ "Unrecognized") || isKanjiRow (fst row) && b).
    + destruct (printBreakdown _ _ _ _) as [br|e| |]; cbn [obind]; try reflexivity. destruct i; reflexivity.
    + cbn [obind]. destruct i; reflexivity.
  - cbn [obind]. rewrite app_nil_r. destruct i; reflexivity.
Qed.

(** what is known of a thread at each place *)
Definition outcome {A B} (f : A -> B) (r : out A) : out B := match r with Val a => Val (f a) | Throw e => Throw e | Ub => Ub | Fuel => Fuel end.
Definition pred_ok (i : nat) (top : bytes) (row : bytes * (bytes -> out bool)) (p : Pred) : Prop :=
  match pPlace p with
  | Begin => pTotal p = 0 /\ pOs p = [] /\ pFuture p = None
  | AddFile => pTotal p = 0 /\ pOs p = prologue row /\ pFuture p = None
  | PrintHeader c => pTotal p = 0 /\ (exists n, added top row = Val (n, (c, pOs p))) /\ pFuture p = None
  | Entries c rest => (exists n os, added top row = Val (n, (c, os)) /\ pOs p = os ++ header i top c)
      /\ (exists done, cMap c = done ++ rest /\ pTotal p = rowTotal done) /\ pFuture p = None
  | PrintTotal c => (exists n os, added top row = Val (n, (c, os)) /\ pOs p = os ++ header i top c)
      /\ pTotal p = rowTotal (cMap c) /\ pFuture p = None
  | Ended => pFuture p = Some (outcome snd (runRow i top row)) /\ forall n t, runRow i top row = Val (n, t) -> pTotal p = n
  end.
Lemma thread_keeps : forall i top row p p', pred_ok i top row p -> tstep i top row p = Some p' -> pred_ok i top row p'.
Proof.
  intros i top row [pl t os fu] p' Hok H. unfold threadStep in H. cbv zeta in H. unfold pred_ok in Hok. cbn [pPlace pTotal pOs pFuture] in *.
  destruct pl as [| |c|c rest|c|]; cbn [pPlace pTotal pOs pFuture] in *.
  - destruct Hok as [-> [-> ->]]. apply some_inj in H; subst p'. unfold pred_ok, prologue. destruct (beq (fst row) (b_ "Hiragana") && v); cbn [pPlace pTotal pOs pFuture at_place write app]; repeat split.
  - destruct Hok as [-> [-> ->]].
    match type of H with Some (orElse ?x _ _) = _ => change x with (added top row) in H end.
    pose proof (run_parts i top row) as R.
    destruct (added top row) as [[n [c os']]|e| |] eqn:E; cbn [orElse] in H; apply some_inj in H; subst p'; unfold pred_ok; cbn [pPlace pTotal pOs pFuture finish].
    + split; [reflexivity|]. split; [exists n; rewrite E; reflexivity|reflexivity].
    + rewrite R. cbn [obind outcome]. split; [reflexivity|discriminate].
    + rewrite R. cbn [obind outcome]. split; [reflexivity|discriminate].
    + rewrite R. cbn [obind outcome]. split; [reflexivity|discriminate].
  - destruct Hok as [-> [[n E] ->]]. apply some_inj in H; subst p'. unfold pred_ok. cbn [pPlace at_place].
    split; [|split].
    + exists n, os. split; [exact E|]. unfold header. destruct i; cbn; [reflexivity|rewrite app_nil_r; reflexivity].
    + exists []. split; [reflexivity|]. destruct i; reflexivity.
    + destruct i; reflexivity.
  - destruct Hok as [Ha [[done [Hm Ht]] ->]]. destruct rest as [|[k n] rest]; apply some_inj in H; subst p'; unfold pred_ok; cbn.
    + split; [exact Ha|]. split; [|reflexivity]. rewrite app_nil_r in Hm. rewrite Hm. exact Ht.
    + split; [exact Ha|]. split; [|reflexivity]. exists (done ++ [(k, n)]). split; [rewrite <- app_assoc; exact Hm|].
      rewrite Ht. unfold rowTotal. rewrite fold_left_app. reflexivity.
  - destruct Hok as [[n [os' [Ea ->]]] [Ht ->]]. pose proof (run_parts i top row) as R. rewrite Ea in R. cbn [obind] in R. rewrite <- Ht in R.
    unfold last_part in R. cbv zeta in R, H. destruct (negb (t =? 0)) eqn:Et.
    + match type of H with Some (orElse ?x _ _) = _ => destruct x as [br|e| |] eqn:Eb end;
        cbn [orElse] in H; apply some_inj in H; subst p'; unfold pred_ok; cbn [pPlace pTotal pOs pFuture finish write]; cbn [obind] in R; rewrite R;
        cbn [outcome snd].
      * split; [reflexivity|]. intros n' t' H. congruence.
      * split; [reflexivity|discriminate].
      * split; [reflexivity|discriminate].
      * split; [reflexivity|discriminate].
    + cbn [obind] in R. rewrite app_nil_r in R. apply some_inj in H; subst p'. unfold pred_ok. cbn [pPlace pTotal pOs pFuture finish]. rewrite R.
      cbn [outcome snd]. split; [reflexivity|]. intros n' t' H. congruence.
  - discriminate H.
Qed.
Lemma thread_runs : forall i top row p, pPlace p <> Ended -> exists p', tstep i top row p = Some p'.
Proof.
  intros i top row p H. unfold threadStep. destruct (pPlace p) as [| |c|c [|e r]|c|]; try (eexists; reflexivity). congruence.
Qed.

(** the number of steps a thread still has to do *)
Definition total_cost (top : bytes) (row : bytes * (bytes -> out bool)) : nat :=
  match added top row with Val (_, (c, _)) => 5 + List.length (cMap c) | _ => 2 end.
Definition cost (top : bytes) (row : bytes * (bytes -> out bool)) (p : Pred) : nat :=
  match pPlace p with
  | Begin => total_cost top row
  | AddFile => total_cost top row - 1
  | PrintHeader c => 3 + List.length (cMap c)
  | Entries c rest => 2 + List.length rest
  | PrintTotal c => 1
  | Ended => 0
  end.
Lemma thread_cost : forall i top row p p', pred_ok i top row p -> tstep i top row p = Some p' -> (cost top row p' < cost top row p)%nat.
Proof.
  intros i top row [pl t os fu] p' Hok H. unfold threadStep in H. cbv zeta in H. unfold pred_ok in Hok. unfold cost. cbn [pPlace pTotal pOs pFuture] in *.
  assert (T : (2 <= total_cost top row)%nat) by (unfold total_cost; destruct (added top row) as [[n [c o]]|e| |]; lia).
  destruct pl as [| |c|c rest|c|]; cbn [pPlace pTotal pOs pFuture] in *.
  - apply some_inj in H; subst p'. cbn [pPlace at_place]. lia.
  - destruct Hok as [-> [-> ->]].
    match type of H with Some (orElse ?x _ _) = _ => change x with (added top row) in H end. unfold total_cost in *.
    destruct (added top row) as [[n [c os']]|e| |] eqn:E; cbn [orElse] in H; apply some_inj in H; subst p'; cbn [pPlace finish fst snd]; lia.
  - apply some_inj in H; subst p'. cbn [pPlace at_place]. lia.
  - destruct rest as [|[k n] rest]; apply some_inj in H; subst p'; cbn [pPlace at_place List.length]; lia.
  - cbv zeta in H. destruct (negb (t =? 0)).
    + match type of H with Some (orElse ?x _ _) = _ => destruct x end; cbn [orElse] in H; apply some_inj in H; subst p'; cbn [pPlace finish]; lia.
    + apply some_inj in H; subst p'. cbn [pPlace finish]. lia.
  - discriminate H.
Qed.

(** *** The whole report in parts *)

Definition names : list bytes := map fst rws.
Definition rest_of (files : list bytes) (text : bytes) (ns0 : list N) (rs : list (out (N * bytes))) : printed unit :=
  let '(t, ns) := printRows rs text in
  match ns with
  | Val ns => countL files (t ++ totalLine (combine names (ns0 ++ ns)))
  | Throw e => (t, Throw e)
  | Ub => (t, Ub)
  | Fuel => (t, Fuel)
  end.
Lemma print_prefix : forall rs text, printRows rs text = (text ++ fst (printRows rs []), snd (printRows rs [])).
Proof.
  induction rs as [|r rs IH]; intro text; cbn [printRows]; [rewrite app_nil_r; reflexivity|].
  destruct r as [[n s]|e| |]; try (cbn [fst snd]; rewrite app_nil_r; reflexivity).
  rewrite (IH (text ++ s)), (IH ([] ++ s)). cbn [app fst snd]. rewrite <- app_assoc. reflexivity.
Qed.
Lemma countL_cons : forall f r text, countL (f :: r) text = rest_of r text [] (runs f).
Proof.
  intros f r text. unfold rest_of. rewrite (print_prefix (runs f) text). cbn [countAll]. unfold countKanji.
  destruct (printRows (runs f) []) as [t ns]. cbn [fst snd]. destruct ns as [ns|e| |]; try reflexivity.
  cbn [app]. unfold names. rewrite <- app_assoc. reflexivity.
Qed.
Lemma rest_cons : forall files text ns0 n s rs, rest_of files text ns0 (Val (n, s) :: rs) = rest_of files (text ++ s) (ns0 ++ [n]) rs.
Proof.
  intros files text ns0 n s rs. unfold rest_of. cbn [printRows]. destruct (printRows rs (text ++ s)) as [t ns].
  destruct ns as [ns|e| |]; cbn [obind]; try reflexivity. rewrite <- app_assoc. reflexivity.
Qed.
Lemma rest_nil : forall files text ns0, rest_of files text ns0 [] = countL files (text ++ totalLine (combine names ns0)).
Proof. intros. unfold rest_of. cbn [printRows]. rewrite app_nil_r. reflexivity. Qed.
Lemma nth_runs : forall i top row, nth_error rws i = Some row -> nth_error (runs top) i = Some (runRow i top row).
Proof.
  intros i top row H. unfold runRows. destruct rws as [|r0 rs]; [destruct i; discriminate H|]. destruct i as [|i]; cbn in *; [congruence|].
  apply (map_nth_error (run findByName order fs b v false top)) in H. exact H.
Qed.
Lemma runs_length : forall top, List.length (runs top) = List.length rws.
Proof. intro top. unfold runRows. destruct rws; [reflexivity|]. cbn. rewrite map_length. reflexivity. Qed.

(** *** What holds in every state *)

Definition preds_ok (s : State) : Prop := forall i p, nth_error (sPreds s) i = Some p -> exists row, nth_error rws i = Some row /\ pred_ok i (sFile s) row p.
Definition got (s : State) (ns : list N) : Prop := forall j n, nth_error ns j = Some n ->
  (exists t, nth_error (runs (sFile s)) j = Some (Val (n, t))) /\ exists p, nth_error (sPreds s) j = Some p /\ pPlace p = Ended.
Definition goes (s : State) (res : printed unit) : Prop :=
  match sPlace s with
  | Starting => countL (sFile s :: sFiles s) (sText s) = res
  | Getting i => List.length (sPreds s) = List.length rws /\ (i <= List.length rws)%nat
      /\ exists ns, List.length ns = i /\ got s ns /\ rest_of (sFiles s) (sText s) ns (skipn i (runs (sFile s))) = res
  | Totals ms => List.length (sPreds s) = List.length rws /\ (List.length ms <= IncludeInTotals)%nat
      /\ exists ns, List.length ns = List.length rws /\ got s ns /\ ms = firstn (List.length ms) ns
         /\ countL (sFiles s) (sText s ++ totalLine (combine names ns)) = res
  | Leaving r => (sText s, r) = res
  | Finished r => (sText s, r) = res /\ Forall (fun p => pPlace p = Ended) (sPreds s)
  end.
Definition inv (res : printed unit) (s : State) : Prop := preds_ok s /\ goes s res.

Lemma future_ended : forall i top row p r, pred_ok i top row p -> pFuture p = Some r -> pPlace p = Ended.
Proof.
  intros i top row p r H E. unfold pred_ok in H. destruct (pPlace p); try reflexivity; exfalso; destruct H as [H1 [H2 H3]]; congruence.
Qed.
Lemma all_ended : forall l, forallb isEnded l = true <-> Forall (fun p => pPlace p = Ended) l.
Proof.
  intro l. rewrite forallb_forall, Forall_forall. split; intros H p Hp; specialize (H p Hp); unfold isEnded in *; destruct (pPlace p); congruence.
Qed.
Lemma skipn_nth : forall A (l : list A) i x, nth_error l i = Some x -> skipn i l = x :: skipn (S i) l.
Proof. induction l as [|y l IH]; intros [|i] x H; cbn in *; try discriminate H; [congruence|]. apply IH. exact H. Qed.
Lemma firstn_snoc : forall A (l : list A) i x, nth_error l i = Some x -> firstn (S i) l = firstn i l ++ [x].
Proof. induction l as [|y l IH]; intros [|i] x H; cbn [nth_error firstn app] in *; try discriminate H; [congruence|]. rewrite (IH i x H). reflexivity. Qed.
Lemma totals_firstn : forall ns, totalLine (combine names (firstn IncludeInTotals ns)) = totalLine (combine names ns).
Proof.
  intro ns. assert (E : firstn IncludeInTotals (combine names (firstn IncludeInTotals ns)) = firstn IncludeInTotals (combine names ns)).
  { rewrite !combine_firstn, firstn_firstn. rewrite Nat.min_id. reflexivity. }
  unfold totalLine. rewrite E. reflexivity.
Qed.

Lemma main_keeps : forall res s s', inv res s -> mstep s = Some s' -> inv res s'.
Proof.
  intros res s s' [Hp Hg] H. unfold mainStep in H. unfold goes in Hg. destruct (sPlace s) as [|i|ms|r|r] eqn:Epl.
  - destruct (List.length (sPreds s) <? List.length rws)%nat eqn:El; apply some_inj in H; subst s'.
    + apply Nat.ltb_lt in El. split.
      * intros i p Hi. cbn in Hi. destruct (Nat.lt_ge_cases i (List.length (sPreds s))) as [Hl|Hl].
        { rewrite nth_error_app1 in Hi by exact Hl. exact (Hp i p Hi). }
        rewrite nth_error_app2 in Hi by exact Hl. destruct (i - List.length (sPreds s))%nat eqn:Ei; [|destruct n; discriminate Hi].
        assert (i = List.length (sPreds s)) as -> by lia. injection Hi as <-.
        destruct (nth_error rws (List.length (sPreds s))) as [row|] eqn:Er; [|apply nth_error_None in Er; lia].
        exists row. split; [reflexivity|]. unfold pred_ok. cbn. auto.
      * unfold goes. cbn [sPlace with_preds]. rewrite Epl. exact Hg.
    + apply Nat.ltb_ge in El. split; [exact Hp|]. unfold goes. cbn [sPlace go sPreds sFile sFiles sText].
      assert (Hl : List.length (sPreds s) = List.length rws).
      { destruct (Nat.eq_dec (List.length (sPreds s)) (List.length rws)) as [E|E]; [exact E|].
        destruct (nth_error (sPreds s) (List.length rws)) as [p|] eqn:Ep; [|apply nth_error_None in Ep; lia].
        destruct (Hp _ _ Ep) as [row [Er _]]. exfalso. assert (X : nth_error rws (List.length rws) <> None) by congruence. apply nth_error_Some in X. lia. }
      split; [exact Hl|]. split; [lia|]. exists []. split; [reflexivity|]. split; [intros j n Hj; destruct j; discriminate Hj|].
      cbn [skipn]. rewrite <- countL_cons. exact Hg.
  - destruct Hg as [Hl [Hi [ns [Hn [Hgot Hr]]]]]. destruct (i <? List.length rws)%nat eqn:Elt.
    + apply Nat.ltb_lt in Elt. destruct (nth_error (sPreds s) i) as [p|] eqn:Ep; [|discriminate H].
      destruct (pFuture p) as [r|] eqn:Ef; [|discriminate H]. destruct (Hp i p Ep) as [row [Er Hok]].
      pose proof (future_ended _ _ _ _ _ Hok Ef) as Hend. pose proof Hok as Hok'. unfold pred_ok in Hok'. rewrite Hend in Hok'. destruct Hok' as [Hf Ht].
      pose proof (nth_runs i (sFile s) row Er) as Hrun. rewrite (skipn_nth _ _ _ _ Hrun) in Hr.
      rewrite Ef in Hf. apply some_inj in Hf. destruct (runRow i (sFile s) row) as [[n t]|e| |] eqn:Erun; cbn [outcome snd] in Hf; subst r;
        apply some_inj in H; subst s'; (split; [exact Hp|]); unfold goes; cbn [sPlace go sPreds sFile sFiles sText print].
      * split; [exact Hl|]. split; [lia|]. exists (ns ++ [n]). split; [rewrite app_length; cbn; lia|]. split.
        { intros j m Hj. cbn. destruct (Nat.lt_ge_cases j i) as [Hlt|Hge].
          - rewrite nth_error_app1 in Hj by lia. exact (Hgot j m Hj).
          - rewrite nth_error_app2 in Hj by lia. destruct (j - List.length ns)%nat as [|d] eqn:Ej; [|destruct d; discriminate Hj].
            assert (j = i) as -> by lia. injection Hj as <-. split; [exists t; exact Hrun|exists p; auto]. }
        rewrite rest_cons in Hr. exact Hr.
      * exact Hr.
      * exact Hr.
      * exact Hr.
    + apply Nat.ltb_ge in Elt. apply some_inj in H; subst s'. split; [exact Hp|]. unfold goes. cbn [sPlace go sPreds sFile sFiles sText].
      split; [exact Hl|]. split; [cbn; lia|]. exists ns. split; [lia|]. split; [exact Hgot|]. split; [reflexivity|].
      rewrite skipn_all2 in Hr by (rewrite runs_length; lia). rewrite rest_nil in Hr. exact Hr.
  - destruct Hg as [Hl [Hm [ns [Hn [Hgot [Hms Hr]]]]]]. destruct (List.length ms <? IncludeInTotals)%nat eqn:Elt.
    + apply Nat.ltb_lt in Elt. destruct (nth_error (sPreds s) (List.length ms)) as [p|] eqn:Ep; [|discriminate H].
      apply some_inj in H; subst s'. split; [exact Hp|]. unfold goes. cbn [sPlace go sPreds sFile sFiles sText].
      split; [exact Hl|]. split; [rewrite app_length; cbn [List.length]; lia|]. exists ns. split; [exact Hn|]. split; [exact Hgot|]. split; [|exact Hr].
      destruct (Hp _ _ Ep) as [row [Er Hok]].
      destruct (nth_error ns (List.length ms)) as [n|] eqn:En.
      2:{ apply nth_error_None in En. assert (X : nth_error (sPreds s) (List.length ms) <> None) by congruence. apply nth_error_Some in X. lia. }
      destruct (Hgot _ _ En) as [[t Ht] [p' [Ep' Hend]]]. rewrite Ep in Ep'. injection Ep' as <-.
      unfold pred_ok in Hok. rewrite Hend in Hok. destruct Hok as [_ Hok]. rewrite (nth_runs _ _ _ Er) in Ht. injection Ht as Ht.
      rewrite (Hok n t Ht). rewrite app_length. cbn [List.length]. rewrite Nat.add_1_r, (firstn_snoc _ _ _ _ En), <- Hms. reflexivity.
    + apply Nat.ltb_ge in Elt. assert (E5 : List.length ms = IncludeInTotals) by lia. rewrite E5 in Hms.
      cbv zeta in H. cbn [sFiles print] in H. assert (Et : totalLine (combine (map fst rws) ms) = totalLine (combine names ns)) by (rewrite Hms; apply totals_firstn).
      rewrite Et in H. destruct (sFiles s) as [|f r] eqn:Efs; apply some_inj in H; subst s'.
      * split; [exact Hp|]. unfold goes. cbn [sPlace go sPreds sFile sFiles sText print]. split; [exact Hr|].
        apply Forall_forall. intros p Hin. apply In_nth_error in Hin. destruct Hin as [j Hj].
        assert (Hlt : (j < List.length ns)%nat) by (rewrite Hn, <- Hl; apply nth_error_Some; congruence).
        apply nth_error_Some in Hlt. destruct (nth_error ns j) as [n|] eqn:En; [|congruence]. destruct (Hgot j n En) as [_ [p' [Ep' Hend]]]. congruence.
      * split; [intros i p Hi; cbn in Hi; destruct i; discriminate Hi|]. unfold goes. cbn [sPlace sPreds sFile sFiles sText print]. exact Hr.
  - destruct (forallb isEnded (sPreds s)) eqn:Ea; [|discriminate H]. apply some_inj in H; subst s'. split; [exact Hp|].
    unfold goes. cbn [sPlace go sPreds sFile sFiles sText]. split; [exact Hg|]. apply all_ended. exact Ea.
  - discriminate H.
Qed.
Lemma other_keeps : forall res s i row p p', inv res s -> nth_error rws i = Some row -> nth_error (sPreds s) i = Some p ->
  tstep i (sFile s) row p = Some p' -> inv res (with_preds s (update (sPreds s) i p')).
Proof.
  intros res s i row p p' [Hp Hg] Hrow Hi H.
  assert (Hne : pPlace p <> Ended) by (intro E; unfold threadStep in H; rewrite E in H; discriminate H).
  assert (Hlt : (i < List.length (sPreds s))%nat) by (apply nth_error_Some; congruence).
  assert (Hgot : forall ns, got s ns -> got (with_preds s (update (sPreds s) i p')) ns).
  { intros ns G j n Hj. destruct (G j n Hj) as [G1 [q [G2 G3]]]. split; [exact G1|]. exists q. split; [|exact G3]. cbn [sPreds with_preds].
    rewrite nth_update_other; [exact G2|]. intros ->. congruence. }
  split.
  - intros j q Hj. cbn [sPreds with_preds sFile] in *. destruct (Nat.eq_dec i j) as [<-|Hne'].
    + rewrite nth_update_same in Hj by exact Hlt. injection Hj as <-. destruct (Hp i p Hi) as [row' [Hr' Hok]]. rewrite Hrow in Hr'. injection Hr' as <-.
      exists row. split; [exact Hrow|]. exact (thread_keeps _ _ _ _ _ Hok H).
    + rewrite nth_update_other in Hj by exact Hne'. exact (Hp j q Hj).
  - unfold goes in *. cbn [sPlace with_preds sPreds sFile sFiles sText]. rewrite update_length. destruct (sPlace s) as [|k|ms|r|r].
    + exact Hg.
    + destruct Hg as [H1 [H2 [ns [H3 [H4 H5]]]]]. split; [exact H1|]. split; [exact H2|]. exists ns. auto.
    + destruct Hg as [H1 [H2 [ns [H3 [H4 [H5 H6]]]]]]. split; [exact H1|]. split; [exact H2|]. exists ns. auto.
    + exact Hg.
    + exfalso. destruct Hg as [_ Hg]. rewrite Forall_forall in Hg. apply Hne, Hg. eapply nth_error_In. exact Hi.
Qed.
Lemma step_keeps : forall res s s', inv res s -> gstep s s' -> inv res s'.
Proof.
  intros res s s' Hi [s1 H|i row p p' H1 H2 H3]; [exact (main_keeps res s s1 Hi H)|exact (other_keeps res s i row p p' Hi H1 H2 H3)].
Qed.
Lemma steps_keep : forall res n s s', inv res s -> gsteps n s s' -> inv res s'.
Proof. intros res n s s' Hi H. induction H as [s|n s s1 s2 H1 H2 IH]; [exact Hi|]. apply IH. exact (step_keeps _ _ _ Hi H1). Qed.
Lemma initial_inv : forall f files, inv (countL (f :: files) []) (initial f files).
Proof. intros f files. split; [intros i p Hi; destruct i; discriminate Hi|]. reflexivity. Qed.

(** *** Progress *)

Lemma progress : forall res s, inv res s -> (forall r, sPlace s <> Finished r) -> exists s', gstep s s'.
Proof.
  intros res s [Hp Hg] Hnf.
  assert (T : forall i p, nth_error (sPreds s) i = Some p -> pPlace p <> Ended -> exists s', gstep s s').
  { intros i p Hi Hne. destruct (Hp i p Hi) as [row [Hr _]]. destruct (thread_runs i (sFile s) row p Hne) as [p' Hp'].
    eexists. exact (step_thread _ _ _ _ _ _ s i row p p' Hr Hi Hp'). }
  assert (M : (exists s', mstep s = Some s') -> exists s', gstep s s') by (intros [s' H]; exists s'; apply step_main; exact H).
  unfold mainStep in M. unfold goes in Hg. destruct (sPlace s) as [|i|ms|r|r] eqn:Epl.
  - apply M. destruct (_ <? _)%nat; eexists; reflexivity.
  - destruct Hg as [Hl [Hi _]]. destruct (i <? List.length rws)%nat eqn:Elt; [|apply M; eexists; reflexivity].
    apply Nat.ltb_lt in Elt. destruct (nth_error (sPreds s) i) as [p|] eqn:Ep; [|apply nth_error_None in Ep; lia].
    destruct (Hp i p Ep) as [row [Er Hok]]. destruct (pPlace p) eqn:Epp; try (apply (T i p Ep); rewrite Epp; discriminate).
    unfold pred_ok in Hok. rewrite Epp in Hok. destruct Hok as [Hf _]. apply M. rewrite Hf. destruct (outcome snd _); eexists; reflexivity.
  - apply M. destruct Hg as [Hl [Hm _]]. destruct (List.length ms <? IncludeInTotals)%nat eqn:Elt.
    + apply Nat.ltb_lt in Elt. destruct (nth_error (sPreds s) (List.length ms)) as [p|] eqn:Ep; [eexists; reflexivity|].
      apply nth_error_None in Ep. rewrite Hl in Ep. cbn in Ep. unfold IncludeInTotals in Elt. lia.
    + cbv zeta. destruct (sFiles (print s _)); eexists; reflexivity.
  - destruct (forallb isEnded (sPreds s)) eqn:Ea; [apply M; eexists; reflexivity|].
    assert (X : exists p, In p (sPreds s) /\ isEnded p = false).
    { clear -Ea. induction (sPreds s) as [|p l IH]; [discriminate Ea|]. cbn in Ea. destruct (isEnded p) eqn:E; [|exists p; split; [left; reflexivity|exact E]].
      destruct (IH Ea) as [q [Hq Eq]]. exists q. split; [right; exact Hq|exact Eq]. }
    destruct X as [p [Hin He]]. apply In_nth_error in Hin. destruct Hin as [i Hi]. apply (T i p Hi). intro E. unfold isEnded in He. rewrite E in He. discriminate He.
  - destruct (Hnf r eq_refl).
Qed.

(** *** Termination *)

Fixpoint costs (top : bytes) (rs : list (bytes * (bytes -> out bool))) (ps : list Pred) : nat :=
  match rs, ps with
  | [], _ => 0
  | r :: rs, p :: ps => cost top r p + costs top rs ps
  | r :: rs, [] => total_cost top r + costs top rs []
  end.
Definition all_costs (f : bytes) : nat := costs f rws [] + 30.
Definition left_steps (s : State) : nat :=
  costs (sFile s) rws (sPreds s) + list_sum (map all_costs (sFiles s))
  + match sPlace s with
    | Starting => 20 + (9 - List.length (sPreds s))
    | Getting i => 10 + (9 - i)
    | Totals ms => 2 + (5 - List.length ms)
    | Leaving _ => 1
    | Finished _ => 0
    end.
Lemma costs_new : forall top rs ps, costs top rs (ps ++ [newPred]) = costs top rs ps.
Proof.
  induction rs as [|r rs IH]; intro ps; [reflexivity|]. destruct ps as [|p ps]; cbn [costs app]; [|rewrite IH; reflexivity].
  reflexivity.
Qed.
Lemma costs_update : forall top rs ps i row p p', nth_error rs i = Some row -> nth_error ps i = Some p -> (cost top row p' < cost top row p)%nat ->
  (costs top rs (update ps i p') < costs top rs ps)%nat.
Proof.
  induction rs as [|r rs IH]; intros ps i row p p' Hr Hi Hc; [destruct i; discriminate Hr|].
  destruct ps as [|q ps]; [destruct i; discriminate Hi|]. destruct i as [|i]; cbn [nth_error update costs] in *.
  - injection Hr as <-. injection Hi as <-. lia.
  - specialize (IH ps i row p p' Hr Hi Hc). lia.
Qed.
Lemma step_less : forall res s s', inv res s -> gstep s s' -> (left_steps s' < left_steps s)%nat.
Proof.
  intros res s s' [Hp Hg] H. destruct H as [s1 H|i row p p' H1 H2 H3].
  - unfold left_steps. unfold mainStep in H. unfold goes in Hg. destruct (sPlace s) as [|i|ms|r|r] eqn:Epl.
    + change (List.length rws) with 9%nat in H. destruct (List.length (sPreds s) <? 9)%nat eqn:El; apply some_inj in H; subst s1.
      * apply Nat.ltb_lt in El. cbn [sPlace with_preds sPreds sFile sFiles sText go]. rewrite Epl, costs_new, app_length. cbn [List.length]. lia.
      * cbn [sPlace with_preds sPreds sFile sFiles sText go]. lia.
    + change (List.length rws) with 9%nat in H. destruct (i <? 9)%nat eqn:El.
      * apply Nat.ltb_lt in El. destruct (nth_error (sPreds s) i) as [p|]; [|discriminate H]. destruct (pFuture p) as [[t|e| |]|]; [| | | |discriminate H];
          apply some_inj in H; subst s1; cbn [sPlace with_preds sPreds sFile sFiles sText go print]; lia.
      * apply some_inj in H; subst s1. cbn [sPlace sPreds sFile sFiles sText go List.length]. lia.
    + unfold IncludeInTotals in H. destruct (List.length ms <? 5)%nat eqn:El.
      * apply Nat.ltb_lt in El. destruct (nth_error (sPreds s) (List.length ms)) as [p|]; [|discriminate H]. apply some_inj in H; subst s1.
        cbn [sPlace with_preds sPreds sFile sFiles sText go]. rewrite app_length. cbn [List.length]. lia.
      * cbv zeta in H. cbn [sFiles print] in H. destruct (sFiles s) as [|f r] eqn:Efs; apply some_inj in H; subst s1.
        { cbn [sPlace with_preds sPreds sFile sFiles sText go print]. rewrite Efs. lia. }
        cbn [sPlace sPreds sFile sFiles sText print map list_sum fold_right List.length]. change (list_sum (all_costs f :: map all_costs r)) with (all_costs f + list_sum (map all_costs r))%nat.
        unfold all_costs at 2. lia.
    + destruct (forallb isEnded (sPreds s)); [|discriminate H]. apply some_inj in H; subst s1. cbn [sPlace sPreds sFile sFiles sText go]. lia.
    + discriminate H.
  - destruct (Hp i p H2) as [row' [Hr' Hok]]. rewrite H1 in Hr'. injection Hr' as <-.
    pose proof (costs_update (sFile s) rws (sPreds s) i row p p' H1 H2 (thread_cost _ _ _ _ _ Hok H3)) as C.
    unfold left_steps. cbn [sPlace with_preds sPreds sFile sFiles sText]. rewrite update_length. lia.
Qed.
Lemma steps_bound : forall res n s s', inv res s -> gsteps n s s' -> (n + left_steps s' <= left_steps s)%nat.
Proof.
  intros res n s s' Hi H. induction H as [s|n s s1 s2 H1 H2 IH]; [lia|]. pose proof (step_less _ _ _ Hi H1). specialize (IH (step_keeps _ _ _ Hi H1)). lia.
Qed.
Lemma reaches_end : forall res s, inv res s -> exists n s' r, gsteps n s s' /\ sPlace s' = Finished r.
Proof.
  intros res s. remember (left_steps s) as k eqn:Ek. revert s Ek. induction k as [k IH] using lt_wf_ind. intros s Ek Hi.
  destruct (sPlace s) as [|i|ms|r|r] eqn:Epl; try (
    destruct (progress res s Hi) as [s1 H1]; [intros r0; rewrite Epl; discriminate|];
    destruct (IH (left_steps s1)) with (s := s1) as [n [s' [r' [G1 G2]]]]; [rewrite Ek; exact (step_less _ _ _ Hi H1)|reflexivity|exact (step_keeps _ _ _ Hi H1)|];
    exists (S n), s', r'; split; [exact (steps_more _ _ _ _ _ _ _ _ _ _ H1 G1)|exact G2]).
  exists 0%nat, s, r. split; [apply steps_none|exact Epl].
Qed.
End Threads.
