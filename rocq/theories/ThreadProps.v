(** Property C121: the threads of kanjiStats. *)
From Verif Require Import BaseFacts ArgsProofs ThreadModel ThreadProofs StatsReportModel StatsReportProofs StatsReportProps.
Open Scope N_scope.

Section Threads.
Variables (ucd : bytes -> bool) (findByName : bytes -> option Entry) (order : list SCount -> list SCount) (fs : bytes -> option node).
Variables (b v : bool) (f : bytes) (files : list bytes).
(** the states the program can come to when the files [f :: files] are given, whatever thread runs when *)
Definition reachable (s : State) : Prop := exists n, steps ucd findByName order fs b v n (initial f files) s.
Lemma reachable_inv : forall s, reachable s -> inv ucd findByName order fs b v (countAll ucd findByName order fs b v (f :: files) []) s.
Proof. intros s [n H]. exact (steps_keep _ _ _ _ _ _ _ _ _ _ (initial_inv _ _ _ _ _ _ f files) H). Qed.
End Threads.

(** C121: whatever the order in which the threads run, at the end the same text has been printed and the program ends in the same way:
    as if the rows had been counted one after the other. *)
Theorem C121_same_output : forall ucd findByName order fs b v f files s r,
  reachable ucd findByName order fs b v f files s -> sPlace s = Finished r ->
  (sText s, r) = countAll ucd findByName order fs b v (f :: files) [].
Proof.
  intros ucd findByName order fs b v f files s r H E. destruct (reachable_inv _ _ _ _ _ _ _ _ s H) as [_ G]. unfold goes in G. rewrite E in G. tauto.
Qed.
Print Assumptions C121_same_output.
(** C121: that is what the whole program does when its arguments ask for these files. *)
Theorem C121_program : forall ucd findByName order fs fuel a debug b v f files s r,
  readArgs fuel a = Val (Count b v (f :: files)) ->
  reachable ucd findByName order fs b v f files s -> sPlace s = Finished r ->
  (sText s, r) = stats ucd findByName order fs fuel a debug.
Proof.
  intros ucd findByName order fs fuel a debug b v f files s r Ha H E. rewrite (C121_same_output _ _ _ _ _ _ _ _ s r H E).
  unfold stats. rewrite Ha. reflexivity.
Qed.
Print Assumptions C121_program.
(** C121: it cannot get stuck, and it cannot go on for ever: the number of steps is bounded, and the end can always be reached. *)
Theorem C121_no_deadlock : forall ucd findByName order fs b v f files s, reachable ucd findByName order fs b v f files s ->
  (exists r, sPlace s = Finished r) \/ exists s', step ucd findByName order fs b v s s'.
Proof.
  intros ucd findByName order fs b v f files s H. pose proof (reachable_inv _ _ _ _ _ _ _ _ s H) as I.
  destruct (sPlace s) as [|i|ms|r|r] eqn:E; try (right; apply (progress _ _ _ _ _ _ _ s I); intro r0; rewrite E; discriminate). left. exists r. reflexivity.
Qed.
Print Assumptions C121_no_deadlock.
Theorem C121_ends : forall ucd findByName order fs b v f files,
  (exists most, forall n s, steps ucd findByName order fs b v n (initial f files) s -> (n <= most)%nat)
  /\ forall s, reachable ucd findByName order fs b v f files s ->
       exists n s' r, steps ucd findByName order fs b v n s s' /\ sPlace s' = Finished r.
Proof.
  intros ucd findByName order fs b v f files. split.
  - exists (left_steps ucd fs v (initial f files)). intros n s H.
    pose proof (steps_bound ucd findByName order fs b v _ n _ s (initial_inv ucd findByName order fs b v f files) H) as B. lia.
  - intros s H. exact (reaches_end _ _ _ _ _ _ _ s (reachable_inv _ _ _ _ _ _ _ _ s H)).
Qed.
Print Assumptions C121_ends.
(** C121: when the totals are read no thread can change them any more, and when a call of countKanji ends (normally or by an
    exception, and also before the next file) all its threads have ended, so that none is left that refers to its path. *)
Theorem C121_joined : forall ucd findByName order fs b v f files s, reachable ucd findByName order fs b v f files s ->
  (forall ns, sPlace s = Totals ns -> List.length (sPreds s) = List.length (rows ucd) /\ Forall (fun p => pPlace p = Ended) (sPreds s))
  /\ (forall r, sPlace s = Finished r -> Forall (fun p => pPlace p = Ended) (sPreds s))
  /\ (forall s', mainStep ucd s = Some s' -> sPreds s' = [] -> Forall (fun p => pPlace p = Ended) (sPreds s)).
Proof.
  intros ucd findByName order fs b v f files s H. destruct (reachable_inv _ _ _ _ _ _ _ _ s H) as [Hp G].
  assert (T : forall ns, sPlace s = Totals ns -> List.length (sPreds s) = List.length (rows ucd) /\ Forall (fun p => pPlace p = Ended) (sPreds s)).
  { intros ns E. unfold goes in G. rewrite E in G. destruct G as [Hl [_ [ms [Hn [Hgot _]]]]]. split; [exact Hl|].
    apply Forall_forall. intros p Hin. apply In_nth_error in Hin. destruct Hin as [j Hj].
    assert (Hlt : (j < List.length ms)%nat) by (rewrite Hn, <- Hl; apply nth_error_Some; congruence).
    apply nth_error_Some in Hlt. destruct (nth_error ms j) as [n|] eqn:En; [|congruence]. destruct (Hgot j n En) as [_ [p' [Ep' Hend]]]. congruence. }
  split; [exact T|]. split; [intros r E; unfold goes in G; rewrite E in G; tauto|].
  intros s' Hm He. unfold mainStep in Hm. destruct (sPlace s) as [|i|ns|r|r] eqn:E.
  - destruct (_ <? _)%nat; apply some_inj in Hm; subst s'; cbn in He; [destruct (sPreds s); discriminate He|]. rewrite He. constructor.
  - destruct (_ <? _)%nat; [|apply some_inj in Hm; subst s'; cbn in He; rewrite He; constructor].
    destruct (nth_error (sPreds s) i) as [p|]; [|discriminate Hm].
    destruct (pFuture p) as [[t|e| |]|]; try discriminate Hm; apply some_inj in Hm; subst s'; cbn in He; rewrite He; constructor.
  - exact (proj2 (T ns eq_refl)).
  - destruct (forallb isEnded (sPreds s)) eqn:Ea; [|discriminate Hm]. apply all_ended. exact Ea.
  - discriminate Hm.
Qed.
Print Assumptions C121_joined.

(** a schedule: the main thread ([None]) or thread [i]; a thread that has to wait or has ended is passed over *)
Fixpoint follow (l : list (option nat)) (s : State) : State :=
  match l with
  | [] => s
  | None :: r => follow r (match mainStep some_ucd s with Some s' => s' | None => s end)
  | Some i :: r => follow r (match nth_error (rows some_ucd) i, nth_error (sPreds s) i with
                             | Some row, Some p => match threadStep some_entry (some_order 2502) some_fs false false i (sFile s) row p with
                                                   | Some p' => with_preds s (update (sPreds s) i p')
                                                   | None => s
                                                   end
                             | _, _ => s
                             end)
  end.
Lemma follow_steps : forall l s, exists n, steps some_ucd some_entry (some_order 2502) some_fs false false n s (follow l s).
Proof.
  induction l as [|x l IH]; intro s; [exists 0%nat; apply steps_none|]. destruct x as [i|]; cbn [follow].
  - destruct (nth_error (rows some_ucd) i) as [row|] eqn:E1; [|apply IH]. destruct (nth_error (sPreds s) i) as [p|] eqn:E2; [|apply IH].
    destruct (threadStep _ _ _ _ _ i (sFile s) row p) as [p'|] eqn:E3; [|apply IH]. destruct (IH (with_preds s (update (sPreds s) i p'))) as [n Hn].
    exists (S n). exact (steps_more _ _ _ _ _ _ _ _ _ _ (step_thread _ _ _ _ _ _ s i row p p' E1 E2 E3) Hn).
  - destruct (mainStep some_ucd s) as [s'|] eqn:E; [|apply IH]. destruct (IH s') as [n Hn]. exists (S n).
    exact (steps_more _ _ _ _ _ _ _ _ _ _ (step_main _ _ _ _ _ _ s s' E) Hn).
Qed.
(** the last thread first, and turn by turn while the threads are being started *)
Definition backwards : list (option nat) := repeat None 10 ++ flat_map (fun i => repeat (Some i) 20) [8; 7; 6; 5; 4; 3; 2; 1; 0]%nat ++ repeat None 20.
Definition in_turn : list (option nat) := concat (repeat [None; Some 0; Some 1; Some 2; Some 3; Some 4; Some 5; Some 6; Some 7; Some 8]%nat 40).
Example C121_example :
  let s0 := initial (b_ "one") [] in
  reachable some_ucd some_entry (some_order 2502) some_fs false false (b_ "one") [] (follow backwards s0)
  /\ reachable some_ucd some_entry (some_order 2502) some_fs false false (b_ "one") [] (follow in_turn s0)
  /\ map isEnded (sPreds (follow (firstn 30 backwards) s0)) = [false; false; false; false; false; false; false; false; true]
  /\ sPlace (follow backwards s0) = Finished (Val tt) /\ sPlace (follow in_turn s0) = Finished (Val tt)
  /\ sText (follow backwards s0) = fst (some_stats [b_ "one"]) /\ sText (follow in_turn s0) = fst (some_stats [b_ "one"])
  /\ sText (follow in_turn s0) = lines
       [b_ ">>> Stats for: 'one' - showing top 5 Kanji per type";
        b_ ">>>         Hiragana:      1, unique:    1";
        b_ ">>> Total Kana+Kanji: 1 (Hiragana: 100.0%, Kanji: 0.0%)"].
Proof.
  cbv zeta. split; [apply follow_steps|]. split; [apply follow_steps|]. split; [vm_compute; reflexivity|].
  split; [vm_compute; reflexivity|]. split; [vm_compute; reflexivity|]. split; [vm_compute; reflexivity|]. split; [vm_compute; reflexivity|].
  vm_compute; reflexivity.
Qed.
