(** Proofs about prompts of quizzes. *)
From Verif Require Import BaseFacts.
From Verif Require Export QuizSpec ChoiceProofs.
Open Scope N_scope.
Arguments N.add : simpl never.
Arguments N.sub : simpl never.

Lemma lines_exist : forall i, exists ls, lines_left i ls.
Proof.
  intros [r e]. unfold lines_left. cbn [inEof inRest]. destruct e; [exists []; reflexivity|].
  induction r as [|c r [ls [H1 [H2 H3]]]].
  - exists [[]]. split; [discriminate|]. split; [|reflexivity]. constructor; [intros []|constructor].
  - destruct (N.eq_dec c 10) as [->|Hc].
    + exists ([] :: ls). split; [discriminate|]. split; [constructor; [intros []|exact H2]|].
      destruct ls as [|l ls]; [congruence|]. rewrite H3. reflexivity.
    + destruct ls as [|l ls]; [congruence|]. exists ((c :: l) :: ls). split; [discriminate|]. split.
      * inversion H2; subst. constructor; [|assumption]. intros [K|K]; [congruence|contradiction].
      * rewrite H3. destruct ls; reflexivity.
Qed.
Lemma lines_bound : forall i ls, lines_left i ls -> (length ls <= S (length (inRest i)))%nat.
Proof.
  intros [r e] ls. unfold lines_left. cbn [inEof inRest]. destruct e; [intros ->; cbn; lia|]. intros [H1 [_ ->]]. clear H1.
  induction ls as [|l [|m ls] IH]; [cbn; lia|cbn; lia|]. cbn [join length] in *. rewrite !app_length. cbn [length]. lia.
Qed.

Section Ask.
Variable R : Type.
Notation State := (State R).
Implicit Type s : State.

Lemma first_split : forall (ok : N -> Prop) def ls k c, first_answer ok def ls k c ->
  exists junk la rest, ls = junk ++ la :: rest /\ answers ok def la c /\ rest = skipn (S k) ls /\ (k < length ls)%nat
    /\ Forall (fun l => forall x, ~ answers ok def l x) junk.
Proof.
  intros ok def ls k c [[la [Hla Ha]] Hb]. exists (firstn k ls), la, (skipn (S k) ls).
  destruct (nth_error_split ls k Hla) as [l1 [l2 [E L]]]. subst ls.
  assert (L2 : firstn k (l1 ++ la :: l2) = l1) by (rewrite <- L, firstn_app, Nat.sub_diag, firstn_all; cbn [firstn]; apply app_nil_r).
  assert (L3 : skipn (S k) (l1 ++ la :: l2) = l2).
  { rewrite <- L. rewrite skipn_app. rewrite skipn_all2 by lia. replace (S (length l1) - length l1)%nat with 1%nat by lia. reflexivity. }
  rewrite L2, L3. split; [reflexivity|]. split; [exact Ha|]. split; [reflexivity|]. split; [rewrite app_length; cbn; lia|].
  apply Forall_forall. intros l Hl x. apply In_nth_error in Hl. destruct Hl as [j Hj].
  assert (Hjl : (j < length l1)%nat) by (apply nth_error_Some; congruence).
  apply (Hb j l x); [lia|]. rewrite nth_error_app1 by exact Hjl. exact Hj.
Qed.

(** a proper request: its answer is the first line that is one, and without one it never returns *)
Lemma ask_cases : forall q rq s ls, proper q rq -> lines_left (input R s) ls ->
  (exists junk la c rest i w, ask R q rq s = Ok c (addEvent R (Asked rq c w) (setInput R i s))
     /\ ls = junk ++ la :: rest /\ answers (permitted q rq) (rqDefault rq) la c
     /\ Forall (fun l => forall x, ~ answers (permitted q rq) (rqDefault rq) l x) junk /\ lines_left i rest)
  \/ (ls = [] /\ exists d w, rqDefault rq = Some d /\ ask R q rq s = Ok d (addEvent R (Asked rq d w) (setInput R (input R s) s)))
  \/ (ask R q rq s = NoReturn /\ no_answer (permitted q rq) (rqDefault rq) ls /\ (ls <> [] \/ rqDefault rq = None)).
Proof.
  intros q [rng msg u m def] s ls [Hm [Hne [Hpr [Hrg [Hq Hd]]]]] Hl. unfold permitted in *. cbn [rqChoices rqRange rqUseQuit rqDefault] in *.
  assert (X : exists m', is_map m' /\ (forall c, allowed q u m' c <-> permitted q (MkRequest rng msg u m def) c)
     /\ (forall c d, q = Some (c, d) -> ~ In c (map fst m'))
     /\ forall f, match rng with Some (a, b) => getRange f q a b msg u m def (input R s) | None => get f q msg u m def (input R s) end
                  = get f q msg u m' def (input R s)).
  { destruct rng as [[a b]|].
    - destruct (Hrg a b eq_refl) as [Hab Hdis].
      assert (Pa : printable a) by (apply Hpr; right; left; exists a, b; split; [reflexivity|lia]).
      assert (Pb : printable b) by (apply Hpr; right; left; exists a, b; split; [reflexivity|lia]).
      assert (RK : exists m', addRange (N.to_nat (b - a + 1)) a m = Val m' /\ is_map m'
          /\ (forall e, In e m' <-> In e m \/ (snd e = [] /\ a <= fst e < a + N.of_nat (N.to_nat (b - a + 1))))).
      { apply range_keys; [exact Hm|]. intros k Hk. apply Hdis. lia. }
      destruct RK as [m' [E [M' In']]]. exists m'. split; [exact M'|].
      assert (KK : forall c, In c (map fst m') <-> In c (map fst m) \/ a <= c <= b).
      { intro c. rewrite !in_map_iff. split.
        - intros [e [<- He]]. apply In' in He. destruct He as [He|[_ He]]; [left; exists e; auto|right; lia].
        - intros [[e [<- He]]|He]; [exists e; split; [reflexivity|apply In'; auto]|]. exists (c, []). split; [reflexivity|]. apply In'. right. cbn [fst snd]. split; [reflexivity|lia]. }
      split; [|split].
      + intro c. unfold allowed, offered, permitted. cbn [rqChoices rqRange rqUseQuit]. split.
        * intros [d [H|[H1 H2]]].
          -- apply (in_map fst) in H. cbn [fst] in H. apply KK in H. destruct H as [H|H]; [left; exact H|right; left; exists a, b; auto].
          -- right. right. split; [exact H1|]. exists d. exact H2.
        * intros [H|[[x [y [[= <- <-] H]]]|[H1 [d H2]]]].
          -- assert (H' : In c (map fst m')) by (apply KK; auto). apply in_map_iff in H'. destruct H' as [[x d] [<- He]]. exists d. left. exact He.
          -- assert (H' : In c (map fst m')) by (apply KK; auto). apply in_map_iff in H'. destruct H' as [[x d] [<- He]]. exists d. left. exact He.
          -- exists d. right. auto.
      + intros c d E2 H. destruct (Hq c d E2) as [Q1 Q2]. apply KK in H. destruct H as [H|H]; [apply Q1; exact H|]. exact (Q2 a b eq_refl H).
      + intro f. unfold getRange. rewrite (check_ok a Pa), (check_ok b Pb). cbn [obind]. replace (b <? a) with false by lia. rewrite E. reflexivity.
    - exists m. split; [exact Hm|]. split; [|split; [intros c d E; apply (Hq c d E)|reflexivity]].
      intro c. unfold allowed, offered, permitted. cbn [rqChoices rqRange rqUseQuit]. split.
      + intros [d [H|[H1 H2]]]; [left; apply (in_map fst) in H; exact H|right; right; split; [exact H1|exists d; exact H2]].
      + intros [H|[[x [y [H _]]]|[H1 [d H2]]]]; [|discriminate|exists d; right; auto].
        apply in_map_iff in H. destruct H as [[x d] [<- He]]. exists d. left. exact He. }
  destruct X as [m' [M' [Al [Qn G]]]].
  assert (V : valid_request q u m' def).
  { split; [exact Qn|]. split; [destruct Hne as [c Hc]; exists c; apply Al; exact Hc|]. split; [intros c Hc; apply Hpr, Al, Hc|].
    intros c Hc. apply Al. apply Hd. exact Hc. }
  destruct (get_spec q msg u m' def (input R s) ls M' Hl V) as [gs [_ [_ [_ [F1 [F2 F3]]]]]].
  pose proof (lines_bound _ _ Hl) as LB.
  assert (AE : forall l c, answers (allowed q u m') def l c <-> answers (permitted q (MkRequest rng msg u m def)) def l c)
    by (intros l c; apply answers_ext; exact Al).
  unfold ask. cbn [rqRange rqMsg rqUseQuit rqChoices rqDefault]. rewrite G.
  destruct (answer_or_none (allowed q u m') def ls (allowed_dec q u m')) as [[k [c H]]|H].
  - left. destruct (first_split _ _ _ _ _ H) as [junk [la [rest [E [Ha [Er [Hk Hj]]]]]]]. destruct (F1 k c H) as [i' [Hi' E2]].
    rewrite E2 by lia. exists junk, la, c, rest, i', (concat (repeat (prompt_text msg gs def) (S k))). split; [reflexivity|]. split; [exact E|].
    split; [apply AE; exact Ha|]. split; [|rewrite Er; exact Hi']. eapply Forall_impl; [|exact Hj]. cbn beta. intros l Hl2 x Hx. apply (Hl2 x). apply AE. exact Hx.
  - destruct ls as [|l ls].
    + right. destruct def as [d|].
      * left. split; [reflexivity|]. exists d. rewrite (F3 eq_refl d eq_refl) by lia. eexists. split; reflexivity.
      * right. rewrite (F2 H) by (right; reflexivity). split; [reflexivity|]. split; [intros x c Hx K; exact (H x c Hx (proj2 (AE x c) K))|right; reflexivity].
    + right. right. rewrite (F2 H) by (left; discriminate). split; [reflexivity|].
      split; [intros x c Hx K; exact (H x c Hx (proj2 (AE x c) K))|left; discriminate].
Qed.
End Ask.
