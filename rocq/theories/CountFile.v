(** Lemmas about reading files line by line and regrouping lines at brackets. *)
From Verif Require Import BaseFacts CountModel BlockProofs.
Open Scope N_scope.

(** ** find and rfind *)
Lemma startsWith_app : forall p s, startsWith (p ++ s) p = true.
Proof. induction p as [|x p IH]; intro s; [destruct s; reflexivity|]. cbn [app startsWith]. rewrite N.eqb_refl. apply IH. Qed.
Lemma startsWith_split : forall p s, startsWith s p = true -> exists r, s = p ++ r.
Proof.
  induction p as [|x p IH]; intros s H; [exists s; reflexivity|]. destruct s as [|y s]; [discriminate|].
  cbn [startsWith] in H. apply andb_true_iff in H. destruct H as [H1 H2]. apply N.eqb_eq in H1. subst y.
  destruct (IH s H2) as [r ->]. exists r. reflexivity.
Qed.
Lemma sfind_unfold : forall p s, sfind p s = if startsWith s p then Some O
  else match s with [] => None | _ :: r => option_map S (sfind p r) end.
Proof. intros p s. destruct s; reflexivity. Qed.
Lemma sfind_split : forall p s i, sfind p s = Some i ->
  exists a b, s = a ++ p ++ b /\ List.length a = i.
Proof.
  intros p s. induction s as [|x s IH]; intros i H; rewrite sfind_unfold in H.
  - destruct (startsWith [] p) eqn:E; [|discriminate]. inversion H; subst i.
    destruct (startsWith_split _ _ E) as [r Hr]. exists [], r. auto.
  - destruct (startsWith (x :: s) p) eqn:E.
    + inversion H; subst i. destruct (startsWith_split _ _ E) as [r Hr]. exists [], r. auto.
    + destruct (sfind p s) as [j|] eqn:F; [|discriminate]. cbn in H. inversion H; subst i.
      destruct (IH j eq_refl) as [a [b [-> Hl]]]. exists (x :: a), b. split; [reflexivity|]. cbn. lia.
Qed.
(** nothing before the position found *)
Lemma sfind_first : forall p a b, exists i, sfind p (a ++ p ++ b) = Some i /\ (i <= List.length a)%nat.
Proof.
  intros p a. induction a as [|x a IH]; intro b; rewrite sfind_unfold.
  - cbn [app]. rewrite startsWith_app. exists O. auto.
  - destruct (startsWith ((x :: a) ++ p ++ b) p); [exists O; split; [reflexivity|cbn; lia]|].
    destruct (IH b) as [i [E Hi]]. cbn [app]. rewrite E. exists (S i). split; [reflexivity|cbn; lia].
Qed.
Lemma srfind_split : forall p s i, srfind p s = Some i ->
  exists a b, s = a ++ p ++ b /\ List.length a = i.
Proof.
  intros p s. induction s as [|x s IH]; intros i H; cbn [srfind] in H.
  - destruct (startsWith [] p) eqn:E; [|discriminate]. inversion H; subst i.
    destruct (startsWith_split _ _ E) as [r Hr]. exists [], r. auto.
  - destruct (srfind p s) as [j|] eqn:F.
    + inversion H; subst i. destruct (IH j eq_refl) as [a [b [-> Hl]]]. exists (x :: a), b. split; [reflexivity|]. cbn. lia.
    + destruct (startsWith (x :: s) p) eqn:E; [|discriminate]. inversion H; subst i.
      destruct (startsWith_split _ _ E) as [r Hr]. exists [], r. auto.
Qed.
Lemma srfind_last : forall p a b, exists i, srfind p (a ++ p ++ b) = Some i /\ (List.length a <= i)%nat.
Proof.
  intros p a. induction a as [|x a IH]; intro b.
  - cbn [app List.length]. destruct (p ++ b) as [|y s] eqn:E.
    + destruct p; [|discriminate]. cbn. exists O. auto.
    + cbn [srfind]. destruct (srfind p s) as [j|]; [exists (S j); split; [reflexivity|lia]|].
      rewrite <- E, startsWith_app. exists O. auto.
  - cbn [app srfind]. destruct (IH b) as [i [E Hi]]. rewrite E. exists (S i). split; [reflexivity|cbn; lia].
Qed.

(** ** Lines *)
Lemma getlines_from_concat : forall s cur p, (cur <> [] -> p = true) ->
  concat (getlines_from 10 s cur p) = cur ++ filter (fun b => negb (b =? 10)) s.
Proof.
  induction s as [|b s IH]; intros cur p H; cbn [getlines_from filter].
  - destruct p.
    + cbn. rewrite app_nil_r. reflexivity.
    + destruct cur; [reflexivity|]. discriminate (H ltac:(discriminate)).
  - destruct (b =? 10) eqn:E; cbn [negb].
    + cbn [concat]. rewrite IH by congruence. reflexivity.
    + rewrite IH by reflexivity. rewrite <- app_assoc. reflexivity.
Qed.
Lemma getlines_concat : forall s, concat (getlines 10 s) = filter (fun b => negb (b =? 10)) s.
Proof. intro s. unfold getlines. rewrite getlines_from_concat by congruence. reflexivity. Qed.
Lemma getlines_from_ok : forall s cur p, bytes_ok s -> bytes_ok cur -> Forall bytes_ok (getlines_from 10 s cur p).
Proof.
  induction s as [|b s IH]; intros cur p Hs Hc; cbn [getlines_from].
  - destruct p; repeat constructor. exact Hc.
  - inversion Hs; subst. destruct (b =? 10).
    + constructor; [exact Hc|]. apply IH; [assumption|constructor].
    + apply IH; [assumption|]. apply bytes_ok_app. split; [assumption|]. repeat constructor. assumption.
Qed.
Lemma getlines_ok : forall s, bytes_ok s -> Forall bytes_ok (getlines 10 s).
Proof. intros s H. apply getlines_from_ok; [exact H|constructor]. Qed.

(** ** The regrouping as a pure function *)
Definition cut (pos : nat) : nat := (pos + List.length CloseWideBracket)%nat.
Fixpoint segments (lines : list bytes) (prev : bytes) (un : bool) : list bytes * bytes :=
  match lines with
  | [] => ([], prev)
  | line :: r =>
      match prev with
      | [] => segments r line (hasUnclosedBrackets line)
      | _ =>
          match joinAt un line with
          | Some pos =>
              let rest := skipn (cut pos) line in
              let '(l, e) := segments r rest (hasUnclosedBrackets rest) in
              ((prev ++ firstn (cut pos) line) :: l, e)
          | None =>
              let '(l, e) := segments r line (hasUnclosedBrackets line) in (prev :: l, e)
          end
      end
  end.
Definition pieces (contents : bytes) : list bytes :=
  let '(l, e) := segments (getlines 10 contents) [] false in
  l ++ match e with [] => [] | _ => [e] end.

Lemma joinAt_found : forall un line pos, joinAt un line = Some pos -> sfind CloseWideBracket line = Some pos.
Proof.
  intros un line pos H. unfold joinAt in H. destruct un.
  - destruct (pos_lt _ _); [exact H|discriminate].
  - destruct (sfind OpenWideBracket line) as [[|]|]; try discriminate. exact H.
Qed.
Lemma joinAt_bound : forall un line pos, joinAt un line = Some pos -> (cut pos <= List.length line)%nat.
Proof.
  intros un line pos H. apply joinAt_found in H. apply sfind_split in H.
  destruct H as [a [b [-> <-]]]. rewrite !app_length. unfold cut. lia.
Qed.

Lemma plainLoop_app : forall St (add : bytes -> St -> out (N * St)) l1 l2 a st,
  plainLoop add (l1 ++ l2) a st = ('(a', st') <- plainLoop add l1 a st ;; plainLoop add l2 a' st').
Proof.
  intros St add l1. induction l1 as [|x l1 IH]; intros l2 a st; [reflexivity|].
  cbn [app plainLoop]. destruct (add x st) as [[n st']| | |]; try reflexivity. cbn [obind]. apply IH.
Qed.

Lemma regexLoop_segments : forall St (add : bytes -> St -> out (N * St)) lines prev un a st,
  regexLoop add lines prev un a st =
  ('(a', st') <- plainLoop add (fst (segments lines prev un)) a st ;; Val (a', snd (segments lines prev un), st')).
Proof.
  intros St add lines. induction lines as [|line r IH]; intros prev un a st; [reflexivity|].
  cbn [regexLoop segments]. destruct prev as [|x prev].
  - rewrite N.add_0_r. apply IH.
  - destruct (joinAt un line) as [pos|] eqn:J.
    + unfold processJoinedLine. fold (cut pos).
      pose proof (joinAt_bound _ _ _ J) as Hb. replace (List.length line <? cut pos)%nat with false by (symmetry; apply Nat.ltb_ge; exact Hb).
      destruct (segments r (skipn (cut pos) line) (hasUnclosedBrackets (skipn (cut pos) line))) as [l e] eqn:E.
      cbn [fst snd plainLoop]. destruct (add ((x :: prev) ++ firstn (cut pos) line) st) as [[n st']| | |]; try reflexivity.
      cbn [obind]. rewrite IH, E. reflexivity.
    + destruct (segments r line (hasUnclosedBrackets line)) as [l e] eqn:E.
      cbn [fst snd plainLoop]. destruct (add (x :: prev) st) as [[n st']| | |]; try reflexivity.
      cbn [obind]. rewrite IH, E. reflexivity.
Qed.

Lemma processFile_pieces : forall St (add : bytes -> St -> out (N * St)) c st,
  processFileWithRegex add c st = plainLoop add (pieces c) 0 st.
Proof.
  intros St add c st. unfold processFileWithRegex, pieces. rewrite regexLoop_segments.
  destruct (segments (getlines 10 c) [] false) as [l e]. cbn [fst snd]. rewrite plainLoop_app.
  destruct (plainLoop add l 0 st) as [[a st']| | |]; try reflexivity. cbn [obind].
  destruct e as [|x e]; [reflexivity|]. cbn [plainLoop].
  destruct (add (x :: e) st') as [[n st'']| | |]; reflexivity.
Qed.

Lemma plainLoop_log : forall l a log, plainLoop logAdd l a log = Val (a + len l, log ++ l).
Proof.
  induction l as [|x l IH]; intros a log; cbn [plainLoop].
  - rewrite len_nil, N.add_0_r, app_nil_r. reflexivity.
  - unfold logAdd at 1. cbn [obind]. rewrite IH, len_cons, <- app_assoc. f_equal. f_equal. lia.
Qed.
Lemma searched_pieces : forall c, searched c = Val (pieces c).
Proof. intro c. unfold searched. rewrite processFile_pieces, plainLoop_log. reflexivity. Qed.

Lemma segments_concat : forall lines prev un,
  concat (fst (segments lines prev un)) ++ snd (segments lines prev un) = prev ++ concat lines.
Proof.
  induction lines as [|line r IH]; intros prev un; cbn [segments].
  - cbn. rewrite app_nil_r. reflexivity.
  - destruct prev as [|x prev].
    + rewrite IH. reflexivity.
    + destruct (joinAt un line) as [pos|] eqn:J.
      * specialize (IH (skipn (cut pos) line) (hasUnclosedBrackets (skipn (cut pos) line))).
        destruct (segments r (skipn (cut pos) line) _) as [l e]. cbn [fst snd concat] in *.
        rewrite <- (app_assoc _ (concat l)), IH, <- (app_assoc (x :: prev)), app_assoc with (l := firstn _ _), firstn_skipn.
        reflexivity.
      * specialize (IH line (hasUnclosedBrackets line)).
        destruct (segments r line _) as [l e]. cbn [fst snd concat] in *.
        rewrite <- (app_assoc _ (concat l)), IH. reflexivity.
Qed.
Lemma pieces_concat : forall c, concat (pieces c) = filter (fun b => negb (b =? 10)) c.
Proof.
  intro c. unfold pieces. pose proof (segments_concat (getlines 10 c) [] false) as H.
  destruct (segments (getlines 10 c) [] false) as [l e]. cbn [fst snd] in H. rewrite concat_app.
  rewrite getlines_concat in H. cbn [app] in H. rewrite <- H. f_equal.
  destruct e; [reflexivity|]. cbn. rewrite app_nil_r. reflexivity.
Qed.
Lemma concat_ok : forall l, bytes_ok (concat l) -> Forall bytes_ok l.
Proof.
  induction l as [|x l IH]; intro H; constructor; cbn in H; apply bytes_ok_app in H; [apply H|apply IH, H].
Qed.
Lemma pieces_ok : forall c, bytes_ok c -> Forall bytes_ok (pieces c).
Proof.
  intros c H. apply concat_ok. rewrite pieces_concat. unfold bytes_ok in *. rewrite Forall_forall in *.
  intros b Hb. apply filter_In in Hb. apply H, Hb.
Qed.

(** every piece is the end of one line and the start of the next *)
Definition suffix_of (s l : bytes) : Prop := exists p, l = p ++ s.
Definition prefix_of (s l : bytes) : Prop := exists p, l = s ++ p.
(** [a] and [b] are neighbours in the list *)
Definition neighbours (a b : bytes) (l : list bytes) : Prop := exists x y, l = x ++ a :: b :: y.
Lemma neighbours_tail : forall a b x l, neighbours a b l -> neighbours a b (x :: l).
Proof. intros a b x l [u [v ->]]. exists (x :: u), v. reflexivity. Qed.

(** Where a bracket pair spans two lines, both halves are searched together.  [last] is the
    line of which [prev] is the rest. *)
Definition close_first (line : bytes) : Prop :=
  pos_lt (sfind CloseWideBracket line) (sfind OpenWideBracket line) = true.

Lemma close_length : List.length CloseWideBracket = 3%nat. Proof. reflexivity. Qed.
Lemma open_length : List.length OpenWideBracket = 3%nat. Proof. reflexivity. Qed.

Lemma srfind_none : forall p a b, srfind p (a ++ p ++ b) <> None.
Proof. intros p a b H. destruct (srfind_last p a b) as [i [E _]]. congruence. Qed.

(** rfind in what is left after cutting *)
Lemma srfind_skip : forall p n s i, srfind p s = Some i -> (n <= i)%nat -> srfind p (skipn n s) = Some (i - n)%nat.
Proof.
  intros p n. induction n as [|n IH]; intros s i H Hn; [rewrite Nat.sub_0_r; exact H|].
  destruct s as [|x s].
  - cbn [srfind] in H. destruct (startsWith [] p); [|discriminate]. inversion H; subst. lia.
  - cbn [srfind] in H. cbn [skipn]. destruct (srfind p s) as [j|] eqn:F.
    + inversion H; subst i. rewrite (IH s j F) by lia. reflexivity.
    + destruct (startsWith (x :: s) p); [|discriminate]. inversion H; subst. lia.
Qed.
Lemma srfind_skip_inv : forall p n s j, srfind p (skipn n s) = Some j -> (n <= List.length s)%nat ->
  srfind p s = Some (n + j)%nat.
Proof.
  intros p n. induction n as [|n IH]; intros s j H Hn; [exact H|].
  destruct s as [|x s]; [cbn in Hn; lia|]. cbn [skipn] in H. cbn [srfind].
  rewrite (IH s j H) by (cbn in Hn; lia). reflexivity.
Qed.

(** the two brackets cannot overlap *)
Lemma brackets_apart : forall a b c d, a ++ CloseWideBracket ++ b = c ++ OpenWideBracket ++ d ->
  (List.length a < List.length c)%nat -> (List.length a + 3 <= List.length c)%nat.
Proof.
  intros a b c d E Hl.
  assert (H : forall k, nth_error (a ++ CloseWideBracket ++ b) k = nth_error (c ++ OpenWideBracket ++ d) k) by (intro; rewrite E; reflexivity).
  destruct (Nat.eq_dec (List.length c) (List.length a + 1)) as [C|C].
  { specialize (H (List.length c)). rewrite nth_error_app2 in H by lia. rewrite (nth_error_app2 c) in H by lia.
    rewrite C, Nat.sub_diag in H. replace (List.length a + 1 - List.length a)%nat with 1%nat in H by lia.
    unfold CloseWideBracket, OpenWideBracket in H. cbn in H. discriminate. }
  destruct (Nat.eq_dec (List.length c) (List.length a + 2)) as [C2|C2].
  { specialize (H (List.length c)). rewrite nth_error_app2 in H by lia. rewrite (nth_error_app2 c) in H by lia.
    rewrite C2, Nat.sub_diag in H. replace (List.length a + 2 - List.length a)%nat with 2%nat in H by lia.
    unfold CloseWideBracket, OpenWideBracket in H. cbn in H. discriminate. }
  lia.
Qed.

Lemma unclosed_spec : forall s, hasUnclosedBrackets s = true <->
  exists i, srfind OpenWideBracket s = Some i /\ forall j, srfind CloseWideBracket s = Some j -> (j < i)%nat.
Proof.
  intro s. unfold hasUnclosedBrackets. split.
  - destruct (srfind OpenWideBracket s) as [i|]; [|discriminate]. intro H. exists i. split; [reflexivity|].
    intros j Hj. rewrite Hj in H. apply Nat.ltb_lt. exact H.
  - intros [i [-> H]]. destruct (srfind CloseWideBracket s) as [j|]; [|reflexivity].
    apply Nat.ltb_lt. apply H. reflexivity.
Qed.

(** cutting after a close bracket keeps the last, unclosed, open bracket *)
Lemma unclosed_cut : forall s pos, sfind CloseWideBracket s = Some pos -> hasUnclosedBrackets s = true ->
  hasUnclosedBrackets (skipn (cut pos) s) = true /\ skipn (cut pos) s <> [].
Proof.
  intros s pos F H. apply unclosed_spec in H. destruct H as [i [Hi Hc]].
  destruct (sfind_split _ _ _ F) as [a [b [Es Hl]]].
  destruct (srfind_split _ _ _ Hi) as [c [d [Es' Hl']]].
  assert (Hai : (List.length a < i)%nat).
  { destruct (srfind_last CloseWideBracket a b) as [j [Ej Hj]]. rewrite <- Es in Ej. specialize (Hc j Ej). lia. }
  assert (Hge : (cut pos <= i)%nat).
  { unfold cut. rewrite close_length, <- Hl, <- Hl'. apply (brackets_apart a b c d); [congruence|lia]. }
  assert (Hlen : (cut pos <= List.length s)%nat).
  { rewrite Es, !app_length, close_length. unfold cut. rewrite close_length. lia. }
  pose proof (srfind_skip _ _ _ _ Hi Hge) as Hs.
  split.
  - apply unclosed_spec. eexists. split; [exact Hs|]. intros j Hj.
    apply srfind_skip_inv in Hj; [|exact Hlen]. specialize (Hc _ Hj). lia.
  - intro E. rewrite E in Hs. discriminate.
Qed.

Lemma unclosed_nonnil : forall s, hasUnclosedBrackets s = true -> s <> [].
Proof. intros s H ->. discriminate. Qed.

(** main lemma for the joining: from a state of the loop in which [prev] is an unclosed rest of
    line [l1], the next line [l2] (closing first) is joined to it *)
Lemma segments_join : forall r prev l2, prev <> [] -> hasUnclosedBrackets prev = true -> close_first l2 ->
  exists pos, sfind CloseWideBracket l2 = Some pos
    /\ In (prev ++ firstn (cut pos) l2) (fst (segments (l2 :: r) prev true)).
Proof.
  intros r prev l2 Hne Hu Hc. destruct prev as [|x prev]; [congruence|]. cbn [segments].
  unfold joinAt. unfold close_first in Hc. rewrite Hc.
  destruct (sfind CloseWideBracket l2) as [pos|] eqn:F; [|discriminate]. exists pos. split; [reflexivity|].
  destruct (segments r _ _) as [l e]. left. reflexivity.
Qed.

Lemma segments_cons : forall line r prev un, segments (line :: r) prev un =
  match prev with
  | [] => segments r line (hasUnclosedBrackets line)
  | _ =>
      match joinAt un line with
      | Some pos =>
          let rest := skipn (cut pos) line in
          let '(l, e) := segments r rest (hasUnclosedBrackets rest) in
          ((prev ++ firstn (cut pos) line) :: l, e)
      | None =>
          let '(l, e) := segments r line (hasUnclosedBrackets line) in (prev :: l, e)
      end
  end.
Proof. reflexivity. Qed.

Lemma segments_neighbours : forall ls prev un l1 l2, neighbours l1 l2 ls ->
  hasUnclosedBrackets l1 = true -> close_first l2 ->
  exists rest pos, suffix_of rest l1 /\ hasUnclosedBrackets rest = true /\ sfind CloseWideBracket l2 = Some pos
    /\ In (rest ++ firstn (cut pos) l2) (fst (segments ls prev un)).
Proof.
  induction ls as [|line ls IH]; intros prev un l1 l2 [u [v E]] Hu Hc; [destruct u; discriminate|].
  destruct u as [|y u]; cbn [app] in E; inversion E; subst; clear E.
  - (* the first line is l1 *)
    rewrite segments_cons; cbv zeta. destruct prev as [|x prev].
    + rewrite Hu. destruct (segments_join v l1 l2 (unclosed_nonnil _ Hu) Hu Hc) as [pos [F Hin]].
      exists l1, pos. split; [exists []; reflexivity|]. split; [exact Hu|]. split; [exact F|exact Hin].
    + destruct (joinAt un l1) as [q|] eqn:J.
      * pose proof (joinAt_found _ _ _ J) as F1. destruct (unclosed_cut _ _ F1 Hu) as [U N].
        destruct (segments_join v _ l2 N U Hc) as [pos [F Hin]].
        exists (skipn (cut q) l1), pos. split; [exists (firstn (cut q) l1); rewrite firstn_skipn; reflexivity|].
        split; [exact U|]. split; [exact F|]. rewrite U. destruct (segments (l2 :: v) _ true) as [l e]. right. exact Hin.
      * rewrite Hu. destruct (segments_join v l1 l2 (unclosed_nonnil _ Hu) Hu Hc) as [pos [F Hin]].
        exists l1, pos. split; [exists []; reflexivity|]. split; [exact Hu|]. split; [exact F|].
        destruct (segments (l2 :: v) l1 true) as [l e]. right. exact Hin.
  - assert (Hn : neighbours l1 l2 (u ++ l1 :: l2 :: v)) by (exists u, v; reflexivity).
    rewrite segments_cons; cbv zeta. destruct prev as [|x prev].
    + apply IH; assumption.
    + destruct (joinAt un y) as [q|] eqn:J.
      * destruct (IH (skipn (cut q) y) (hasUnclosedBrackets (skipn (cut q) y)) l1 l2 Hn Hu Hc) as [rest [pos [A [B [C D]]]]].
        exists rest, pos. split; [exact A|]. split; [exact B|]. split; [exact C|].
        destruct (segments _ (skipn (cut q) y) _) as [l e]. right. exact D.
      * destruct (IH y (hasUnclosedBrackets y) l1 l2 Hn Hu Hc) as [rest [pos [A [B [C D]]]]].
        exists rest, pos. split; [exact A|]. split; [exact B|]. split; [exact C|].
        destruct (segments _ y _) as [l e]. right. exact D.
Qed.
Lemma pieces_neighbours : forall c l1 l2, neighbours l1 l2 (getlines 10 c) ->
  hasUnclosedBrackets l1 = true -> close_first l2 ->
  exists rest pos, suffix_of rest l1 /\ hasUnclosedBrackets rest = true /\ sfind CloseWideBracket l2 = Some pos
    /\ In (rest ++ firstn (cut pos) l2) (pieces c).
Proof.
  intros c l1 l2 Hn Hu Hc. destruct (segments_neighbours _ [] false l1 l2 Hn Hu Hc) as [rest [pos [A [B [C D]]]]].
  exists rest, pos. split; [exact A|]. split; [exact B|]. split; [exact C|].
  unfold pieces. destruct (segments (getlines 10 c) [] false) as [l e]. apply in_or_app. left. exact D.
Qed.

(** every piece lies within two neighbouring lines *)
Definition spans (ls : list bytes) (p : bytes) : Prop :=
  (exists l, In l ls /\ suffix_of p l)
  \/ (exists l1 l2 a b, neighbours l1 l2 ls /\ suffix_of a l1 /\ prefix_of b l2 /\ p = a ++ b).
Lemma spans_tail : forall x ls p, spans ls p -> spans (x :: ls) p.
Proof.
  intros x ls p [[l [H S]]|[l1 [l2 [a [b [H R]]]]]]; [left; exists l; split; [right; exact H|exact S]|].
  right. exists l1, l2, a, b. split; [apply neighbours_tail; exact H|exact R].
Qed.
Lemma segments_spans : forall ls prev un last, suffix_of prev last ->
  Forall (spans (last :: ls)) (fst (segments ls prev un)) /\ spans (last :: ls) (snd (segments ls prev un)).
Proof.
  induction ls as [|line ls IH]; intros prev un last Hs.
  - cbn. split; [constructor|]. left. exists last. split; [left; reflexivity|exact Hs].
  - assert (L : forall s, suffix_of s line -> forall w,
      Forall (spans (last :: line :: ls)) (fst (segments ls s w)) /\ spans (last :: line :: ls) (snd (segments ls s w))).
    { intros s Hsx w. destruct (IH s w line Hsx) as [F S']. split.
      - apply Forall_impl with (2 := F). intros p. apply spans_tail.
      - apply spans_tail. exact S'. }
    cbn [segments]. destruct prev as [|x prev].
    + apply L. exists []. reflexivity.
    + destruct (joinAt un line) as [q|] eqn:J.
      * destruct (L (skipn (cut q) line) ltac:(exists (firstn (cut q) line); rewrite firstn_skipn; reflexivity)
          (hasUnclosedBrackets (skipn (cut q) line))) as [F S'].
        destruct (segments ls (skipn (cut q) line) _) as [l e]. cbn [fst snd] in *. split; [|exact S'].
        constructor; [|exact F]. right. exists last, line, (x :: prev), (firstn (cut q) line).
        split; [exists [], ls; reflexivity|]. split; [exact Hs|]. split; [|reflexivity].
        exists (skipn (cut q) line). rewrite firstn_skipn. reflexivity.
      * destruct (L line ltac:(exists []; reflexivity) (hasUnclosedBrackets line)) as [F S'].
        destruct (segments ls line _) as [l e]. cbn [fst snd] in *. split; [|exact S'].
        constructor; [|exact F]. left. exists last. split; [left; reflexivity|exact Hs].
Qed.
Lemma pieces_spans : forall c, Forall (spans (getlines 10 c)) (pieces c).
Proof.
  intro c. unfold pieces. destruct (getlines 10 c) as [|line ls]; [constructor|]. cbn [segments].
  destruct (segments_spans ls line (hasUnclosedBrackets line) line ltac:(exists []; reflexivity)) as [F S'].
  destruct (segments ls line _) as [l e]. cbn [fst snd] in *. apply Forall_app. split; [exact F|].
  destruct e; constructor; [exact S'|constructor].
Qed.
