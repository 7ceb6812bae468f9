(** Lemmas about choices. *)
From Verif Require Import BaseFacts.
From Verif Require Export ChoiceSpec.
Open Scope N_scope.
Arguments N.mul : simpl never.
Arguments N.add : simpl never.
Arguments N.sub : simpl never.

(** ** Maps *)
Lemma hasKey_iff : forall c m, hasKey c m = true <-> In c (map fst m).
Proof.
  intros c m. unfold hasKey. rewrite existsb_exists, in_map_iff. split; intros [x [A B]]; exists x; split; try assumption; lia.
Qed.
Lemma insert_in : forall c d m e, In e (insertKey c d m) <-> e = (c, d) \/ In e m.
Proof.
  intros c d m e. induction m as [|x m IH]; cbn [insertKey].
  - cbn [In]. intuition.
  - destruct (c <? fst x); cbn [In]; [intuition|]. rewrite IH. intuition.
Qed.
Lemma insert_keys : forall c d m k, In k (map fst (insertKey c d m)) <-> k = c \/ In k (map fst m).
Proof.
  intros c d m k. rewrite !in_map_iff. split.
  - intros [e [<- H]]. apply insert_in in H. destruct H as [->|H]; [left; reflexivity|right; exists e; auto].
  - intros [->|[e [<- H]]]; [exists (c, d)|exists e]; (split; [reflexivity|]); apply insert_in; auto.
Qed.
Lemma insert_map : forall c d m, is_map m -> ~ In c (map fst m) -> is_map (insertKey c d m).
Proof.
  intros c d m H. unfold is_map in *. induction m as [|x m IH]; intro Hn; cbn [insertKey].
  - cbn [map]. constructor; constructor.
  - cbn [map] in *. inversion H as [|a l Hs Hf]; subst. destruct (c <? fst x) eqn:E.
    + cbn [map fst]. constructor; [exact H|]. constructor; [lia|]. eapply Forall_impl; [|exact Hf]. cbn. intros; lia.
    + cbn [map]. constructor; [apply IH; [exact Hs|intro K; apply Hn; right; exact K]|].
      rewrite Forall_forall in *. intros k Hk. apply insert_keys in Hk. destruct Hk as [->|Hk]; [|apply Hf; exact Hk].
      assert (fst x <> c) by (intro K; apply Hn; left; exact K). lia.
Qed.

(** ** Reading *)
Lemma split_nl : forall l r, ~ In 10 l -> splitLine (l ++ 10 :: r) = (l, Some r).
Proof.
  induction l as [|c l IH]; intros r H; [reflexivity|]. cbn [app splitLine]. replace (c =? 10) with false by (cbn [In] in H; lia).
  rewrite IH by (intro K; apply H; right; exact K). reflexivity.
Qed.
Lemma split_end : forall l, ~ In 10 l -> splitLine l = (l, None).
Proof.
  induction l as [|c l IH]; intro H; [reflexivity|]. cbn [splitLine]. replace (c =? 10) with false by (cbn [In] in H; lia).
  rewrite IH by (intro K; apply H; right; exact K). reflexivity.
Qed.
Lemma getline_end : forall i line, lines_left i [] -> getline i line = (line, i).
Proof.
  intros i line H. unfold lines_left in H. unfold getline. destruct (inEof i); [reflexivity|]. destruct H as [H _]. congruence.
Qed.
Lemma getline_line : forall i line l ls, lines_left i (l :: ls) -> exists i', getline i line = (l, i') /\ lines_left i' ls.
Proof.
  intros i line l ls H. unfold lines_left in H. unfold getline. destruct (inEof i); [discriminate|].
  destruct H as [_ [Hf E]]. unfold free_of in Hf. apply Forall_cons_iff in Hf. destruct Hf as [Hl Hf]. destruct ls as [|l2 ls].
  - cbn [join] in E. rewrite E, split_end by exact Hl. eexists. split; [reflexivity|]. reflexivity.
  - cbn [join] in E. rewrite E. 
    change (l ++ [10] ++ _) with (l ++ 10 :: join 10 (l2 :: ls)).
    rewrite split_nl by exact Hl. eexists. split; [reflexivity|]. unfold lines_left. cbn [inEof inRest]. split; [discriminate|]. split; [exact Hf|reflexivity].
Qed.

Definition okm (m : Choices) (c : N) : Prop := In c (map fst m).
Lemma ask_step : forall f m def p line i w line' i', getline i line = (line', i') ->
  (forall c, answers (okm m) def line' c -> askLoop (S f) m def p line i w = Val (c, i', w ++ p))
  /\ ((forall c, ~ answers (okm m) def line' c) -> askLoop (S f) m def p line i w = askLoop f m def p line' i' (w ++ p)).
Proof.
  intros f m def p line i w line' i' E. cbn [askLoop]. rewrite E. split.
  - intros c [[-> Hc]|[-> ->]]; [|reflexivity]. apply hasKey_iff in Hc. rewrite Hc. destruct def; reflexivity.
  - intros H. destruct line' as [|c [|d r]].
    + destruct def as [d|]; [|reflexivity]. exfalso. apply (H d). right. auto.
    + destruct (hasKey c m) eqn:K; [|destruct def; reflexivity]. exfalso. apply (H c). left. split; [reflexivity|]. apply hasKey_iff. exact K.
    + destruct def; reflexivity.
Qed.
Lemma ask_answer : forall ls k c m def p, first_answer (okm m) def ls k c ->
  forall line i w, lines_left i ls ->
  exists i', lines_left i' (skipn (S k) ls)
    /\ forall f, (k < f)%nat -> askLoop f m def p line i w = Val (c, i', w ++ concat (repeat p (S k))).
Proof.
  induction ls as [|l ls IH]; intros k c m def p [[l' [Hl Ha]] Hb] line i w Hi; [destruct k; discriminate|].
  destruct (getline_line i line l ls Hi) as [i1 [E Hi1]]. destruct k as [|k].
  - cbn [nth_error] in Hl. injection Hl as ->. exists i1. split; [exact Hi1|]. intros f Hf. destruct f as [|f]; [lia|].
    destruct (ask_step f m def p line i w l' i1 E) as [S1 _]. rewrite (S1 c Ha). cbn [repeat concat]. rewrite app_nil_r. reflexivity.
  - cbn [nth_error] in Hl.
    destruct (IH k c m def p) with (line := l) (i := i1) (w := w ++ p) as [i' [Hi' F]].
    { split; [exists l'; auto|]. intros j x y Hj Hx. apply (Hb (S j) x y); [lia|exact Hx]. }
    { exact Hi1. }
    exists i'. split; [exact Hi'|]. intros f Hf. destruct f as [|f]; [lia|].
    destruct (ask_step f m def p line i w l i1 E) as [_ S2]. rewrite S2 by (intro x; apply (Hb 0%nat l x); [lia|reflexivity]).
    rewrite F by lia. cbn [repeat concat]. rewrite <- app_assoc. reflexivity.
Qed.
Lemma ask_stuck : forall f m def p line i w, lines_left i [] -> (forall c, ~ answers (okm m) def line c) ->
  askLoop f m def p line i w = Fuel.
Proof.
  induction f as [|f IH]; intros m def p line i w Hi H; [reflexivity|].
  destruct (ask_step f m def p line i w line i (getline_end i line Hi)) as [_ S2]. rewrite S2 by exact H. apply IH; assumption.
Qed.
Lemma ask_never : forall ls m def p, no_answer (okm m) def ls -> forall f line i w, lines_left i ls ->
  (ls = [] -> forall c, ~ answers (okm m) def line c) -> askLoop f m def p line i w = Fuel.
Proof.
  induction ls as [|l ls IH]; intros m def p H f line i w Hi Hl.
  - apply ask_stuck; [exact Hi|apply Hl; reflexivity].
  - destruct f as [|f]; [reflexivity|]. destruct (getline_line i line l ls Hi) as [i1 [E Hi1]].
    destruct (ask_step f m def p line i w l i1 E) as [_ S2]. rewrite S2 by (intro c; apply H; left; reflexivity).
    apply IH; [intros x c Hx; apply H; right; exact Hx|exact Hi1|]. intros -> c. apply H. left. reflexivity.
Qed.

(** ** The prompt *)
Lemma check_ok : forall c, printable c -> checkPrintableAscii c = Val tt.
Proof. intros c H. unfold checkPrintableAscii, printable in *. replace ((c <? 32) || (126 <? c)) with false by lia. reflexivity. Qed.
Lemma check_bad : forall c, ~ printable c -> checkPrintableAscii c = Throw DomainError.
Proof. intros c H. unfold checkPrintableAscii, printable in *. replace ((c <? 32) || (126 <? c)) with true by lia. reflexivity. Qed.
Lemma span_one : forall a, span a a = [a].
Proof. intro a. unfold span. replace (a + 1 - a) with 1 by lia. change (N.to_nat 1) with 1%nat. cbn [seq map]. rewrite N.add_0_r. reflexivity. Qed.
Lemma span_cons : forall a b, a < b -> span a b = a :: span (a + 1) b.
Proof.
  intros a b H. unfold span. replace (N.to_nat (b + 1 - a)) with (S (N.to_nat (b + 1 - (a + 1)))) by lia.
  cbn [seq map]. f_equal; [lia|]. rewrite <- seq_shift, map_map. apply map_ext. intro k. lia.
Qed.
Lemma span_snoc : forall a b, a <= b -> span a (b + 1) = span a b ++ [b + 1].
Proof.
  intros a b H. unfold span. replace (N.to_nat (b + 1 + 1 - a)) with (N.to_nat (b + 1 - a) + 1)%nat by lia.
  rewrite seq_app, map_app. cbn [seq map]. f_equal. f_equal. lia.
Qed.
Lemma span_empty : forall a b, b < a -> span a b = [].
Proof. intros a b H. unfold span. replace (N.to_nat (b + 1 - a)) with 0%nat by lia. reflexivity. Qed.

Definition first_of (g : group) : N := match g with Single c => c | Span a _ => a | Described c _ => c end.
(** a span from [s] to [e] as a group *)
Definition mk (s e : N) : group := if s =? e then Single s else Span s e.
Definition blank (cs : list N) : Choices := map (fun c => (c, [])) cs.
Lemma mk_choices : forall s e, s <= e -> group_choices (mk s e) = blank (span s e).
Proof. intros s e H. unfold mk. destruct (s =? e) eqn:E; [|reflexivity]. apply N.eqb_eq in E. subst. rewrite span_one. reflexivity. Qed.
Lemma mk_ok : forall s e, s <= e -> group_ok (mk s e).
Proof. intros s e H. unfold mk. destruct (s =? e) eqn:E; cbn [group_ok]; [exact I|lia]. Qed.
Definition gap (e : N) (gs : list group) : Prop :=
  match gs with Single b :: _ => e + 1 < b | Span b _ :: _ => e + 1 < b | _ => True end.
Lemma mk_apart : forall s e gs, gap e gs -> match gs with h :: _ => apart (mk s e) h | [] => True end.
Proof. intros s e [|h gs] H; [exact I|]. unfold mk. destruct (s =? e) eqn:E; destruct h; cbn in *; try exact I; lia. Qed.
Definition rest_text (gs : list group) : bytes := flat_map (fun g => b_ ", " ++ group_text g) gs.
Lemma mk_text : forall s e, group_text (mk s e) = [s] ++ (if s =? e then [] else [45; e]).
Proof. intros s e. unfold mk. destruct (s =? e); reflexivity. Qed.
Lemma complete_text : forall p s e, completeRange p s e = p ++ (if s =? e then [] else [45; e]).
Proof. intros p s e. unfold completeRange. destruct (s =? e); [rewrite app_nil_r; reflexivity|reflexivity]. Qed.

Lemma add_groups : forall m,
  is_map m -> Forall printable (map fst m) ->
  (exists gs, all_apart gs /\ flat_map group_choices gs = m
     /\ forall prev p, addLoop false None prev m p = Val (p ++ rest_text gs) /\ addLoop true None prev m p = Val (p ++ listed gs))
  /\ (forall prev, Forall (fun c => prev < c) (map fst m) ->
       exists e gs, prev <= e /\ all_apart gs /\ gap e gs /\ blank (span (prev + 1) e) ++ flat_map group_choices gs = m
         /\ forall s p, s <= prev -> addLoop false (Some s) prev m p = Val (p ++ (if s =? e then [] else [45; e]) ++ rest_text gs)).
Proof.
  induction m as [|[c d] m IH]; intros Hm Hp.
  - split.
    + exists []. split; [exact I|]. split; [reflexivity|]. intros prev p. cbn. rewrite app_nil_r. auto.
    + intros prev _. exists prev, []. split; [lia|]. split; [exact I|]. split; [exact I|]. split.
      * rewrite span_empty by lia. reflexivity.
      * intros s p L. cbn [addLoop]. rewrite complete_text. cbn [rest_text flat_map]. rewrite app_nil_r. reflexivity.
  - unfold is_map in Hm. cbn [map fst] in Hm, Hp. inversion Hm as [|a l Hs Hf]; subst. apply Forall_cons_iff in Hp. destruct Hp as [Hc Hp].
    destruct (IH Hs Hp) as [I1 I2]. destruct d as [|d0 d].
    + (* no description *)
      assert (K : exists e gs, c <= e /\ all_apart (mk c e :: gs) /\ flat_map group_choices (mk c e :: gs) = (c, []) :: m
        /\ forall p, addLoop false (Some c) c m p = Val (p ++ (if c =? e then [] else [45; e]) ++ rest_text gs)).
      { destruct (I2 c Hf) as [e [gs [A1 [A2 [A3 [A4 A5]]]]]]. exists e, gs. split; [exact A1|]. split; [|split; [|intro p; apply A5; lia]].
        - cbn [all_apart]. split; [apply mk_ok; exact A1|]. split; [apply mk_apart; exact A3|exact A2].
        - cbn [flat_map]. rewrite mk_choices by exact A1. rewrite <- A4.
          destruct (N.eq_dec c e) as [<-|Ne]; [rewrite span_one, span_empty by lia; reflexivity|].
          rewrite span_cons by lia. reflexivity. }
      destruct K as [e [gs [A1 [A2 [A3 A4]]]]]. split.
      * exists (mk c e :: gs). split; [exact A2|]. split; [exact A3|]. intros prev p. split.
        -- cbn [addLoop]. rewrite check_ok by exact Hc. cbn [obind]. rewrite A4. f_equal. cbn [rest_text flat_map]. rewrite mk_text, <- !app_assoc. reflexivity.
        -- cbn [addLoop]. rewrite check_ok by exact Hc. cbn [obind]. rewrite A4. f_equal. cbn [listed]. rewrite mk_text, <- !app_assoc. reflexivity.
      * intros prev Hq. cbn [map fst] in Hq. apply Forall_cons_iff in Hq. destruct Hq as [Hq _].
        destruct (1 <? c - prev) eqn:E.
        -- exists prev, (mk c e :: gs). split; [lia|]. split; [exact A2|]. split; [unfold gap, mk; destruct (c =? e); lia|]. split.
           ++ rewrite span_empty by lia. exact A3.
           ++ intros s p L. cbn [addLoop]. rewrite check_ok by exact Hc. cbn [obind]. rewrite E.
              rewrite A4, complete_text, <- !app_assoc. f_equal. f_equal. f_equal. cbn [rest_text flat_map]. rewrite mk_text, <- !app_assoc. reflexivity.
        -- assert (c = prev + 1) by lia. subst c. destruct (I2 (prev + 1) Hf) as [e' [gs' [B1 [B2 [B3 [B4 B5]]]]]].
           exists e', gs'. split; [lia|]. split; [exact B2|]. split; [exact B3|]. split.
           ++ rewrite <- B4. destruct (N.eq_dec (prev + 1) e') as [<-|Ne]; [rewrite span_one, span_empty by lia; reflexivity|]. rewrite span_cons by lia. reflexivity.
           ++ intros s p L. cbn [addLoop]. rewrite check_ok by exact Hc. cbn [obind]. rewrite E. apply B5. lia.
    + (* described *)
      destruct I1 as [gs [A1 [A2 A3]]].
      assert (G : all_apart (Described c (d0 :: d) :: gs)).
      { cbn [all_apart]. split; [discriminate|]. split; [destruct gs; exact I|exact A1]. }
      assert (F : flat_map group_choices (Described c (d0 :: d) :: gs) = (c, d0 :: d) :: m) by (cbn [flat_map group_choices app]; rewrite A2; reflexivity).
      split.
      * exists (Described c (d0 :: d) :: gs). split; [exact G|]. split; [exact F|]. intros prev p. split.
        -- cbn [addLoop]. rewrite check_ok by exact Hc. cbn [obind]. rewrite (proj1 (A3 c _)). f_equal. cbn [rest_text flat_map group_text]. rewrite <- !app_assoc. reflexivity.
        -- cbn [addLoop]. rewrite check_ok by exact Hc. cbn [obind]. rewrite (proj1 (A3 c _)). f_equal. cbn [listed group_text]. rewrite <- !app_assoc. reflexivity.
      * intros prev Hq. exists prev, (Described c (d0 :: d) :: gs). split; [lia|]. split; [exact G|]. split; [exact I|]. split.
        -- rewrite span_empty by lia. exact F.
        -- intros s p L. cbn [addLoop]. rewrite check_ok by exact Hc. cbn [obind]. rewrite (proj1 (A3 c _)). f_equal. rewrite complete_text. cbn [rest_text flat_map group_text]. rewrite <- !app_assoc. reflexivity.
Qed.
Lemma add_refused : forall m first r prev p, (exists c, In c (map fst m) /\ ~ printable c) -> addLoop first r prev m p = Throw DomainError.
Proof.
  induction m as [|[c d] m IH]; intros first r prev p [x [Hx Hp]]; [destruct Hx|]. cbn [addLoop].
  destruct ((c <? 32) || (126 <? c)) eqn:E.
  - rewrite check_bad by (unfold printable; lia). reflexivity.
  - rewrite check_ok by (unfold printable; lia). cbn [obind].
    assert (K : exists c, In c (map fst m) /\ ~ printable c).
    { destruct Hx as [<-|Hx]; [exfalso; apply Hp; unfold printable; cbn; lia|]. exists x. auto. }
    destruct d; [destruct r as [s|]; [destruct (1 <? c - prev)|]|]; apply IH; exact K.
Qed.

(** ** Whole requests *)
Definition all_choices (q : Quit) (useQuit : bool) (choices : Choices) : Choices :=
  match q with Some (c, d) => if useQuit then insertKey c d choices else choices | None => choices end.
Lemma all_offered : forall q u m e, In e (all_choices q u m) <-> offered q u m e.
Proof.
  intros q u m e. unfold all_choices, offered. destruct q as [[c d]|]; [destruct u|].
  - rewrite insert_in. split; [intros [->|H]; auto|intros [H|[_ [= ->]]]; auto].
  - split; [auto|intros [H|[H _]]; [exact H|discriminate]].
  - split; [auto|intros [H|[_ H]]; [exact H|discriminate]].
Qed.
Lemma all_allowed : forall q u m c, okm (all_choices q u m) c <-> allowed q u m c.
Proof.
  intros q u m c. unfold okm, allowed. rewrite in_map_iff. split.
  - intros [[x d] [<- H]]. exists d. apply all_offered. exact H.
  - intros [d H]. exists (c, d). split; [reflexivity|]. apply all_offered. exact H.
Qed.
Lemma all_map : forall q u m, is_map m -> (forall c d, q = Some (c, d) -> ~ In c (map fst m)) -> is_map (all_choices q u m).
Proof.
  intros [[c d]|] u m H Hq; [|exact H]. unfold all_choices. destruct u; [|exact H]. apply insert_map; [exact H|]. eapply Hq. reflexivity.
Qed.
Lemma forall_or_not : forall m : Choices, Forall printable (map fst m) \/ exists c, In c (map fst m) /\ ~ printable c.
Proof.
  induction m as [|[c d] m [IH|[x [Hx Hp]]]]; [left; constructor| |right; exists x; split; [right; exact Hx|exact Hp]].
  destruct ((c <? 32) || (126 <? c)) eqn:E; [right; exists c; split; [left; reflexivity|unfold printable; lia]|].
  left. cbn [map fst]. constructor; [unfold printable; lia|exact IH].
Qed.
Lemma prepare_ok : forall q msg u m def, is_map m -> valid_request q u m def ->
  exists gs, all_apart gs /\ flat_map group_choices gs = all_choices q u m
    /\ prepare q msg u m def = Val (all_choices q u m, prompt_text msg gs def).
Proof.
  intros q msg u m def Hm [V1 [V2 [V3 V4]]].
  pose proof (all_map q u m Hm V1) as Hall.
  assert (Hp : Forall printable (map fst (all_choices q u m))).
  { apply Forall_forall. intros c Hc. apply V3. apply all_allowed. exact Hc. }
  destruct (add_groups (all_choices q u m) Hall Hp) as [[gs [A1 [A2 A3]]] _]. exists gs. split; [exact A1|]. split; [exact A2|].
  unfold prepare.
  assert (E : (match q with Some (c, d) => if hasKey c m then Throw DomainError else Val (if u then insertKey c d m else m) | None => Val m end) = Val (all_choices q u m)).
  { destruct q as [[c d]|]; [|reflexivity]. destruct (hasKey c m) eqn:K; [|reflexivity]. apply hasKey_iff in K. destruct (V1 c d eq_refl K). }
  rewrite E. cbn [obind]. destruct V2 as [c0 V2]. apply all_allowed in V2.
  destruct (all_choices q u m) as [|e l] eqn:EA; [destruct V2|]. rewrite <- EA in *.
  unfold add. cbv zeta. rewrite (proj2 (A3 0 _)). cbn [obind]. unfold prompt_text.
  destruct def as [d|].
  - assert (K : hasKey d (all_choices q u m) = true) by (apply hasKey_iff; apply all_allowed; apply V4; reflexivity). rewrite K.
    destruct msg; rewrite <- ?app_assoc; reflexivity.
  - destruct msg; rewrite <- ?app_assoc; reflexivity.
Qed.
Lemma prepare_bad : forall q msg u m def, is_map m -> ~ valid_request q u m def -> prepare q msg u m def = Throw DomainError.
Proof.
  intros q msg u m def Hm V. unfold prepare.
  destruct (match q with Some (c, _) => hasKey c m | None => false end) eqn:K.
  { destruct q as [[c d]|]; [|discriminate]. rewrite K. reflexivity. }
  assert (V1 : forall c d, q = Some (c, d) -> ~ In c (map fst m)).
  { intros c d -> H. apply hasKey_iff in H. congruence. }
  assert (E : (match q with Some (c, d) => if hasKey c m then Throw DomainError else Val (if u then insertKey c d m else m) | None => Val m end) = Val (all_choices q u m)).
  { destruct q as [[c d]|]; [|reflexivity]. rewrite K. reflexivity. }
  rewrite E. cbn [obind]. destruct (all_choices q u m) as [|e l] eqn:EA; [reflexivity|]. rewrite <- EA. cbv zeta.
  destruct (forall_or_not (all_choices q u m)) as [Hp|Hp].
  - destruct (add_groups _ (all_map q u m Hm V1) Hp) as [[gs [_ [_ A3]]] _]. unfold add. rewrite (proj2 (A3 0 _)). cbn [obind].
    assert (V2 : exists c, allowed q u m c). { exists (fst e). apply all_allowed. unfold okm. rewrite EA. left. reflexivity. }
    assert (V3 : forall c, allowed q u m c -> printable c). { intros c Hc. rewrite Forall_forall in Hp. apply Hp. apply all_allowed. exact Hc. }
    destruct def as [d|].
    + destruct (hasKey d (all_choices q u m)) eqn:Kd; [|reflexivity]. exfalso. apply V. split; [exact V1|]. split; [exact V2|]. split; [exact V3|].
      intros c [= <-]. apply all_allowed. apply hasKey_iff. exact Kd.
    + exfalso. apply V. split; [exact V1|]. split; [exact V2|]. split; [exact V3|]. discriminate.
  - unfold add. rewrite add_refused by exact Hp. reflexivity.
Qed.
Lemma answers_ext : forall (P Q : N -> Prop) def l c, (forall c, P c <-> Q c) -> (answers P def l c <-> answers Q def l c).
Proof. intros P Q def l c H. unfold answers. rewrite H. tauto. Qed.

Lemma get_spec : forall q msg u m def i ls, is_map m -> lines_left i ls -> valid_request q u m def ->
  exists gs, all_apart gs /\ is_map (flat_map group_choices gs)
    /\ (forall e, In e (flat_map group_choices gs) <-> offered q u m e)
    /\ (forall k c, first_answer (allowed q u m) def ls k c ->
          exists i', lines_left i' (skipn (S k) ls)
            /\ forall f, (k < f)%nat -> get f q msg u m def i = Val (c, i', concat (repeat (prompt_text msg gs def) (S k))))
    /\ (no_answer (allowed q u m) def ls -> ls <> [] \/ def = None -> forall f, get f q msg u m def i = Fuel)
    /\ (ls = [] -> forall d, def = Some d -> forall f, (0 < f)%nat -> get f q msg u m def i = Val (d, i, prompt_text msg gs def)).
Proof.
  intros q msg u m def i ls Hm Hi V. destruct (prepare_ok q msg u m def Hm V) as [gs [G1 [G2 G3]]]. exists gs. split; [exact G1|].
  rewrite G2. split; [apply all_map; [exact Hm|apply V]|]. split; [intro e; apply all_offered|].
  pose proof (all_allowed q u m) as A.
  assert (X : forall l c, answers (okm (all_choices q u m)) def l c <-> answers (allowed q u m) def l c) by (intros; apply answers_ext; exact A).
  unfold get. split; [|split].
  - intros k c [[l [Hl Ha]] Hb].
    destruct (ask_answer ls k c (all_choices q u m) def (prompt_text msg gs def)) with (line := @nil N) (i := i) (w := @nil N) as [i' [Hi' F]].
    { split; [exists l; split; [exact Hl|apply X; exact Ha]|]. intros j x y Hj Hx Ky. apply X in Ky. exact (Hb j x y Hj Hx Ky). }
    { exact Hi. }
    exists i'. split; [exact Hi'|]. intros f Hf. rewrite G3. cbn [obind]. apply F. exact Hf.
  - intros Hn Hd f. rewrite G3. cbn [obind]. apply (ask_never ls).
    + intros l c Hl K. apply X in K. exact (Hn l c Hl K).
    + exact Hi.
    + intros -> c [[K _]|[_ K]]; [discriminate|]. destruct Hd as [Hd|Hd]; congruence.
  - intros -> d -> f Hf. rewrite G3. cbn [obind]. destruct f as [|f]; [lia|].
    destruct (ask_step f (all_choices q u m) (Some d) (prompt_text msg gs (Some d)) [] i [] [] i (getline_end i [] Hi)) as [S1 _].
    rewrite (S1 d); [reflexivity|]. right. auto.
Qed.
Lemma get_refused : forall f q msg u m def i, is_map m -> ~ valid_request q u m def -> get f q msg u m def i = Throw DomainError.
Proof. intros f q msg u m def i Hm V. unfold get. rewrite prepare_bad by assumption. reflexivity. Qed.

(** every line list has a first answer or none *)
Lemma answer_or_none : forall (ok : N -> Prop) def ls, (forall c, ok c \/ ~ ok c) ->
  (exists k c, first_answer ok def ls k c) \/ no_answer ok def ls.
Proof.
  intros ok def ls D. induction ls as [|l ls IH]; [right; intros l c []|].
  assert (K : (exists c, answers ok def l c) \/ (forall c, ~ answers ok def l c)).
  { destruct l as [|c [|y r]].
    - destruct def as [d|]; [left; exists d; right; auto|]. right. intros c [[H _]|[_ H]]; discriminate.
    - destruct (D c) as [H|H]; [left; exists c; left; auto|]. right. intros x [[[= <-] Hx]|[Hx _]]; [exact (H Hx)|discriminate].
    - right. intros x [[H _]|[H _]]; discriminate. }
  destruct K as [[c K]|K].
  - left. exists 0%nat, c. split; [exists l; auto|]. intros; lia.
  - destruct IH as [[k [c [[x [Hx Ha]] Hb]]]|IH].
    + left. exists (S k), c. split; [exists x; auto|]. intros j y z Hj Hy. destruct j as [|j]; [injection Hy as <-; apply K|]. apply (Hb j y z); [lia|exact Hy].
    + right. intros x c [<-|Hx]; [apply K|apply IH; exact Hx].
Qed.
Lemma allowed_dec : forall q u m c, allowed q u m c \/ ~ allowed q u m c.
Proof.
  intros q u m c. destruct (hasKey c (all_choices q u m)) eqn:E.
  - left. apply all_allowed. apply hasKey_iff. exact E.
  - right. intro H. apply all_allowed in H. apply hasKey_iff in H. congruence.
Qed.
Lemma get_allowed : forall f q msg u m def i c i' w, is_map m -> get f q msg u m def i = Val (c, i', w) ->
  allowed q u m c /\ printable c.
Proof.
  intros f q msg u m def i c i' w Hm E. unfold get in E.
  destruct (prepare q msg u m def) as [[mm p]|x| |] eqn:P; try discriminate. cbn [obind] in E.
  assert (V : valid_request q u m def).
  { assert (D : {hasKey 0 [] = true} + {hasKey 0 [] <> true}) by (right; discriminate). clear D.
    (* validity is decided by the call itself *)
    unfold prepare in P.
    destruct (match q with Some (c, _) => hasKey c m | None => false end) eqn:K.
    { destruct q as [[y d]|]; [|discriminate]. rewrite K in P. discriminate. }
    assert (V1 : forall c d, q = Some (c, d) -> ~ In c (map fst m)).
    { intros y d -> H. apply hasKey_iff in H. congruence. }
    assert (EE : (match q with Some (c, d) => if hasKey c m then Throw DomainError else Val (if u then insertKey c d m else m) | None => Val m end) = Val (all_choices q u m)).
    { destruct q as [[y d]|]; [|reflexivity]. rewrite K. reflexivity. }
    rewrite EE in P. cbn [obind] in P. destruct (all_choices q u m) as [|e l] eqn:EA; [discriminate|]. rewrite <- EA in P. cbv zeta in P.
    destruct (forall_or_not (all_choices q u m)) as [Hp|Hp]; [|unfold add in P; rewrite add_refused in P by exact Hp; discriminate].
    split; [exact V1|]. split; [exists (fst e); apply all_allowed; unfold okm; rewrite EA; left; reflexivity|].
    split; [intros y Hy; rewrite Forall_forall in Hp; apply Hp; apply all_allowed; exact Hy|].
    intros y ->. destruct (add _ (all_choices q u m)); try discriminate. cbn [obind] in P.
    destruct (hasKey y (all_choices q u m)) eqn:Ky; [|discriminate]. apply all_allowed. apply hasKey_iff. exact Ky. }
  destruct (prepare_ok q msg u m def Hm V) as [gs [_ [_ G3]]]. rewrite G3 in P. injection P as <- <-.
  assert (A : allowed q u m c); [|split; [exact A|apply V; exact A]].
  revert E. generalize (@nil N) at 1 as line. generalize (@nil N) as w0. revert i. clear G3. induction f as [|f IH]; intros i w0 line E; [discriminate|].
  destruct (getline i line) as [l i1] eqn:G. cbn [askLoop] in E. rewrite G in E. destruct l as [|x [|y r]].
  - destruct def as [d|]; [|apply IH in E; exact E]. injection E as <- _ _. apply V. reflexivity.
  - destruct (hasKey x (all_choices q u m)) eqn:K.
    + destruct def; injection E as <- _ _; apply all_allowed; apply hasKey_iff; exact K.
    + destruct def; apply IH in E; exact E.
  - destruct def; apply IH in E; exact E.
Qed.

(** ** Ranges *)
Lemma range_keys : forall n c m, is_map m ->
  (forall k, (k < n)%nat -> ~ In (c + N.of_nat k) (map fst m)) ->
  exists m', addRange n c m = Val m' /\ is_map m'
    /\ forall e, In e m' <-> In e m \/ (snd e = [] /\ c <= fst e < c + N.of_nat n).
Proof.
  induction n as [|n IH]; intros c m Hm Hn.
  - exists m. split; [reflexivity|]. split; [exact Hm|]. intro e. split; [auto|intros [H|[_ H]]; [exact H|lia]].
  - cbn [addRange]. pose proof (Hn 0%nat ltac:(lia)) as H0. rewrite N.add_0_r in H0.
    destruct (hasKey c m) eqn:K; [apply hasKey_iff in K; contradiction|].
    destruct (IH (c + 1) (insertKey c [] m)) as [m' [E [M F]]].
    { apply insert_map; assumption. }
    { intros k Hk H. apply insert_keys in H. destruct H as [H|H]; [lia|]. apply (Hn (S k)); [lia|]. replace (c + N.of_nat (S k)) with (c + 1 + N.of_nat k) by lia. exact H. }
    exists m'. split; [exact E|]. split; [exact M|]. intro e. rewrite F, insert_in. destruct e as [x d]. cbn [fst snd]. split.
    + intros [[[= -> ->]|H]|[H1 H2]]; [right; split; [reflexivity|lia]|left; exact H|right; split; [exact H1|lia]].
    + intros [H|[-> H]]; [left; right; exact H|]. destruct (N.eq_dec x c) as [->|Ne]; [left; left; reflexivity|right; split; [reflexivity|lia]].
Qed.
Lemma range_clash : forall n c m, (exists k, (k < n)%nat /\ In (c + N.of_nat k) (map fst m)) -> addRange n c m = Throw DomainError.
Proof.
  induction n as [|n IH]; intros c m [k [Hk H]]; [lia|]. cbn [addRange]. destruct (hasKey c m) eqn:K; [reflexivity|]. apply IH.
  destruct k as [|k]; [exfalso; rewrite N.add_0_r in H; apply hasKey_iff in H; congruence|].
  exists k. split; [lia|]. apply insert_keys. right. replace (c + 1 + N.of_nat k) with (c + N.of_nat (S k)) by lia. exact H.
Qed.
Lemma range_spec : forall f q a b msg u m def i, is_map m ->
  (printable a /\ printable b /\ a <= b /\ (forall c, a <= c <= b -> ~ In c (map fst m)) ->
     exists m', is_map m' /\ (forall e, In e m' <-> In e m \/ (snd e = [] /\ a <= fst e <= b))
       /\ getRange f q a b msg u m def i = get f q msg u m' def i)
  /\ (~ (printable a /\ printable b /\ a <= b /\ (forall c, a <= c <= b -> ~ In c (map fst m))) ->
     getRange f q a b msg u m def i = Throw DomainError).
Proof.
  intros f q a b msg u m def i Hm. unfold getRange. split.
  - intros [Ha [Hb [L H]]]. rewrite check_ok by exact Ha. cbn [obind]. rewrite check_ok by exact Hb. cbn [obind]. replace (b <? a) with false by lia.
    destruct (range_keys (N.to_nat (b - a + 1)) a m Hm) as [m' [E [M F]]].
    { intros k Hk. apply H. lia. }
    exists m'. split; [exact M|]. split; [intro e; rewrite F; split; (intros [K|[K1 K2]]; [left; exact K|right; split; [exact K1|lia]])|].
    rewrite E. reflexivity.
  - intro H. unfold checkPrintableAscii. destruct ((a <? 32) || (126 <? a)) eqn:E1; [reflexivity|]. cbn [obind].
    destruct ((b <? 32) || (126 <? b)) eqn:E2; [reflexivity|]. cbn [obind]. destruct (b <? a) eqn:E3; [reflexivity|].
    rewrite range_clash; [reflexivity|].
    destruct (existsb (fun k => hasKey (a + N.of_nat k) m) (seq 0 (N.to_nat (b - a + 1)))) eqn:X.
    + apply existsb_exists in X. destruct X as [k [Hk X]]. apply in_seq in Hk. exists k. split; [lia|]. apply hasKey_iff. exact X.
    + exfalso. apply H. unfold printable. split; [lia|]. split; [lia|]. split; [lia|]. intros c Hc K.
      assert (Y : existsb (fun k => hasKey (a + N.of_nat k) m) (seq 0 (N.to_nat (b - a + 1))) = true); [|congruence].
      apply existsb_exists. exists (N.to_nat (c - a)). split; [apply in_seq; lia|]. apply hasKey_iff. replace (a + N.of_nat (N.to_nat (c - a))) with c by lia. exact K.
Qed.
