(** Lemmas about command line arguments. *)
From Verif Require Import BaseFacts ArgsModel ArgsSpec.
Arguments N.mul : simpl never. Arguments N.add : simpl never. Arguments N.sub : simpl never.

Definition argsOf (l : list bytes) : Args := MkArgs (len l) (Some l).

Lemma argAt_spec : forall l i s, nth_error l (N.to_nat i) = Some s -> argAt (argsOf l) i = Val s.
Proof.
  intros l i s H. unfold argAt, argsOf. cbn [argc argv].
  assert (N.to_nat i < List.length l)%nat by (apply nth_error_Some; congruence).
  replace (len l <=? i) with false by (unfold len; lia). rewrite H. reflexivity.
Qed.

Lemma skipn_cons : forall (A : Type) n (l : list A) x, nth_error l n = Some x -> skipn n l = x :: skipn (S n) l.
Proof.
  intros A. induction n as [|n IH]; intros [|y l] x H; try discriminate; cbn in *.
  - congruence.
  - apply IH. exact H.
Qed.

(** the next argument for the program after position [cur] *)
Lemma nextArg_spec : forall fuel l cur, l <> [] -> len l < 65535 -> cur <= len l ->
  (List.length l - N.to_nat cur < fuel)%nat ->
  exists i, nextArg fuel (argsOf l) cur = Val i
  /\ ((len l <= i /\ others (cur + 1) (skipn (N.to_nat cur + 1) l) = [])
      \/ (cur < i < len l /\ others (cur + 1) (skipn (N.to_nat cur + 1) l)
                             = i :: others (i + 1) (skipn (N.to_nat i + 1) l))).
Proof.
  intros fuel l. induction fuel as [|fuel IH]; intros cur Hne Hl Hc Hf; [lia|].
  cbn [nextArg]. change (argc (argsOf l)) with (len l).
  assert (Hpos : len l <> 0) by (destruct l; [congruence|rewrite len_cons; lia]).
  replace (len l <? cur) with false by lia. replace (len l =? 0) with false by lia.
  unfold u16. rewrite (N.mod_small (cur + 1)) by lia. unfold len in *.
  destruct (cur + 1 <? N.of_nat (List.length l)) eqn:E.
  2:{ exists (cur + 1). split; [reflexivity|]. left. split; [lia|].
      rewrite skipn_all2 by lia. reflexivity. }
  destruct (nth_error l (N.to_nat (cur + 1))) as [s|] eqn:En.
  2:{ apply nth_error_None in En. lia. }
  rewrite (argAt_spec l (cur + 1) s En). cbn [obind].
  replace (N.to_nat (cur + 1)) with (N.to_nat cur + 1)%nat in En by lia.
  rewrite (skipn_cons _ _ _ _ En). cbn [others].
  unfold DataArg, DebugArg, InfoArg.
  destruct (beq s (b_ "-data")) eqn:E1.
  - rewrite N.mod_small by lia.
    destruct (IH (cur + 1 + 1) Hne Hl ltac:(lia) ltac:(lia)) as [i [Hi K]]. exists i. split; [exact Hi|].
    replace (N.to_nat (cur + 1 + 1) + 1)%nat with (S (S (N.to_nat cur + 1))) in K by lia.
    destruct (nth_error l (S (N.to_nat cur + 1))) as [p|] eqn:Ep.
    + rewrite (skipn_cons _ _ _ _ Ep). replace (cur + 1 + 2) with (cur + 1 + 1 + 1) by lia.
      destruct K as [K|[K1 K2]]; [left; exact K|right; split; [lia|exact K2]].
    + apply nth_error_None in Ep. rewrite skipn_all2 by lia.
      destruct K as [[K1 K2]|[K1 K2]]; [left; auto|]. exfalso.
      assert (N.to_nat (cur + 1 + 1) + 1 >= List.length l)%nat by lia.
      rewrite skipn_all2 in K2 by lia. discriminate.
  - destruct (beq s (b_ "-debug") || beq s (b_ "-info")) eqn:E2.
    + destruct (IH (cur + 1) Hne Hl ltac:(lia) ltac:(lia)) as [i [Hi K]]. exists i. split; [exact Hi|].
      replace (N.to_nat (cur + 1) + 1)%nat with (S (N.to_nat cur + 1)) in K by lia.
      destruct K as [K|[K1 K2]]; [left; exact K|right; split; [lia|exact K2]].
    + exists (cur + 1). split; [reflexivity|]. right. split; [lia|].
      replace (N.to_nat (cur + 1) + 1)%nat with (S (N.to_nat cur + 1)) by lia. reflexivity.
Qed.

Lemma visit_spec : forall fuel l i, l <> [] -> len l < 65535 -> i < len l ->
  (S (List.length l - N.to_nat i) < fuel)%nat ->
  visitArgs fuel (argsOf l) i = Val (i :: others (i + 1) (skipn (N.to_nat i + 1) l)).
Proof.
  intros fuel l. induction fuel as [|fuel IH]; intros i Hne Hl Hi Hf; [lia|].
  cbn [visitArgs]. change (argc (argsOf l)) with (len l). replace (i <? len l) with true by lia.
  destruct (nextArg_spec fuel l i Hne Hl ltac:(lia) ltac:(lia)) as [j [Hj K]].
  rewrite Hj. cbn [obind]. destruct K as [[K1 K2]|[K1 K2]].
  - rewrite K2. destruct fuel; [lia|]. cbn [visitArgs]. change (argc (argsOf l)) with (len l).
    replace (j <? len l) with false by lia. reflexivity.
  - rewrite IH by (try assumption; unfold len in *; lia). cbn [obind]. rewrite K2. reflexivity.
Qed.
Lemma allArgs_spec : forall fuel p l, len (p :: l) < 65535 -> (S (List.length (p :: l)) < fuel)%nat ->
  allArgs fuel (argsOf (p :: l)) = Val (others 1 l).
Proof.
  intros fuel p l Hl Hf. unfold allArgs.
  destruct (nextArg_spec fuel (p :: l) 0 ltac:(discriminate) Hl ltac:(lia) ltac:(lia)) as [i [Hi K]].
  rewrite Hi. cbn [obind]. change (skipn (N.to_nat 0 + 1) (p :: l)) with l in K. change (0 + 1) with 1 in K.
  destruct K as [[K1 ->]|[K1 ->]].
  - destruct fuel; [lia|]. cbn [visitArgs]. change (argc (argsOf (p :: l))) with (len (p :: l)).
    replace (i <? len (p :: l)) with false by lia. reflexivity.
  - rewrite visit_spec by (try assumption; try discriminate; unfold len in *; lia). reflexivity.
Qed.
Lemma allArgs_none : forall fuel, (0 < fuel)%nat -> allArgs fuel noArgs = Val [].
Proof. intros [|fuel] H; [lia|]. reflexivity. Qed.

(** ** What [others] leaves *)
Lemma others_sound : forall n l i j, (List.length l <= n)%nat -> In j (others i l) ->
  i <= j /\ exists s, nth_error l (N.to_nat (j - i)) = Some s /\ ~ is_option s.
Proof.
  induction n as [|n IH]; intros l i j Hn Hin.
  - destruct l; [destruct Hin|cbn in Hn; lia].
  - destruct l as [|a r]; [destruct Hin|]. cbn [others] in Hin. cbn [List.length] in Hn.
    destruct (beq a (b_ "-data")) eqn:E1.
    + destruct r as [|p r]; [destruct Hin|]. cbn [List.length] in Hn.
      destruct (IH r (i + 2) j ltac:(lia) Hin) as [H1 [s [H2 H3]]]. split; [lia|]. exists s. split; [|exact H3].
      replace (N.to_nat (j - i)) with (S (S (N.to_nat (j - (i + 2))))) by lia. exact H2.
    + destruct (beq a (b_ "-debug") || beq a (b_ "-info")) eqn:E2.
      * destruct (IH r (i + 1) j ltac:(lia) Hin) as [H1 [s [H2 H3]]]. split; [lia|]. exists s. split; [|exact H3].
        replace (N.to_nat (j - i)) with (S (N.to_nat (j - (i + 1)))) by lia. exact H2.
      * destruct Hin as [->|Hin].
        -- split; [lia|]. exists a. rewrite N.sub_diag. split; [reflexivity|].
           apply orb_false_iff in E2. destruct E2 as [E2 E3].
           apply beq_neq in E1, E2, E3. intros [H|[H|H]]; contradiction.
        -- destruct (IH r (i + 1) j ltac:(lia) Hin) as [H1 [s [H2 H3]]]. split; [lia|]. exists s. split; [|exact H3].
           replace (N.to_nat (j - i)) with (S (N.to_nat (j - (i + 1)))) by lia. exact H2.
Qed.
(** without "-data" nothing else is lost *)
Lemma others_complete : forall l i j s, ~ In (b_ "-data") l -> nth_error l (N.to_nat (j - i)) = Some s -> i <= j ->
  ~ is_option s -> In j (others i l).
Proof.
  induction l as [|a r IH]; intros i j s Hd Hn Hij Ho; [destruct (N.to_nat (j - i)); discriminate|].
  cbn [others]. destruct (beq a (b_ "-data")) eqn:E1.
  { apply beq_eq in E1. exfalso. apply Hd. left. exact E1. }
  destruct (N.eq_dec i j) as [->|Hne].
  - rewrite N.sub_diag in Hn. cbn in Hn. inversion Hn; subst s.
    destruct (beq a (b_ "-debug") || beq a (b_ "-info")) eqn:E2; [|left; reflexivity].
    exfalso. apply Ho. apply orb_true_iff in E2. destruct E2 as [E2|E2]; apply beq_eq in E2; unfold is_option; auto.
  - replace (N.to_nat (j - i)) with (S (N.to_nat (j - (i + 1)))) in Hn by lia.
    assert (K : In j (others (i + 1) r)).
    { apply (IH (i + 1) j s); [intro H; apply Hd; right; exact H|exact Hn|lia|exact Ho]. }
    destruct (beq a (b_ "-debug") || beq a (b_ "-info")); [exact K|right; exact K].
Qed.

(** ** getDebugMode *)
Lemma debugLoop_spec : forall l k i result, (i + k = List.length l)%nat ->
  debugLoop k (argsOf l) (N.of_nat i) result =
  match filter is_mode (skipn i l) with
  | [] => Val result
  | [m] => match result with
           | NoDebug => Val (if beq m (b_ "-debug") then Full else Info)
           | _ => Throw DomainError
           end
  | _ => Throw DomainError
  end.
Proof.
  intros l. induction k as [|k IH]; intros i result H.
  - rewrite skipn_all2 by lia. reflexivity.
  - cbn [debugLoop]. destruct (nth_error l i) as [s|] eqn:E; [|apply nth_error_None in E; lia].
    rewrite (argAt_spec l (N.of_nat i) s) by (rewrite Nat2N.id; exact E). cbn [obind].
    rewrite (skipn_cons _ _ _ _ E). cbn [filter]. unfold is_mode at 1.
    replace (N.of_nat i + 1) with (N.of_nat (S i)) by lia.
    unfold DebugArg, InfoArg. destruct (beq s (b_ "-debug")) eqn:E1; cbn [orb].
    + destruct result; cycle 2.
      * rewrite IH by lia. rewrite E1. destruct (filter is_mode (skipn (S i) l)) as [|m [|m2 r]]; reflexivity.
      * destruct (filter is_mode (skipn (S i) l)); reflexivity.
      * destruct (filter is_mode (skipn (S i) l)); reflexivity.
    + destruct (beq s (b_ "-info")) eqn:E2.
      * destruct result; cycle 2.
        -- rewrite IH by lia. rewrite E1. destruct (filter is_mode (skipn (S i) l)) as [|m [|m2 r]]; reflexivity.
        -- destruct (filter is_mode (skipn (S i) l)); reflexivity.
        -- destruct (filter is_mode (skipn (S i) l)); reflexivity.
      * apply IH. lia.
Qed.
Lemma getDebugMode_spec : forall p l,
  getDebugMode (argsOf (p :: l)) =
  match filter is_mode l with
  | [] => Val NoDebug
  | [m] => Val (if beq m (b_ "-debug") then Full else Info)
  | _ => Throw DomainError
  end.
Proof.
  intros p l. unfold getDebugMode. cbn [argsOf argc].
  replace (N.to_nat (len (p :: l)) - 1)%nat with (List.length l) by (unfold len; rewrite Nat2N.id; cbn; lia).
  exact (debugLoop_spec (p :: l) (List.length l) 1 NoDebug eq_refl).
Qed.

(** ** The 65535th argument *)
Lemma nth_error_repeat' : forall (A : Type) (x : A) n i, (i < n)%nat -> nth_error (repeat x n) i = Some x.
Proof. intros A x. induction n as [|n IH]; intros [|i] H; try lia; [reflexivity|]. cbn. apply IH. lia. Qed.

Lemma wraps_around : forall p, beq p DataArg = false -> beq p DebugArg = false -> beq p InfoArg = false ->
  forall l, len (p :: l ++ [DataArg]) = 65535 ->
  forall fuel, (1 < fuel)%nat -> nextArg fuel (argsOf (p :: l ++ [DataArg])) 65533 = Val 0.
Proof.
  intros p H1 H2 H3 l Hl [|[|fuel]] Hf; try lia.
  set (args := argsOf (p :: l ++ [DataArg])) in *.
  assert (Hargc : argc args = 65535) by exact Hl.
  assert (Hlast : argAt args 65534 = Val DataArg).
  { apply argAt_spec. rewrite len_cons, len_app in Hl. change (len [DataArg]) with 1 in Hl.
    replace (N.to_nat 65534) with (S (List.length l)) by (unfold len in Hl; lia).
    cbn [nth_error]. rewrite nth_error_app2, Nat.sub_diag by lia. reflexivity. }
  assert (Hfirst : argAt args 0 = Val p) by (apply argAt_spec; reflexivity).
  clearbody args. cbn [nextArg]. rewrite Hargc.
  change (65535 <? 65533) with false. change (65535 =? 0) with false. cbv iota.
  change (u16 (65533 + 1)) with 65534. change (65534 <? 65535) with true. cbv iota.
  rewrite Hlast. cbn [obind]. rewrite beq_refl. change (u16 (65534 + 1)) with 65535.
  change (65535 <? 65535) with false. cbv iota.
  change (u16 (65535 + 1)) with 0. change (0 <? 65535) with true. cbv iota.
  rewrite Hfirst. cbn [obind]. rewrite H1, H2, H3. reflexivity.
Qed.

Definition many : list bytes := b_ "prog" :: repeat (b_ "x") (N.to_nat 65533) ++ [DataArg].
Lemma many_len : len many = 65535.
Proof.
  unfold many. rewrite len_cons, len_app. unfold len at 1. rewrite repeat_length. reflexivity.
Qed.
Lemma many_next : forall fuel i, i < 65534 ->
  nextArg fuel (argsOf many) i = Fuel \/ exists j, nextArg fuel (argsOf many) i = Val j /\ j < 65534.
Proof.
  intros fuel i Hi. destruct (N.eq_dec i 65533) as [->|Hne].
  - destruct fuel as [|[|fuel]]; [left; reflexivity| |].
    + left. cbn [nextArg]. change (argc (argsOf many)) with (len many). rewrite many_len.
      change (65535 <? 65533) with false. change (65535 =? 0) with false. cbv iota.
      change (u16 (65533 + 1)) with 65534. change (65534 <? 65535) with true. cbv iota.
      rewrite (argAt_spec many 65534 DataArg); [reflexivity|].
      unfold many. replace (N.to_nat 65534) with (S (List.length (repeat (b_ "x") (N.to_nat 65533)))) by (rewrite repeat_length; lia).
      cbn [nth_error]. rewrite nth_error_app2, Nat.sub_diag by lia. reflexivity.
    + right. exists 0. split; [|lia].
      apply (wraps_around (b_ "prog") eq_refl eq_refl eq_refl); [exact many_len|lia].
  - destruct fuel as [|fuel]; [left; reflexivity|]. right. exists (i + 1). split; [|lia].
    cbn [nextArg]. change (argc (argsOf many)) with (len many). rewrite many_len.
    replace (65535 <? i) with false by lia. change (65535 =? 0) with false. cbv iota.
    unfold u16. rewrite N.mod_small by lia. replace (i + 1 <? 65535) with true by lia.
    rewrite (argAt_spec many (i + 1) (b_ "x")); [reflexivity|].
    unfold many. replace (N.to_nat (i + 1)) with (S (N.to_nat i)) by lia. cbn [nth_error].
    rewrite nth_error_app1 by (rewrite repeat_length; lia). apply nth_error_repeat'. lia.
Qed.
Lemma many_never_ends : forall fuel i, i < 65534 -> visitArgs fuel (argsOf many) i = Fuel.
Proof.
  induction fuel as [|fuel IH]; intros i Hi; [reflexivity|].
  cbn [visitArgs]. change (argc (argsOf many)) with (len many). rewrite many_len. replace (i <? 65535) with true by lia.
  destruct (many_next fuel i Hi) as [->|[j [-> Hj]]]; [reflexivity|]. cbn [obind]. rewrite IH by exact Hj. reflexivity.
Qed.
Lemma many_loops : forall fuel, allArgs fuel (argsOf many) = Fuel.
Proof.
  intro fuel. unfold allArgs. destruct (many_next fuel 0 ltac:(lia)) as [->|[j [-> Hj]]]; [reflexivity|].
  cbn [obind]. apply many_never_ends. exact Hj.
Qed.
