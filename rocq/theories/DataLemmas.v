(** Lemmas about Nelson ids, and wrong uses of the frequency table. *)
From Verif Require Import BaseFacts MapProofs StringSpec StringProofs ColumnFileSpec ColumnFileProofs DataModel DataSpec DataProofs DataFreq KanjiSpec.
Arguments N.mul : simpl never. Arguments N.add : simpl never. Arguments N.sub : simpl never.

Definition no_digit (s : bytes) : Prop := match s with c :: _ => ~ is_digit c | [] => True end.
Lemma readDigits_all : forall t rest v any, Forall is_digit t -> no_digit rest -> (t <> [] \/ any = true) ->
  readDigits (t ++ rest) v any = Some (fold_left (fun a c => a * 10 + (c - 48)) t v, rest).
Proof.
  induction t as [|c t IH]; intros rest v any Ht Hr Hne.
  - destruct Hne as [Hne| ->]; [congruence|]. cbn [app fold_left]. destruct rest as [|c rest]; [reflexivity|].
    cbn [readDigits]. unfold no_digit, is_digit in Hr.
    replace ((48 <=? c) && (c <=? 57)) with false by lia. reflexivity.
  - inversion Ht as [|? ? Hc Ht']; subst. unfold is_digit in Hc. cbn [app readDigits fold_left].
    replace ((48 <=? c) && (c <=? 57)) with true by lia. apply IH; auto.
Qed.
Definition numeral (t : bytes) : Prop := t <> [] /\ Forall is_digit t.
Lemma readU16_numeral : forall t rest, numeral t -> decimal t <= 65535 -> no_digit rest ->
  readU16 (t ++ rest) = Some (decimal t, rest).
Proof.
  intros t rest [Hne Ht] Hd Hr. unfold readU16.
  assert (Hs : skipSpaces (t ++ rest) = t ++ rest).
  { destruct t as [|c t]; [congruence|]. inversion Ht as [|? ? Hc _]; subst. unfold is_digit in Hc. cbn [app skipSpaces].
    unfold isSpace. replace ((c =? 32) || ((9 <=? c) && (c <=? 13))) with false by lia. reflexivity. }
  rewrite Hs.
  assert (Hc : exists c r, t ++ rest = c :: r /\ is_digit c).
  { destruct t as [|c t]; [congruence|]. inversion Ht; subst. exists c, (t ++ rest). auto. }
  destruct Hc as [c [r [E Hc]]]. unfold is_digit in Hc. rewrite E.
  replace (c =? 45) with false by lia. replace (c =? 43) with false by lia. cbn [orb]. rewrite <- E.
  rewrite readDigits_all by auto. fold (decimal t). replace (65535 <? decimal t) with false by lia. reflexivity.
Qed.
Lemma readU16_space : forall s, readU16 (32 :: s) = readU16 s.
Proof. reflexivity. Qed.

Definition blank (s : bytes) : bytes := map (fun c => if c =? 44 then 32 else c) s.
Lemma blank_app : forall a b, blank (a ++ b) = blank a ++ blank b.
Proof. intros. apply map_app. Qed.
Lemma blank_digits : forall t, Forall is_digit t -> blank t = t.
Proof.
  intros t H. induction H as [|c t Hc H IH]; [reflexivity|]. cbn [blank map]. fold (blank t). rewrite IH.
  unfold is_digit in Hc. replace (c =? 44) with false by lia. reflexivity.
Qed.
(** the numbers at the front of a list are read, up to the first that does not fit *)
Lemma nelson_read : forall ts rest fuel, Forall (fun t => numeral t /\ decimal t <= 65535) ts ->
  (rest = [] \/ exists c r, rest = 32 :: c :: r /\ ~ is_digit c /\ c <> 43 /\ c <> 45 /\ isSpace c = false) ->
  (List.length ts < fuel)%nat -> ts <> [] ->
  nelsonLoop fuel (join 32 ts ++ rest) = map decimal ts.
Proof.
  induction ts as [|t ts IH]; intros rest fuel H Hr Hf Hne; [congruence|].
  inversion H as [|? ? [Ht Hd] H']; subst. destruct fuel as [|fuel]; [lia|].
  destruct ts as [|u ts].
  - cbn [join nelsonLoop map].
    rewrite readU16_numeral; [|exact Ht|exact Hd|].
    + f_equal. destruct fuel as [|fuel]; [reflexivity|]. cbn [nelsonLoop].
      destruct Hr as [->|[c [r [-> [Hc [H1 [H2 H3]]]]]]]; [reflexivity|].
      rewrite readU16_space. unfold readU16. cbn [skipSpaces]. rewrite H3.
      replace (c =? 45) with false by lia. replace (c =? 43) with false by lia. cbn [orb readDigits].
      unfold is_digit in Hc. replace ((48 <=? c) && (c <=? 57)) with false by lia. reflexivity.
    + destruct Hr as [->|[c [r [-> _]]]]; [exact I|]. unfold no_digit, is_digit. lia.
  - rewrite join_cons, <- app_assoc. cbn [app].
    cbn [nelsonLoop map]. rewrite readU16_numeral; [|exact Ht|exact Hd|unfold no_digit, is_digit; lia].
    f_equal. cbn [List.length] in Hf.
    destruct fuel as [|fuel]; [lia|]. cbn [nelsonLoop]. rewrite readU16_space.
    change (nelsonLoop (S fuel) (join 32 (u :: ts) ++ rest) = map decimal (u :: ts)).
    apply IH; auto; [cbn [List.length] in *; lia|discriminate].
Qed.
Lemma blank_join : forall ts, Forall (fun t => Forall is_digit t) ts -> blank (join 44 ts) = join 32 ts.
Proof.
  intros ts H. induction H as [|t ts Ht H IH]; [reflexivity|]. destruct ts as [|u ts].
  - cbn [join]. apply blank_digits. exact Ht.
  - rewrite !join_cons. rewrite blank_app. change (blank t ++ 32 :: blank (join 44 (u :: ts)) = t ++ 32 :: join 32 (u :: ts)).
    rewrite IH, blank_digits by exact Ht. reflexivity.
Qed.
Lemma join_length : forall sep ts, Forall (fun t => t <> []) ts -> (List.length ts <= List.length (join sep ts))%nat.
Proof.
  intros sep ts H. induction H as [|t ts Ht H IH]; [apply le_n|]. destruct ts as [|u ts].
  - cbn [join]. destruct t; [congruence|]. cbn. lia.
  - rewrite join_cons, !app_length. cbn [List.length] in *. destruct t; [congruence|]. cbn [List.length]. unfold bytes in *. lia.
Qed.
Lemma nelson_ids : forall ts rest, ts <> [] -> Forall (fun t => numeral t /\ decimal t <= 65535) ts ->
  (rest = [] \/ exists c r, rest = 44 :: c :: r /\ ~ is_digit c /\ c <> 43 /\ c <> 45 /\ c <> 44 /\ isSpace c = false) ->
  getNelsonIds (join 44 ts ++ rest) = map decimal ts.
Proof.
  intros ts rest Hne H Hr. unfold getNelsonIds. fold (blank (join 44 ts ++ rest)).
  assert (E : blank (join 44 ts ++ rest) = join 32 ts ++ blank rest).
  { rewrite blank_app, blank_join; [reflexivity|].
    eapply Forall_impl; [|exact H]. intros t [[_ Ht] _]. exact Ht. }
  rewrite E. apply nelson_read; auto.
  - destruct Hr as [->|[c [r [-> [H1 [H2 [H3 [H4 H5]]]]]]]]; [left; reflexivity|]. right.
    exists c, (blank r). cbn [blank map]. replace (c =? 44) with false by lia. fold (blank r). auto.
  - rewrite app_length. pose proof (join_length 32 ts) as L.
    assert (Forall (fun t : bytes => t <> []) ts).
    { eapply Forall_impl; [|exact H]. intros t [[Ht _] _]. exact Ht. }
    specialize (L H0). unfold bytes in *. lia.
Qed.
