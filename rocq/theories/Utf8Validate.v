(** Lemmas about validation. *)
From Verif Require Import BaseFacts Utf8Model Utf8Spec Utf8Proofs.

Lemma has_bit1 : forall b, b < 256 -> has b Bit1 = (128 <=? b).
Proof.
  intros b H.
  pose proof (sweep 256 (fun b => Bool.eqb (has b Bit1) (128 <=? b)) eq_refl b H) as S.
  apply Bool.eqb_prop in S. exact S.
Qed.
Lemma two_bits : forall b, b < 256 -> 128 <= b -> (N.land b TwoBits =? Bit1) = (b <? 192).
Proof.
  intros b H H'.
  pose proof (sweep 256 (fun b => (b <? 128) || Bool.eqb (N.land b TwoBits =? Bit1) (b <? 192)) eq_refl b H) as S.
  cbv beta in S. replace (b <? 128) with false in S by lia.
  apply Bool.eqb_prop in S. exact S.
Qed.
Lemma has_bit3 : forall b, b < 256 -> 192 <= b -> has b Bit3 = (224 <=? b).
Proof.
  intros b H H'.
  pose proof (sweep 256 (fun b => (b <? 192) || Bool.eqb (has b Bit3) (224 <=? b)) eq_refl b H) as S.
  cbv beta in S. replace (b <? 192) with false in S by lia.
  apply Bool.eqb_prop in S. exact S.
Qed.
Lemma has_bit4 : forall b, b < 256 -> 224 <= b -> has b Bit4 = (240 <=? b).
Proof.
  intros b H H'.
  pose proof (sweep 256 (fun b => (b <? 224) || Bool.eqb (has b Bit4) (240 <=? b)) eq_refl b H) as S.
  cbv beta in S. replace (b <? 224) with false in S by lia.
  apply Bool.eqb_prop in S. exact S.
Qed.
Lemma has_bit5 : forall b, b < 256 -> 240 <= b -> has b Bit5 = (248 <=? b).
Proof.
  intros b H H'.
  pose proof (sweep 256 (fun b => (b <? 240) || Bool.eqb (has b Bit5) (248 <=? b)) eq_refl b H) as S.
  cbv beta in S. replace (b <? 240) with false in S by lia.
  apply Bool.eqb_prop in S. exact S.
Qed.

Lemma continuation_is_cont : forall b, continuation b = is_cont b.
Proof. intro b. unfold continuation, is_cont. lia. Qed.

Definition as_result (e : option Utf8Result) : Utf8Result + unit :=
  match e with Some e => inl e | None => inr tt end.

Lemma validateMB_spec : forall b r t sizeOne, bytes_ok (b :: r) -> no_nul r -> 192 <= b ->
  validateMB ((b :: r) ++ 0 :: t) sizeOne = Val (as_result (first_error b r sizeOne)).
Proof.
  intros b r t sizeOne Hok Hnn Hb.
  apply Forall_cons_iff in Hok. destruct Hok as [Hb' Hok].
  unfold validateMB. cbn [app deref obind].
  unfold first_error. replace (b <? 192) with false by lia.
  destruct r as [|b2 r2].
  { cbn [app]. rewrite getNextByte_cons by lia. rewrite is_cont_0. cbn [obind negb continuations].
    change (0 <? 2)%nat with true.
    destruct (248 <=? b); [reflexivity|].
    unfold need. destruct (b <? 224), (b <? 240); reflexivity. }
  apply Forall_cons_iff in Hok. destruct Hok as [Hb2 Hok].
  apply Forall_cons_iff in Hnn. destruct Hnn as [Hn2 Hnn].
  cbn [app]. rewrite getNextByte_cons by exact Hb2. cbn [continuations].
  rewrite continuation_is_cont. cbn [obind].
  destruct (is_cont b2) eqn:C2; cbn [negb].
  2:{ change (0 <? 2)%nat with true. destruct (248 <=? b); [reflexivity|].
      unfold need. destruct (b <? 224), (b <? 240); reflexivity. }
  apply cont_bounds in C2.
  rewrite has_bit3 by lia.
  destruct (224 <=? b) eqn:E3.
  2:{ replace (248 <=? b) with false by lia. unfold need, value, smallest, payload, need.
      replace (b <? 224) with true by lia.
      change (S (continuations r2) <? 1)%nat with false. cbn [firstn fold_left].
      unfold TwoBits. change 0xc0 with 192. rewrite lxor_two by lia.
      replace ((b - 192) * 64 + (b2 - 128) <? 128) with (b - 192 <? 2) by lia.
      destruct (b - 192 <? 2) eqn:E4; [reflexivity|].
      match goal with |- context[if ?c then Some InvalidCodePoint else _] =>
        replace c with false by lia end.
      destruct sizeOne; cbn [negb andb]; [|reflexivity].
      cbn [incr obind]. destruct r2 as [|b3 r3]; [reflexivity|].
      cbn [app deref obind]. apply Forall_cons_iff in Hnn. destruct Hnn as [Hn3 Hnn].
      replace (b3 =? 0) with false by lia. reflexivity. }
  cbn [deref obind].
  destruct r2 as [|b3 r3].
  { cbn [app continuations]. rewrite getNextByte_cons by lia. rewrite is_cont_0. cbn [obind negb].
    change (1 <? 2)%nat with true. destruct (248 <=? b); [reflexivity|].
    unfold need. replace (b <? 224) with false by lia. destruct (b <? 240); reflexivity. }
  apply Forall_cons_iff in Hok. destruct Hok as [Hb3 Hok].
  apply Forall_cons_iff in Hnn. destruct Hnn as [Hn3 Hnn].
  cbn [app continuations]. rewrite getNextByte_cons by exact Hb3.
  rewrite continuation_is_cont. cbn [obind].
  destruct (is_cont b3) eqn:C3; cbn [negb].
  2:{ change (1 <? 2)%nat with true. destruct (248 <=? b); [reflexivity|].
      unfold need. replace (b <? 224) with false by lia. destruct (b <? 240); reflexivity. }
  apply cont_bounds in C3. cbn [deref obind].
  rewrite has_bit4 by lia.
  destruct (240 <=? b) eqn:E4.
  2:{ replace (248 <=? b) with false by lia. unfold need, value, smallest, payload, need.
      replace (b <? 224) with false by lia. replace (b <? 240) with true by lia.
      change (S (S (continuations r3)) <? 2)%nat with false. cbn [firstn fold_left].
      rewrite three_eq by lia.
      unfold Max2Uni, MinSurrogate, MaxSurrogate.
      change 0x7ff with 2047. change 0xd800 with 55296. change 0xdfff with 57343.
      set (v := ((b - 224) * 64 + (b2 - 128)) * 64 + (b3 - 128)).
      replace ((b - 224) * 4096 + ((b2 - 128) * 64 + (b3 - 128))) with v by (unfold v; lia).
      assert (v < 65536) by (unfold v; lia).
      replace (v <=? 2047) with (v <? 2048) by lia.
      destruct (v <? 2048) eqn:E5; [reflexivity|].
      replace (0x10FFFF <? v) with false by lia. cbn [orb].
      destruct ((55296 <=? v) && (v <=? 57343)) eqn:E6; [reflexivity|].
      destruct sizeOne; cbn [negb andb]; [|reflexivity].
      cbn [incr obind]. destruct r3 as [|b4 r4]; [reflexivity|].
      cbn [app deref obind]. apply Forall_cons_iff in Hnn. destruct Hnn as [Hn4 Hnn].
      replace (b4 =? 0) with false by lia. reflexivity. }
  rewrite has_bit5 by lia.
  change (S (S (continuations r3)) <? 2)%nat with false.
  destruct (248 <=? b) eqn:E5; [reflexivity|].
  unfold need. replace (b <? 224) with false by lia. replace (b <? 240) with false by lia.
  destruct r3 as [|b4 r4].
  { cbn [app continuations]. rewrite getNextByte_cons by lia. rewrite is_cont_0. reflexivity. }
  apply Forall_cons_iff in Hok. destruct Hok as [Hb4 Hok].
  apply Forall_cons_iff in Hnn. destruct Hnn as [Hn4 Hnn].
  cbn [app continuations]. rewrite getNextByte_cons by exact Hb4.
  rewrite continuation_is_cont. cbn [obind].
  destruct (is_cont b4) eqn:C4; cbn [negb]; [|reflexivity].
  apply cont_bounds in C4. cbn [deref obind].
  change (S (S (S (continuations r4))) <? 3)%nat with false.
  unfold value, need, payload. 
  replace (b <? 224) with false by lia. replace (b <? 240) with false by lia.
  cbn [firstn fold_left smallest].
  rewrite four_eq by lia.
  unfold Max3Uni, MaxUnicode. change 0xffff with 65535. change 0x10ffff with 1114111.
  set (v := (((b - 240) * 64 + (b2 - 128)) * 64 + (b3 - 128)) * 64 + (b4 - 128)).
  replace ((b - 240) * 262144 + ((b2 - 128) * 4096 + ((b3 - 128) * 64 + (b4 - 128))))
    with v by (unfold v; lia).
  replace (v <=? 65535) with (v <? 65536) by lia.
  destruct (v <? 65536) eqn:E6; [reflexivity|].
  replace ((0xD800 <=? v) && (v <=? 0xDFFF)) with false by lia. rewrite orb_false_r.
  destruct (1114111 <? v) eqn:E7; [reflexivity|].
  destruct sizeOne; cbn [negb andb]; [|reflexivity].
  cbn [incr obind]. destruct r4 as [|b5 r5]; [reflexivity|].
  cbn [app deref obind]. apply Forall_cons_iff in Hnn. destruct Hnn as [Hn5 Hnn].
  replace (b5 =? 0) with false by lia. reflexivity.
Qed.

(** The whole function. *)
Theorem validate_spec : forall s e0 sizeOne, bytes_ok s ->
  validateMBUtf8_err s e0 sizeOne =
  Val (match upto_nul s with
       | [] => (NotMultiByte, e0)
       | b :: r =>
           if b <? 0x80 then (NotMultiByte, e0)
           else match first_error b r sizeOne with
                | Some e => (NotValid, e)
                | None => (MBValid, e0)
                end
       end).
Proof.
  intros s e0 sizeOne Hok. unfold validateMBUtf8_err.
  destruct (upto_nul_split s) as [t Ht]. rewrite Ht.
  pose proof (upto_nul_no_nul s) as Hnn. pose proof (upto_nul_ok s Hok) as Hok'.
  destruct (upto_nul s) as [|b r]; [reflexivity|].
  pose proof Hok' as Hok2. apply Forall_cons_iff in Hok2. destruct Hok2 as [Hb Hr].
  pose proof Hnn as Hnn2. apply Forall_cons_iff in Hnn2. destruct Hnn2 as [Hbn Hrn].
  replace (deref ((b :: r) ++ 0 :: t)) with (Val b) by reflexivity. cbn [obind].
  rewrite has_bit1 by exact Hb.
  destruct (128 <=? b) eqn:E1; cbn [negb].
  - replace (b <? 128) with false by lia.
    rewrite two_bits by lia.
    destruct (b <? 192) eqn:E2.
    { unfold first_error. rewrite E2. reflexivity. }
    rewrite validateMB_spec; [|exact Hok'|exact Hrn|lia].
    cbn [obind]. destruct (first_error b r sizeOne); reflexivity.
  - replace (b <? 128) with true by lia. reflexivity.
Qed.

(** ** Relation to well-formedness *)

Lemma first_error_none_char : forall b r, b < 256 -> bytes_ok r -> 128 <= b ->
  first_error b r false = None ->
  exists c q, b :: r = c ++ q /\ utf8_char c /\ List.length c = S (need b).
Proof.
  intros b r Hb Hr Hb128 H. unfold first_error in H.
  destruct (b <? 192) eqn:E1; [discriminate|].
  destruct (248 <=? b) eqn:E2; [discriminate|].
  destruct (continuations r <? need b)%nat eqn:E3; [discriminate|].
  destruct (value b r <? smallest (need b)) eqn:E4; [discriminate|].
  match type of H with context[if ?c then Some InvalidCodePoint else _] =>
    destruct c eqn:E5; [discriminate|] end.
  clear H. apply Nat.ltb_ge in E3.
  unfold need, value, payload, smallest, need in *.
  destruct (b <? 224) eqn:E6.
  - destruct r as [|b2 r2]; [cbn in E3; lia|]. cbn [continuations] in E3.
    destruct (continuation b2) eqn:C2; [|lia]. unfold continuation in C2.
    cbn [firstn fold_left] in *.
    exists [b; b2], r2. split; [reflexivity|]. split; [|reflexivity].
    apply UTF8_2; unfold tail_byte, between; lia.
  - destruct (b <? 240) eqn:E7.
    + destruct r as [|b2 r2]; [cbn in E3; lia|]. cbn [continuations] in E3.
      destruct (continuation b2) eqn:C2; [|lia].
      destruct r2 as [|b3 r3]; [cbn in E3; lia|]. cbn [continuations] in E3.
      destruct (continuation b3) eqn:C3; [|lia].
      unfold continuation in C2, C3. cbn [firstn fold_left] in *.
      exists [b; b2; b3], r3. split; [reflexivity|]. split; [|reflexivity].
      destruct (b =? 224) eqn:E8.
      { apply N.eqb_eq in E8. subst b. apply UTF8_3a; unfold tail_byte, between; lia. }
      destruct (b <=? 236) eqn:E9.
      { apply UTF8_3b; unfold tail_byte, between; lia. }
      destruct (b =? 237) eqn:E10.
      { apply N.eqb_eq in E10. subst b. apply UTF8_3c; unfold tail_byte, between; lia. }
      apply UTF8_3d; unfold tail_byte, between; lia.
    + destruct r as [|b2 r2]; [cbn in E3; lia|]. cbn [continuations] in E3.
      destruct (continuation b2) eqn:C2; [|lia].
      destruct r2 as [|b3 r3]; [cbn in E3; lia|]. cbn [continuations] in E3.
      destruct (continuation b3) eqn:C3; [|lia].
      destruct r3 as [|b4 r4]; [cbn in E3; lia|]. cbn [continuations] in E3.
      destruct (continuation b4) eqn:C4; [|lia].
      unfold continuation in C2, C3, C4. cbn [firstn fold_left] in *.
      exists [b; b2; b3; b4], r4. split; [reflexivity|]. split; [|reflexivity].
      destruct (b =? 240) eqn:E8.
      { apply N.eqb_eq in E8. subst b. apply UTF8_4a; unfold tail_byte, between; lia. }
      destruct (b <=? 243) eqn:E9.
      { apply UTF8_4b; unfold tail_byte, between; lia. }
      assert (b = 244) by lia. subst b. apply UTF8_4c; unfold tail_byte, between; lia.
Qed.

Lemma char_first_error : forall c q b r, utf8_char c -> multi_byte c -> b :: r = c ++ q ->
  128 <= b /\ first_error b r false = None /\ List.length c = S (need b).
Proof.
  intros c q b r Hc Hm E. unfold multi_byte in Hm.
  inversion Hc as [a1 Ha|a1 b1 Ha Hb|b1 c1 Hb Hc1|a1 b1 c1 Ha Hb Hc1|b1 c1 Hb Hc1
     |a1 b1 c1 Ha Hb Hc1|b1 c1 d1 Hb Hc1 Hd|a1 b1 c1 d1 Ha Hb Hc1 Hd|b1 c1 d1 Hb Hc1 Hd]; subst c;
    cbn [app List.length] in *; unfold tail_byte, between in *;
    [lia|..]; inversion E; subst b r; clear E;
    (split; [lia|]); unfold first_error, value, need, payload, smallest, need, continuations, continuation;
    fold continuations;
    repeat (match goal with |- context[?x <? 192] => replace (x <? 192) with false by lia end);
    repeat (match goal with |- context[248 <=? ?x] => replace (248 <=? x) with false by lia end);
    repeat (match goal with
      | |- context[?x <? 224] => first [replace (x <? 224) with true by lia | replace (x <? 224) with false by lia]
      | |- context[?x <? 240] => first [replace (x <? 240) with true by lia | replace (x <? 240) with false by lia]
      end);
    repeat match goal with |- context[(128 <=? ?x) && (?x <=? 191)] =>
      replace ((128 <=? x) && (x <=? 191)) with true by lia end;
    cbn [firstn fold_left];
    (split; [|reflexivity]);
    match goal with |- context[(?x <? ?y)%nat] =>
      replace (x <? y)%nat with false by (symmetry; apply Nat.ltb_ge; lia) end;
    match goal with |- context[if ?x then Some Overlong else _] => replace x with false by lia end;
    match goal with |- context[if ?x then Some InvalidCodePoint else _] => replace x with false by lia end;
    reflexivity.
Qed.

Lemma first_error_size_one : forall b r,
  first_error b r true = None <->
  first_error b r false = None /\ (List.length r <= need b)%nat.
Proof.
  intros b r. unfold first_error. cbn [andb].
  destruct (b <? 192); [intuition discriminate|].
  destruct (248 <=? b); [intuition discriminate|].
  destruct (continuations r <? need b)%nat; [intuition discriminate|].
  destruct (value b r <? smallest (need b)); [intuition discriminate|].
  match goal with |- context[if ?x then Some InvalidCodePoint else _] => destruct x end;
    [intuition discriminate|].
  destruct (need b <? List.length r)%nat eqn:E.
  - apply Nat.ltb_lt in E. split; [discriminate|]. intros [_ H]. lia.
  - apply Nat.ltb_ge in E. tauto.
Qed.

Lemma valid_mb : forall s, bytes_ok s ->
  validateMBUtf8 s false = Val MBValid <-> starts_with_mb (upto_nul s).
Proof.
  intros s Hok. unfold validateMBUtf8. rewrite validate_spec by exact Hok. cbn [obind].
  pose proof (upto_nul_ok s Hok) as Hok'. unfold starts_with_mb.
  destruct (upto_nul s) as [|b r].
  - split; [discriminate|]. intros [c [q [E [Hc Hm]]]].
    symmetry in E. apply app_eq_nil in E. destruct E; subst. unfold multi_byte in Hm. cbn in Hm. lia.
  - apply Forall_cons_iff in Hok'. destruct Hok' as [Hb Hr].
    destruct (b <? 128) eqn:E1.
    + split; [discriminate|]. intros [c [q [E [Hc Hm]]]].
      destruct (char_first_error c q b r Hc Hm E) as [H _]. lia.
    + destruct (first_error b r false) eqn:E2.
      * split; [discriminate|]. intros [c [q [E [Hc Hm]]]].
        destruct (char_first_error c q b r Hc Hm E) as [_ [H _]]. congruence.
      * split; [intros _|reflexivity].
        destruct (first_error_none_char b r Hb Hr ltac:(lia) E2) as [c [q [E [Hc Hl]]]].
        exists c, q. split; [exact E|]. split; [exact Hc|]. unfold multi_byte. rewrite Hl.
        unfold need. destruct (b <? 224), (b <? 240); lia.
Qed.

Lemma valid_mb_one : forall s, bytes_ok s ->
  validateMBUtf8 s true = Val MBValid <-> utf8_char (upto_nul s) /\ multi_byte (upto_nul s).
Proof.
  intros s Hok. unfold validateMBUtf8. rewrite validate_spec by exact Hok. cbn [obind].
  pose proof (upto_nul_ok s Hok) as Hok'.
  destruct (upto_nul s) as [|b r].
  - split; [discriminate|]. intros [_ Hm]. unfold multi_byte in Hm. cbn in Hm. lia.
  - apply Forall_cons_iff in Hok'. destruct Hok' as [Hb Hr].
    destruct (b <? 128) eqn:E1.
    + split; [discriminate|]. intros [Hc Hm].
      destruct (char_first_error (b :: r) [] b r Hc Hm) as [H _]; [rewrite app_nil_r; reflexivity|lia].
    + destruct (first_error b r true) eqn:E2.
      * split; [discriminate|]. intros [Hc Hm]. exfalso.
        destruct (char_first_error (b :: r) [] b r Hc Hm) as [_ [H Hl]];
          [rewrite app_nil_r; reflexivity|].
        assert (first_error b r true = None); [|congruence].
        apply first_error_size_one. split; [exact H|]. cbn [List.length] in Hl. lia.
      * split; [intros _|reflexivity].
        apply first_error_size_one in E2. destruct E2 as [E2 Hlen].
        destruct (first_error_none_char b r Hb Hr ltac:(lia) E2) as [c [q [E [Hc Hl]]]].
        assert (q = []).
        { apply (f_equal (@List.length N)) in E. rewrite app_length in E. cbn [List.length] in E.
          destruct q; [reflexivity|]. cbn [List.length] in E. lia. }
        subst q. rewrite app_nil_r in E. subst c. split; [exact Hc|].
        unfold multi_byte. rewrite Hl. unfold need. destruct (b <? 224), (b <? 240); lia.
Qed.

Lemma not_mb : forall s one, bytes_ok s ->
  validateMBUtf8 s one = Val NotMultiByte <->
  match upto_nul s with [] => True | b :: _ => b < 0x80 end.
Proof.
  intros s one Hok. unfold validateMBUtf8. rewrite validate_spec by exact Hok. cbn [obind].
  destruct (upto_nul s) as [|b r]; [tauto|].
  destruct (b <? 128) eqn:E; [split; [lia|reflexivity]|].
  destruct (first_error b r one); split; try discriminate; lia.
Qed.

Lemma valid_utf8 : forall s one, bytes_ok s ->
  isValidUtf8 s one = Val true <->
  validateMBUtf8 s one = Val NotMultiByte \/ validateMBUtf8 s one = Val MBValid.
Proof.
  intros s one Hok. unfold isValidUtf8, validateUtf8, validateMBUtf8.
  rewrite validate_spec by exact Hok. cbn [obind].
  destruct (upto_nul s) as [|b r]; [tauto|].
  destruct (b <? 128) eqn:E; [tauto|].
  destruct (first_error b r one) as [e|] eqn:E2; [|tauto].
  assert (e <> U8Valid).
  { intros ->. unfold first_error in E2.
    repeat match type of E2 with context[if ?c then _ else _] => destruct c end; discriminate. }
  destruct e; try congruence; split; try discriminate; intros [H1|H1]; discriminate.
Qed.
