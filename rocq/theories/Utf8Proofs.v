(** Lemmas about the UTF-8 model. *)
From Verif Require Import BaseFacts Utf8Model Utf8Spec.

Arguments N.mul : simpl never.
Arguments N.add : simpl never.
Arguments N.sub : simpl never.
Arguments N.div : simpl never.
Arguments N.modulo : simpl never.
Arguments N.pow : simpl never.
Arguments N.ltb : simpl never.
Arguments N.leb : simpl never.
Arguments N.eqb : simpl never.

(** ** Bit tricks as arithmetic *)

Definition clo_spec (b : N) : N :=
  if b <? 128 then 0 else if b <? 192 then 1 else if b <? 224 then 2
  else if b <? 240 then 3 else if b <? 248 then 4 else if b <? 252 then 5
  else if b <? 254 then 6 else if b <? 255 then 7 else 8.

Lemma countl_one_spec : forall b, b < 256 -> countl_one b = clo_spec b.
Proof.
  intros b Hb. apply N.eqb_eq.
  exact (sweep 256 (fun b => countl_one b =? clo_spec b) eq_refl b Hb).
Qed.

Definition is_cont (b : N) : bool := (128 <=? b) && (b <? 192).

Lemma cont_spec : forall b, b < 256 -> (countl_one b =? 1) = is_cont b.
Proof.
  intros b Hb. rewrite countl_one_spec by exact Hb. unfold clo_spec, is_cont.
  destruct (b <? 128) eqn:?, (b <? 192) eqn:?, (b <? 224) eqn:?, (b <? 240) eqn:?,
    (b <? 248) eqn:?, (b <? 252) eqn:?, (b <? 254) eqn:?, (b <? 255) eqn:?;
    cbn; lia.
Qed.

Lemma lxor_bit1 : forall b, 128 <= b -> b < 192 -> N.lxor b 128 = b - 128.
Proof.
  intros b H1 H2. apply N.eqb_eq.
  pose proof (sweep 192 (fun b => (b <? 128) || (N.lxor b 128 =? b - 128)) eq_refl b H2) as H.
  cbv beta in H. destruct (b <? 128) eqn:E; [lia|exact H].
Qed.
Lemma lxor_two : forall b, 192 <= b -> b < 224 -> N.lxor b 192 = b - 192.
Proof.
  intros b H1 H2. apply N.eqb_eq.
  pose proof (sweep 224 (fun b => (b <? 192) || (N.lxor b 192 =? b - 192)) eq_refl b H2) as H.
  cbv beta in H. destruct (b <? 192) eqn:E; [lia|exact H].
Qed.
Lemma lxor_three : forall b, 224 <= b -> b < 240 -> N.lxor b 224 = b - 224.
Proof.
  intros b H1 H2. apply N.eqb_eq.
  pose proof (sweep 240 (fun b => (b <? 224) || (N.lxor b 224 =? b - 224)) eq_refl b H2) as H.
  cbv beta in H. destruct (b <? 224) eqn:E; [lia|exact H].
Qed.
Lemma lxor_four : forall b, 240 <= b -> b < 248 -> N.lxor b 240 = b - 240.
Proof.
  intros b H1 H2. apply N.eqb_eq.
  pose proof (sweep 248 (fun b => (b <? 240) || (N.lxor b 240 =? b - 240)) eq_refl b H2) as H.
  cbv beta in H. destruct (b <? 240) eqn:E; [lia|exact H].
Qed.

Lemma u32_small : forall x, x < 4294967296 -> u32 x = x.
Proof. intros x H. unfold u32. change (2^32) with 4294967296. apply N.mod_small. exact H. Qed.

Lemma shl_mul : forall x n, N.shiftl x n = x * 2^n.
Proof. intros. apply N.shiftl_mul_pow2. Qed.

Lemma left6_eq : forall x y, x < 65536 -> y < 65536 -> left6 x y = x * 64 + y.
Proof.
  intros x y Hx Hy. unfold left6, shl32. rewrite shl_mul. change (2^6) with 64.
  rewrite (u32_small (x * 64)) by lia. rewrite u32_small by lia. reflexivity.
Qed.
Lemma left12_eq : forall x y, x < 65536 -> y < 65536 -> left12 x y = x * 4096 + y.
Proof.
  intros x y Hx Hy. unfold left12, shl32. rewrite shl_mul. change (2^12) with 4096.
  rewrite (u32_small (x * 4096)) by lia. rewrite u32_small by lia. reflexivity.
Qed.
Lemma left18_eq : forall x y, x < 256 -> y < 262144 -> left18 x y = x * 262144 + y.
Proof.
  intros x y Hx Hy. unfold left18, shl32. rewrite shl_mul. change (2^18) with 262144.
  rewrite (u32_small (x * 262144)) by lia. rewrite u32_small by lia. reflexivity.
Qed.

Lemma three_eq : forall b1 b2 b3, 224 <= b1 < 240 -> 128 <= b2 < 192 -> 128 <= b3 < 192 ->
  threeByteUtf8 b1 (N.lxor b2 Bit1) b3 = (b1 - 224) * 4096 + ((b2 - 128) * 64 + (b3 - 128)).
Proof.
  intros b1 b2 b3 H1 H2 H3. unfold threeByteUtf8, Bit1, ThreeBits.
  change 0x80 with 128. change 0xe0 with 224.
  rewrite !lxor_bit1, lxor_three by lia.
  rewrite left6_eq by lia. rewrite left12_eq by lia. reflexivity.
Qed.
Lemma four_eq : forall b1 b2 b3 b4, 240 <= b1 < 248 -> 128 <= b2 < 192 ->
  128 <= b3 < 192 -> 128 <= b4 < 192 ->
  fourByteUtf8 b1 (N.lxor b2 Bit1) (N.lxor b3 Bit1) b4
  = (b1 - 240) * 262144 + ((b2 - 128) * 4096 + ((b3 - 128) * 64 + (b4 - 128))).
Proof.
  intros b1 b2 b3 b4 H1 H2 H3 H4. unfold fourByteUtf8, Bit1, FourBits.
  change 0x80 with 128. change 0xf0 with 240.
  rewrite !lxor_bit1, lxor_four by lia.
  rewrite left6_eq by lia. rewrite left12_eq by lia. rewrite left18_eq by lia. reflexivity.
Qed.

(** ** A pure decoder *)

Definition dec1 (b1 : N) (r : bytes) : N * bytes :=
  if b1 <? 128 then (b1, r)
  else if (b1 <? 192) || (248 <=? b1) then (0xfffd, r)
  else match r with
  | [] => (0xfffd, r)
  | b2 :: r2 =>
    if negb (is_cont b2) then (0xfffd, r)
    else if b1 <? 224 then
      (if 194 <=? b1 then (b1 - 192) * 64 + (b2 - 128) else 0xfffd, r2)
    else match r2 with
    | [] => (0xfffd, r2)
    | b3 :: r3 =>
      if negb (is_cont b3) then (0xfffd, r2)
      else if b1 <? 240 then
        let t := (b1 - 224) * 4096 + ((b2 - 128) * 64 + (b3 - 128)) in
        (if (2047 <? t) && ((t <? 55296) || (57343 <? t)) then t else 0xfffd, r3)
      else match r3 with
      | [] => (0xfffd, r3)
      | b4 :: r4 =>
        if negb (is_cont b4) then (0xfffd, r3)
        else
          let t := (b1 - 240) * 262144 + ((b2 - 128) * 4096 + ((b3 - 128) * 64 + (b4 - 128))) in
          (if (65535 <? t) && (t <=? 1114111) then t else 0xfffd, r4)
      end
    end
  end.

Lemma cont_bounds : forall b, is_cont b = true -> 128 <= b < 192.
Proof. intros b H. unfold is_cont in H. lia. Qed.

Lemma getNextByte_cons : forall a b r, b < 256 ->
  getNextByte (a :: b :: r) = Val (is_cont b, b :: r).
Proof. intros a b r H. unfold getNextByte. cbn [incr deref obind]. rewrite cont_spec by exact H. reflexivity. Qed.

Lemma is_cont_0 : is_cont 0 = false.
Proof. reflexivity. Qed.

Ltac inv_bytes :=
  repeat match goal with
  | H : bytes_ok (_ :: _) |- _ => apply Forall_cons_iff in H; destruct H
  | H : no_nul (_ :: _) |- _ => apply Forall_cons_iff in H; destruct H
  | H : Forall _ (_ :: _) |- _ => apply Forall_cons_iff in H; destruct H
  end; cbv beta in *.

Lemma convertOne_dec1 : forall b1 r t, bytes_ok (b1 :: r) ->
  convertOneUtf8 ((b1 :: r) ++ 0 :: t) = Val (fst (dec1 b1 r), snd (dec1 b1 r) ++ 0 :: t).
Proof.
  intros b1 r t Hok. inv_bytes. rename H into Hb1. fold (bytes_ok r) in H0.
  unfold convertOneUtf8, dec1. cbn [app deref obind incr].
  rewrite countl_one_spec by exact Hb1. unfold clo_spec.
  destruct (b1 <? 128) eqn:E1; [reflexivity|].
  destruct (b1 <? 192) eqn:E2; [reflexivity|].
  destruct (248 <=? b1) eqn:E3.
  { replace (b1 <? 224) with false by lia. replace (b1 <? 240) with false by lia.
    replace (b1 <? 248) with false by lia.
    destruct (b1 <? 252), (b1 <? 254), (b1 <? 255); reflexivity. }
  cbn [orb].
  destruct r as [|b2 r2].
  { replace (b1 <? 248) with true by lia.
    cbn [app]. rewrite getNextByte_cons by lia. rewrite is_cont_0.
    destruct (b1 <? 224), (b1 <? 240); reflexivity. }
  inv_bytes. fold (bytes_ok r2) in H0. rename H into Hb2.
  cbn [app]. rewrite getNextByte_cons by exact Hb2.
  destruct (is_cont b2) eqn:C2.
  2:{ replace (b1 <? 248) with true by lia. destruct (b1 <? 224), (b1 <? 240); reflexivity. }
  apply cont_bounds in C2.
  destruct (b1 <? 224) eqn:E4.
  { cbn. unfold TwoBits, Bit1. change 0xc0 with 192. change 0x80 with 128.
    rewrite lxor_two by lia. rewrite lxor_bit1 by lia. rewrite left6_eq by lia.
    replace (1 <? b1 - 192) with (194 <=? b1) by lia. reflexivity. }
  replace (b1 <? 248) with true by lia.
  destruct r2 as [|b3 r3].
  { cbn [app obind negb deref]. rewrite getNextByte_cons by lia. rewrite is_cont_0.
    destruct (b1 <? 240); reflexivity. }
  inv_bytes. fold (bytes_ok r3) in H0. rename H into Hb3.
  cbn [app obind negb deref].
  rewrite getNextByte_cons by exact Hb3.
  destruct (is_cont b3) eqn:C3.
  2:{ destruct (b1 <? 240); reflexivity. }
  apply cont_bounds in C3.
  destruct (b1 <? 240) eqn:E5.
  { cbn -[threeByteUtf8]. rewrite three_eq by lia. reflexivity. }
  destruct r3 as [|b4 r4].
  { cbn [app obind negb deref]. rewrite getNextByte_cons by lia. rewrite is_cont_0.
    reflexivity. }
  inv_bytes. fold (bytes_ok r4) in H0. rename H into Hb4.
  cbn [app obind negb deref]. rewrite getNextByte_cons by exact Hb4.
  destruct (is_cont b4) eqn:C4; [|reflexivity].
  apply cont_bounds in C4.
  cbn -[fourByteUtf8]. rewrite four_eq by lia. reflexivity.
Qed.

(** what remains is a suffix that is strictly shorter than the input *)
Lemma dec1_suffix : forall b1 r, exists p, r = p ++ snd (dec1 b1 r).
Proof.
  intros b1 r. unfold dec1.
  destruct (b1 <? 128); [exists []; reflexivity|].
  destruct ((b1 <? 192) || (248 <=? b1)); [exists []; reflexivity|].
  destruct r as [|b2 r2]; [exists []; reflexivity|].
  destruct (negb (is_cont b2)); [exists []; reflexivity|].
  destruct (b1 <? 224); [exists [b2]; reflexivity|].
  destruct r2 as [|b3 r3]; [exists [b2]; reflexivity|].
  destruct (negb (is_cont b3)); [exists [b2]; reflexivity|].
  destruct (b1 <? 240); [exists [b2; b3]; reflexivity|].
  destruct r3 as [|b4 r4]; [exists [b2; b3]; reflexivity|].
  destruct (negb (is_cont b4)); [exists [b2; b3]; reflexivity|].
  exists [b2; b3; b4]; reflexivity.
Qed.

Lemma dec1_len : forall b1 r, (List.length (snd (dec1 b1 r)) <= List.length r)%nat.
Proof.
  intros b1 r. destruct (dec1_suffix b1 r) as [p Hp].
  rewrite Hp at 2. rewrite app_length. lia.
Qed.

Lemma dec1_ok : forall b1 r, bytes_ok r -> bytes_ok (snd (dec1 b1 r)).
Proof.
  intros b1 r H. destruct (dec1_suffix b1 r) as [p Hp]. rewrite Hp in H.
  apply bytes_ok_app in H. tauto.
Qed.
Lemma dec1_nonul : forall b1 r, no_nul r -> no_nul (snd (dec1 b1 r)).
Proof.
  intros b1 r H. destruct (dec1_suffix b1 r) as [p Hp]. rewrite Hp in H.
  apply no_nul_app in H. tauto.
Qed.

Fixpoint decs (fuel : nat) (s : bytes) : list N :=
  match fuel, s with
  | S f, b :: r => fst (dec1 b r) :: decs f (snd (dec1 b r))
  | _, _ => []
  end.
Definition decode (s : bytes) : list N := decs (List.length s) s.

Lemma decs_fuel : forall n m s, (List.length s <= n)%nat -> (List.length s <= m)%nat ->
  decs n s = decs m s.
Proof.
  induction n as [|n IH]; intros m s Hn Hm.
  - destruct s; [|cbn in Hn; lia]. destruct m; reflexivity.
  - destruct s as [|b r]; [destruct m; reflexivity|].
    destruct m as [|m]; [cbn in Hm; lia|]. cbn [decs]. f_equal.
    pose proof (dec1_len b r). cbn [List.length] in *. apply IH; lia.
Qed.

Lemma decode_cons : forall b r,
  decode (b :: r) = fst (dec1 b r) :: decode (snd (dec1 b r)).
Proof.
  intros b r. unfold decode. cbn [List.length decs]. f_equal.
  pose proof (dec1_len b r). apply decs_fuel; lia.
Qed.
Lemma decode_nil : decode [] = [].
Proof. reflexivity. Qed.

(** ** The loop *)

Lemma convertLoop_decode : forall fuel s t maxSize acc,
  bytes_ok s -> no_nul s -> s <> [] ->
  (List.length s <= fuel)%nat ->
  maxSize = 0 \/ len acc < maxSize ->
  convertLoop fuel (s ++ 0 :: t) maxSize acc =
  Val (rev acc ++ (if maxSize =? 0 then decode s
                   else firstn (N.to_nat (maxSize - len acc)) (decode s))).
Proof.
  induction fuel as [|fuel IH]; intros s t maxSize acc Hok Hnn Hne Hf Hmax.
  - destruct s; [congruence|cbn in Hf; lia].
  - destruct s as [|b r]; [congruence|].
    cbn [convertLoop]. rewrite convertOne_dec1 by exact Hok. cbn [obind].
    rewrite decode_cons.
    apply Forall_cons_iff in Hok. destruct Hok as [Hb Hr].
    apply Forall_cons_iff in Hnn. destruct Hnn as [Hbn Hrn].
    pose proof (dec1_ok b r Hr) as Hok'.
    pose proof (dec1_nonul b r Hrn) as Hnn'.
    pose proof (dec1_len b r) as Hlen'.
    destruct (dec1 b r) as [c r'] eqn:Ed. cbn [fst snd] in *.
    destruct r' as [|b' r''] eqn:Er.
    + cbn [app deref obind]. change (0 =? 0) with true. cbn [negb andb].
      cbn [rev]. destruct (maxSize =? 0) eqn:E0.
      * rewrite decode_nil. reflexivity.
      * destruct (N.to_nat (maxSize - len acc)) eqn:En; [lia|].
        rewrite decode_nil. cbn [firstn]. rewrite firstn_nil. reflexivity.
    + cbn [app deref obind].
      assert (Hb' : b' <> 0).
      { apply Forall_cons_iff in Hnn'. tauto. }
      replace (b' =? 0) with false by lia. cbn [negb andb].
      rewrite len_cons.
      destruct ((maxSize =? 0) || (1 + len acc <? maxSize)) eqn:Ecnd.
      * change (b' :: r'' ++ 0 :: t) with ((b' :: r'') ++ 0 :: t).
        rewrite IH; [|exact Hok'|exact Hnn'|congruence| |].
        -- cbn [rev]. rewrite <- app_assoc. cbn [app].
           destruct (maxSize =? 0) eqn:E0; [reflexivity|].
           replace (N.to_nat (maxSize - len acc))
             with (S (N.to_nat (maxSize - len (c :: acc)))) by (rewrite len_cons; lia).
           cbn [firstn]. reflexivity.
        -- cbn [List.length] in *. lia.
        -- rewrite len_cons. lia.
      * replace (maxSize =? 0) with false by lia.
        replace (N.to_nat (maxSize - len acc)) with 1%nat by lia.
        cbn [firstn rev]. reflexivity.
Qed.

Lemma upto_nul_split : forall s,
  exists t, c_str s = upto_nul s ++ 0 :: t.
Proof.
  unfold c_str. induction s as [|b r [t IH]].
  - exists []. reflexivity.
  - cbn [upto_nul]. destruct (b =? 0) eqn:E.
    + apply N.eqb_eq in E. subst. exists (r ++ [0]). reflexivity.
    + exists t. cbn [app]. rewrite IH. reflexivity.
Qed.
Lemma upto_nul_no_nul : forall s, no_nul (upto_nul s).
Proof.
  induction s as [|b r IH]; cbn [upto_nul]; [constructor|].
  destruct (b =? 0) eqn:E; [constructor|]. constructor; [lia|exact IH].
Qed.
Lemma upto_nul_ok : forall s, bytes_ok s -> bytes_ok (upto_nul s).
Proof.
  induction s as [|b r IH]; cbn [upto_nul]; intro H; [constructor|].
  apply Forall_cons_iff in H. destruct H.
  destruct (b =? 0) eqn:E; constructor; [assumption|apply IH; assumption].
Qed.
Lemma upto_nul_id : forall s, no_nul s -> upto_nul s = s.
Proof.
  induction s as [|b r IH]; cbn [upto_nul]; intro H; [reflexivity|].
  apply Forall_cons_iff in H. destruct H. replace (b =? 0) with false by lia.
  rewrite IH by assumption. reflexivity.
Qed.
Lemma upto_nul_len : forall s, (List.length (upto_nul s) <= List.length s)%nat.
Proof.
  induction s as [|b r IH]; cbn [upto_nul]; [lia|].
  destruct (b =? 0); cbn [List.length]; lia.
Qed.

Theorem fromUtf8_decode : forall s n, bytes_ok s ->
  fromUtf8 s n = Val (if n =? 0 then decode (upto_nul s)
                      else firstn (N.to_nat n) (decode (upto_nul s))).
Proof.
  intros s n Hok. unfold fromUtf8, convertFromUtf8.
  destruct (upto_nul_split s) as [t Ht]. rewrite Ht.
  pose proof (upto_nul_no_nul s) as Hnn. pose proof (upto_nul_ok s Hok) as Hok'.
  destruct (upto_nul s) as [|b r] eqn:E.
  - cbn [app deref obind]. rewrite decode_nil, firstn_nil.
    destruct (n =? 0); reflexivity.
  - assert (Hb : b <> 0) by (apply Forall_cons_iff in Hnn; tauto).
    replace (deref ((b :: r) ++ 0 :: t)) with (Val b) by reflexivity. cbn [obind].
    replace (b =? 0) with false by lia.
    rewrite convertLoop_decode; [|exact Hok'|exact Hnn|congruence| |].
    + cbn [rev app]. change (len []) with 0. rewrite N.sub_0_r. reflexivity.
    + rewrite app_length. lia.
    + change (len []) with 0. lia.
Qed.

Theorem getCode_decode : forall s, bytes_ok s ->
  getCode s = Val (hd 0 (decode (upto_nul s))).
Proof.
  intros s Hok. unfold getCode.
  destruct (upto_nul_split s) as [t Ht]. rewrite Ht.
  pose proof (upto_nul_no_nul s) as Hnn. pose proof (upto_nul_ok s Hok) as Hok'.
  destruct (upto_nul s) as [|b r] eqn:E.
  - reflexivity.
  - assert (Hb : b <> 0) by (apply Forall_cons_iff in Hnn; tauto).
    replace (deref ((b :: r) ++ 0 :: t)) with (Val b) by reflexivity. cbn [obind].
    replace (b =? 0) with false by lia.
    rewrite convertOne_dec1 by exact Hok'. rewrite decode_cons. reflexivity.
Qed.

(** ** Encoding *)

Lemma land_mod : forall c k, N.land (N.ones k) c = c mod 2^k.
Proof. intros c k. rewrite N.land_comm. apply N.land_ones. Qed.

Lemma land63 : forall c, N.land 63 c = c mod 64.
Proof. intro c. exact (land_mod c 6). Qed.

(** (mask << k) & c, shifted right by k *)
Lemma shiftr_land_shl : forall m k c,
  N.shiftr (N.land (N.shiftl m k) c) k = N.land m (N.shiftr c k).
Proof.
  intros m k c. rewrite N.shiftr_land. rewrite N.shiftr_shiftl_l by lia.
  rewrite N.sub_diag. rewrite N.shiftl_0_r. reflexivity.
Qed.

Lemma shiftr_field : forall j k c, 
  N.shiftr (N.land (N.shiftl (N.ones j) k) c) k = (c / 2^k) mod 2^j.
Proof.
  intros j k c. rewrite shiftr_land_shl. rewrite land_mod. rewrite N.shiftr_div_pow2.
  reflexivity.
Qed.

Lemma toChar_small : forall x, x < 256 -> toChar x = Val x.
Proof. intros x H. unfold toChar. replace (255 <? x) with false by lia. reflexivity. Qed.

Definition enc_or_repl (c : N) : bytes :=
  if (c <? 0xD800) || ((0xE000 <=? c) && (c <=? 0x10FFFF)) then enc c else [0xEF; 0xBF; 0xBD].

Lemma field_shl6_5 : forall c, N.shiftr (N.land (shl32 31 6) c) 6 = (c / 64) mod 32.
Proof. intro c. change (shl32 31 6) with (N.shiftl (N.ones 5) 6). rewrite shiftr_field. reflexivity. Qed.
Lemma field_shl6_6 : forall c, N.shiftr (N.land (shl32 63 6) c) 6 = (c / 64) mod 64.
Proof. intro c. change (shl32 63 6) with (N.shiftl (N.ones 6) 6). rewrite shiftr_field. reflexivity. Qed.
Lemma field_shl12_4 : forall c, N.shiftr (N.land (shl32 15 12) c) 12 = (c / 4096) mod 16.
Proof. intro c. change (shl32 15 12) with (N.shiftl (N.ones 4) 12). rewrite shiftr_field. reflexivity. Qed.
Lemma field_shl12_6 : forall c, N.shiftr (N.land (shl32 63 12) c) 12 = (c / 4096) mod 64.
Proof. intro c. change (shl32 63 12) with (N.shiftl (N.ones 6) 12). rewrite shiftr_field. reflexivity. Qed.
Lemma field_shl18_3 : forall c, N.shiftr (N.land (shl32 7 18) c) 18 = (c / 262144) mod 8.
Proof. intro c. change (shl32 7 18) with (N.shiftl (N.ones 3) 18). rewrite shiftr_field. reflexivity. Qed.

Lemma convertToUtf8_enc : forall c s, convertToUtf8 c s = Val (s ++ enc_or_repl c).
Proof.
  intros c s. unfold convertToUtf8, enc_or_repl, enc.
  unfold MaxAscii, Max2Uni, Max3Uni, MaxUnicode, MinSurrogate, MaxSurrogate.
  change 0x7f with 127. change 0x7ff with 2047. change 0xffff with 65535.
  change 0x10ffff with 1114111. change 0xd800 with 55296. change 0xdfff with 57343.
  change 0x80 with 128. change 0x800 with 2048. change 0x10000 with 65536.
  change 0xE000 with 57344. change 0xC0 with 192. change 0xE0 with 224. change 0xF0 with 240.
  unfold right6, right12, right18, TwoBits, ThreeBits, FourBits, Bit1.
  change 0x80 with 128. change 0xc0 with 192. change 0xe0 with 224. change 0xf0 with 240.
  rewrite field_shl6_5, field_shl6_6, field_shl12_4, field_shl12_6, field_shl18_3, land63.
  destruct (c <=? 127) eqn:E1.
  { rewrite toChar_small by lia. replace (c <? 55296) with true by lia.
    replace (c <? 128) with true by lia. reflexivity. }
  replace (c <? 128) with false by lia.
  destruct (c <=? 2047) eqn:E2.
  { replace (c <? 55296) with true by lia. replace (c <? 2048) with true by lia. cbn [orb].
    rewrite (u32_small (c mod 64 + 128)) by lia.
    rewrite (u32_small ((c / 64) mod 32 + 192)) by lia.
    rewrite !toChar_small by lia. cbn [obind].
    replace ((c / 64) mod 32) with (c / 64) by lia.
    rewrite (N.add_comm (c/64)), (N.add_comm (c mod 64)). reflexivity. }
  replace (c <? 2048) with false by lia.
  destruct (c <=? 65535) eqn:E3.
  { replace (c <? 65536) with true by lia.
    replace (c <=? 1114111) with true by lia. rewrite andb_true_r.
    replace (57344 <=? c) with (57343 <? c) by lia.
    destruct ((c <? 55296) || (57343 <? c)) eqn:E4; [|reflexivity].
    rewrite (u32_small (c mod 64 + 128)) by lia.
    rewrite (u32_small ((c / 64) mod 64 + 128)) by lia.
    rewrite (u32_small ((c / 4096) mod 16 + 224)) by lia.
    rewrite !toChar_small by lia. cbn [obind].
    replace ((c / 4096) mod 16) with (c / 4096) by lia.
    rewrite (N.add_comm (c/4096)), (N.add_comm (c mod 64)), (N.add_comm ((c/64) mod 64)).
    reflexivity. }
  replace (c <? 65536) with false by lia.
  replace (c <? 55296) with false by lia. replace (57344 <=? c) with true by lia. cbn [orb andb].
  destruct (c <=? 1114111) eqn:E5; [|reflexivity].
  rewrite (u32_small (c mod 64 + 128)) by lia.
  rewrite (u32_small ((c / 64) mod 64 + 128)) by lia.
  rewrite (u32_small ((c / 4096) mod 64 + 128)) by lia.
  rewrite (u32_small ((c / 262144) mod 8 + 240)) by lia.
  rewrite !toChar_small by lia. cbn [obind].
  replace ((c / 262144) mod 8) with (c / 262144) by lia.
  rewrite (N.add_comm (c/262144)), (N.add_comm (c mod 64)), (N.add_comm ((c/64) mod 64)),
    (N.add_comm ((c/4096) mod 64)).
  reflexivity.
Qed.

Lemma toUtf8_loop_spec : forall cs acc,
  toUtf8_loop cs acc = Val (acc ++ flat_map enc_or_repl cs).
Proof.
  induction cs as [|c cs IH]; intro acc; cbn [toUtf8_loop flat_map].
  - rewrite app_nil_r. reflexivity.
  - rewrite convertToUtf8_enc. cbn [obind]. rewrite IH. rewrite app_assoc. reflexivity.
Qed.
Theorem toUtf8_spec : forall cs, toUtf8 cs = Val (flat_map enc_or_repl cs).
Proof. intro cs. unfold toUtf8. rewrite toUtf8_loop_spec. reflexivity. Qed.

Definition scalarb (c : N) : bool := (c <? 0xD800) || ((0xE000 <=? c) && (c <=? 0x10FFFF)).
Lemma scalarb_spec : forall c, scalarb c = true <-> scalar c.
Proof. intro c. unfold scalarb, scalar. lia. Qed.

Lemma enc_or_repl_scalar : forall c, scalar c -> enc_or_repl c = enc c.
Proof.
  intros c H. apply scalarb_spec in H. unfold enc_or_repl, scalarb in *. rewrite H. reflexivity.
Qed.
Lemma enc_or_repl_not : forall c, ~ scalar c -> enc_or_repl c = [0xEF; 0xBF; 0xBD].
Proof.
  intros c H. unfold enc_or_repl.
  destruct ((c <? 0xD800) || ((0xE000 <=? c) && (c <=? 0x10FFFF))) eqn:E; [|reflexivity].
  exfalso. apply H. unfold scalar. lia.
Qed.

Lemma scalar_bounds : forall c, scalar c -> c <= 1114111.
Proof. intros c H. unfold scalar in H. lia. Qed.

(** ** Encoding and the ABNF *)


Lemma enc_char : forall c, scalar c -> utf8_char (enc c).
Proof.
  intros c H. unfold scalar in H. unfold enc.
  destruct (c <? 128) eqn:E1.
  { apply UTF8_1. unfold between. lia. }
  destruct (c <? 2048) eqn:E2.
  { apply UTF8_2; unfold tail_byte, between; lia. }
  destruct (c <? 65536) eqn:E3.
  { destruct (c <? 4096) eqn:E4.
    { replace (c / 4096) with 0 by lia.
      apply UTF8_3a; unfold tail_byte, between; lia. }
    destruct (c <? 53248) eqn:E5.
    { apply UTF8_3b; unfold tail_byte, between; lia. }
    destruct (c <? 57344) eqn:E6.
    { replace (c / 4096) with 13 by lia. apply UTF8_3c; unfold tail_byte, between; lia. }
    apply UTF8_3d; unfold tail_byte, between; lia. }
  destruct (c <? 262144) eqn:E4.
  { replace (c / 262144) with 0 by lia. apply UTF8_4a; unfold tail_byte, between; lia. }
  destruct (c <? 1048576) eqn:E5.
  { apply UTF8_4b; unfold tail_byte, between; lia. }
  replace (c / 262144) with 4 by lia. apply UTF8_4c; unfold tail_byte, between; lia.
Qed.

(** value of a well-formed character *)
Lemma char_enc : forall s, utf8_char s -> exists c, scalar c /\ s = enc c.
Proof.
  intros s H. unfold scalar.
  inversion H as [a Ha|a b Ha Hb|b c Hb Hc|a b c Ha Hb Hc|b c Hb Hc|a b c Ha Hb Hc
                 |b c d Hb Hc Hd|a b c d Ha Hb Hc Hd|b c d Hb Hc Hd]; subst;
    unfold tail_byte, between in *.
  - exists a. split; [lia|]. unfold enc. replace (a <? 128) with true by lia. reflexivity.
  - exists ((a - 192) * 64 + (b - 128)). split; [lia|]. unfold enc.
    destruct ((a - 192) * 64 + (b - 128) <? 128) eqn:E1; [lia|].
    destruct ((a - 192) * 64 + (b - 128) <? 2048) eqn:E2; [|lia].
    repeat (apply f_equal2; [lia|]). reflexivity.
  - set (v := (b - 128) * 64 + (c - 128)). exists v.
    assert (2048 <= v < 4096) by (unfold v; lia).
    split; [lia|]. unfold enc.
    destruct (v <? 128) eqn:E1; [lia|]. destruct (v <? 2048) eqn:E2; [lia|].
    destruct (v <? 65536) eqn:E3; [|lia]. unfold v.
    repeat (apply f_equal2; [lia|]). reflexivity.
  - set (v := (a - 224) * 4096 + ((b - 128) * 64 + (c - 128))). exists v.
    assert (4096 <= v < 53248) by (unfold v; lia).
    split; [lia|]. unfold enc.
    destruct (v <? 128) eqn:E1; [lia|]. destruct (v <? 2048) eqn:E2; [lia|].
    destruct (v <? 65536) eqn:E3; [|lia]. unfold v.
    repeat (apply f_equal2; [lia|]). reflexivity.
  - set (v := 13 * 4096 + ((b - 128) * 64 + (c - 128))). exists v.
    assert (53248 <= v < 55296) by (unfold v; lia).
    split; [lia|]. unfold enc.
    destruct (v <? 128) eqn:E1; [lia|]. destruct (v <? 2048) eqn:E2; [lia|].
    destruct (v <? 65536) eqn:E3; [|lia]. unfold v.
    repeat (apply f_equal2; [lia|]). reflexivity.
  - set (v := (a - 224) * 4096 + ((b - 128) * 64 + (c - 128))). exists v.
    assert (57344 <= v < 65536) by (unfold v; lia).
    split; [lia|]. unfold enc.
    destruct (v <? 128) eqn:E1; [lia|]. destruct (v <? 2048) eqn:E2; [lia|].
    destruct (v <? 65536) eqn:E3; [|lia]. unfold v.
    repeat (apply f_equal2; [lia|]). reflexivity.
  - set (v := (b - 128) * 4096 + ((c - 128) * 64 + (d - 128))). exists v.
    assert (65536 <= v < 262144) by (unfold v; lia).
    split; [lia|]. unfold enc.
    destruct (v <? 128) eqn:E1; [lia|]. destruct (v <? 2048) eqn:E2; [lia|].
    destruct (v <? 65536) eqn:E3; [lia|]. unfold v.
    repeat (apply f_equal2; [lia|]). reflexivity.
  - set (v := (a - 240) * 262144 + ((b - 128) * 4096 + ((c - 128) * 64 + (d - 128)))). exists v.
    assert (262144 <= v < 1048576) by (unfold v; lia).
    split; [lia|]. unfold enc.
    destruct (v <? 128) eqn:E1; [lia|]. destruct (v <? 2048) eqn:E2; [lia|].
    destruct (v <? 65536) eqn:E3; [lia|]. unfold v.
    repeat (apply f_equal2; [lia|]). reflexivity.
  - set (v := 4 * 262144 + ((b - 128) * 4096 + ((c - 128) * 64 + (d - 128)))). exists v.
    assert (1048576 <= v <= 1114111) by (unfold v; lia).
    split; [lia|]. unfold enc.
    destruct (v <? 128) eqn:E1; [lia|]. destruct (v <? 2048) eqn:E2; [lia|].
    destruct (v <? 65536) eqn:E3; [lia|]. unfold v.
    repeat (apply f_equal2; [lia|]). reflexivity.
Qed.

Theorem utf8_iff_enc : forall s,
  utf8 s <-> exists cs, Forall scalar cs /\ s = flat_map enc cs.
Proof.
  intro s. split.
  - intro H. induction H as [|c s Hc Hs [cs [Hcs IH]]].
    + exists []. split; [constructor|reflexivity].
    + apply char_enc in Hc. destruct Hc as [x [Hx Ex]]. exists (x :: cs). split.
      * constructor; assumption.
      * cbn [flat_map]. rewrite <- IH, <- Ex. reflexivity.
  - intros [cs [Hcs ->]]. induction Hcs as [|c cs Hc Hcs IH]; cbn [flat_map].
    + constructor.
    + apply utf8_app; [apply enc_char; exact Hc|exact IH].
Qed.

Lemma repl_char : utf8_char [0xEF; 0xBF; 0xBD].
Proof. apply UTF8_3d; unfold tail_byte, between; lia. Qed.

Lemma enc_or_repl_char : forall c, utf8_char (enc_or_repl c).
Proof.
  intro c. destruct (scalarb c) eqn:E.
  - apply scalarb_spec in E. rewrite enc_or_repl_scalar by exact E. apply enc_char. exact E.
  - rewrite enc_or_repl_not. { apply repl_char. }
    intro H. apply scalarb_spec in H. congruence.
Qed.

(** ** Decoding an encoding *)

Lemma enc_nonnil : forall c, exists b r, enc c = b :: r.
Proof.
  intro c. unfold enc.
  destruct (c <? 128); [eauto|]. destruct (c <? 2048); [eauto|].
  destruct (c <? 65536); eauto.
Qed.

Lemma dec1_enc : forall c r b t, scalar c -> enc c = b :: t -> dec1 b (t ++ r) = (c, r).
Proof.
  intros c r b t H E. unfold scalar in H. unfold enc in E.
  destruct (c <? 128) eqn:E1.
  { inversion E; subst. unfold dec1. rewrite E1. reflexivity. }
  destruct (c <? 2048) eqn:E2.
  { inversion E; subst. unfold dec1, is_cont. cbn [app].
    replace (192 + c / 64 <? 128) with false by lia.
    replace (192 + c / 64 <? 192) with false by lia.
    replace (248 <=? 192 + c / 64) with false by lia. cbn [orb].
    replace (128 <=? 128 + c mod 64) with true by lia.
    replace (128 + c mod 64 <? 192) with true by lia. cbn [andb negb].
    replace (192 + c / 64 <? 224) with true by lia.
    replace (194 <=? 192 + c / 64) with true by lia.
    f_equal. lia. }
  destruct (c <? 65536) eqn:E3.
  { inversion E; subst. unfold dec1, is_cont. cbn [app].
    replace (224 + c / 4096 <? 128) with false by lia.
    replace (224 + c / 4096 <? 192) with false by lia.
    replace (248 <=? 224 + c / 4096) with false by lia. cbn [orb].
    replace (128 <=? 128 + (c / 64) mod 64) with true by lia.
    replace (128 + (c / 64) mod 64 <? 192) with true by lia. cbn [andb negb].
    replace (224 + c / 4096 <? 224) with false by lia.
    replace (128 <=? 128 + c mod 64) with true by lia.
    replace (128 + c mod 64 <? 192) with true by lia. cbn [andb negb].
    replace (224 + c / 4096 <? 240) with true by lia. cbv zeta.
    replace ((224 + c / 4096 - 224) * 4096
             + ((128 + (c / 64) mod 64 - 128) * 64 + (128 + c mod 64 - 128)))
      with c by lia.
    replace ((2047 <? c) && ((c <? 55296) || (57343 <? c))) with true by lia. reflexivity. }
  inversion E; subst. unfold dec1, is_cont. cbn [app].
  replace (240 + c / 262144 <? 128) with false by lia.
  replace (240 + c / 262144 <? 192) with false by lia.
  replace (248 <=? 240 + c / 262144) with false by lia. cbn [orb].
  replace (128 <=? 128 + (c / 4096) mod 64) with true by lia.
  replace (128 + (c / 4096) mod 64 <? 192) with true by lia. cbn [andb negb].
  replace (240 + c / 262144 <? 224) with false by lia.
  replace (128 <=? 128 + (c / 64) mod 64) with true by lia.
  replace (128 + (c / 64) mod 64 <? 192) with true by lia. cbn [andb negb].
  replace (240 + c / 262144 <? 240) with false by lia.
  replace (128 <=? 128 + c mod 64) with true by lia.
  replace (128 + c mod 64 <? 192) with true by lia. cbn [andb negb]. cbv zeta.
  replace ((240 + c / 262144 - 240) * 262144
           + ((128 + (c / 4096) mod 64 - 128) * 4096
              + ((128 + (c / 64) mod 64 - 128) * 64 + (128 + c mod 64 - 128))))
    with c by lia.
  replace ((65535 <? c) && (c <=? 1114111)) with true by lia. reflexivity.
Qed.

Lemma decode_enc : forall c r, scalar c -> decode (enc c ++ r) = c :: decode r.
Proof.
  intros c r H. destruct (enc_nonnil c) as [b [t E]]. rewrite E. cbn [app].
  rewrite decode_cons. rewrite (dec1_enc c r b t H E). reflexivity.
Qed.

Lemma decode_encs : forall cs, Forall scalar cs -> decode (flat_map enc cs) = cs.
Proof.
  intros cs H. induction H as [|c cs Hc Hcs IH]; cbn [flat_map].
  - reflexivity.
  - rewrite decode_enc by exact Hc. rewrite IH. reflexivity.
Qed.

Lemma enc_bytes : forall c, scalar c -> bytes_ok (enc c).
Proof.
  intros c H. unfold scalar in H. unfold enc.
  destruct (c <? 128) eqn:E1; [repeat constructor; lia|].
  destruct (c <? 2048) eqn:E2; [repeat constructor; lia|].
  destruct (c <? 65536) eqn:E3; repeat constructor; lia.
Qed.
Lemma enc_no_nul : forall c, c <> 0 -> no_nul (enc c).
Proof.
  intros c H. unfold enc.
  destruct (c <? 128) eqn:E1; [repeat constructor; lia|].
  destruct (c <? 2048) eqn:E2; [repeat constructor; lia|].
  destruct (c <? 65536) eqn:E3; repeat constructor; lia.
Qed.
Lemma encs_bytes : forall cs, Forall scalar cs -> bytes_ok (flat_map enc cs).
Proof.
  intros cs H. induction H as [|c cs Hc Hcs IH]; cbn [flat_map]; [constructor|].
  apply bytes_ok_app. split; [apply enc_bytes; exact Hc|exact IH].
Qed.
Lemma encs_no_nul : forall cs, Forall (fun c => c <> 0) cs -> no_nul (flat_map enc cs).
Proof.
  intros cs H. induction H as [|c cs Hc Hcs IH]; cbn [flat_map]; [constructor|].
  apply no_nul_app. split; [apply enc_no_nul; exact Hc|exact IH].
Qed.

Lemma encs_or_repl_scalar : forall cs, Forall scalar cs ->
  flat_map enc_or_repl cs = flat_map enc cs.
Proof.
  intros cs H. induction H as [|c cs Hc Hcs IH]; cbn [flat_map]; [reflexivity|].
  rewrite IH, enc_or_repl_scalar by exact Hc. reflexivity.
Qed.

(** ** Decoder output *)

Lemma scalar_repl : scalar 0xfffd.
Proof. unfold scalar. lia. Qed.

Lemma dec1_scalar : forall b r, bytes_ok (b :: r) -> scalar (fst (dec1 b r)).
Proof.
  intros b r Hok. unfold dec1.
  apply Forall_cons_iff in Hok. destruct Hok as [Hb Hok].
  destruct (b <? 128) eqn:E1; [unfold scalar; cbn [fst]; lia|].
  destruct ((b <? 192) || (248 <=? b)) eqn:E2; [apply scalar_repl|].
  destruct r as [|b2 r2]; [apply scalar_repl|].
  destruct (is_cont b2) eqn:C2; cbn [negb]; [|apply scalar_repl].
  apply cont_bounds in C2.
  destruct (b <? 224) eqn:E3.
  { cbn [fst]. destruct (194 <=? b); [unfold scalar; lia|apply scalar_repl]. }
  destruct r2 as [|b3 r3]; [apply scalar_repl|].
  destruct (is_cont b3) eqn:C3; cbn [negb]; [|apply scalar_repl].
  apply cont_bounds in C3.
  destruct (b <? 240) eqn:E4.
  { cbv zeta. cbn [fst].
    match goal with |- context[if ?c then _ else _] => destruct c eqn:E5 end;
      [unfold scalar; lia|apply scalar_repl]. }
  destruct r3 as [|b4 r4]; [apply scalar_repl|].
  destruct (is_cont b4) eqn:C4; cbn [negb]; [|apply scalar_repl].
  cbv zeta. cbn [fst].
  match goal with |- context[if ?c then _ else _] => destruct c eqn:E5 end;
    [unfold scalar; lia|apply scalar_repl].
Qed.

Lemma dec1_nonzero : forall b r, b <> 0 -> fst (dec1 b r) <> 0.
Proof.
  intros b r Hb. unfold dec1.
  destruct (b <? 128) eqn:E1; [exact Hb|].
  destruct ((b <? 192) || (248 <=? b)) eqn:E2; [discriminate|].
  destruct r as [|b2 r2]; [discriminate|].
  destruct (is_cont b2) eqn:C2; cbn [negb]; [|discriminate].
  destruct (b <? 224) eqn:E3.
  { cbn [fst]. destruct (194 <=? b) eqn:E4; [lia|discriminate]. }
  destruct r2 as [|b3 r3]; [discriminate|].
  destruct (is_cont b3) eqn:C3; cbn [negb]; [|discriminate].
  destruct (b <? 240) eqn:E4.
  { cbv zeta. cbn [fst].
    match goal with |- context[if ?c then _ else _] => destruct c eqn:E5 end;
      [lia|discriminate]. }
  destruct r3 as [|b4 r4]; [discriminate|].
  destruct (is_cont b4) eqn:C4; cbn [negb]; [|discriminate].
  cbv zeta. cbn [fst].
  match goal with |- context[if ?c then _ else _] => destruct c eqn:E5 end;
    [lia|discriminate].
Qed.

Lemma decode_props : forall n s, (List.length s <= n)%nat -> bytes_ok s -> no_nul s ->
  Forall scalar (decode s) /\ Forall (fun c => c <> 0) (decode s)
  /\ (List.length (decode s) <= List.length s)%nat
  /\ (s <> [] -> decode s <> []).
Proof.
  induction n as [|n IH]; intros s Hn Hok Hnn.
  - destruct s; [|cbn in Hn; lia]. rewrite decode_nil.
    repeat split; try constructor. intro H; exact H.
  - destruct s as [|b r].
    + rewrite decode_nil. repeat split; try constructor. intro H; exact H.
    + rewrite decode_cons.
      pose proof (dec1_scalar b r Hok) as Hs.
      apply Forall_cons_iff in Hok. destruct Hok as [Hb Hr].
      apply Forall_cons_iff in Hnn. destruct Hnn as [Hbn Hrn].
      pose proof (dec1_len b r) as Hl. cbn [List.length] in Hn.
      destruct (IH (snd (dec1 b r))) as [H1 [H2 [H3 _]]].
      * lia.
      * apply dec1_ok; exact Hr.
      * apply dec1_nonul; exact Hrn.
      * repeat split.
        -- constructor; assumption.
        -- constructor; [apply dec1_nonzero; exact Hbn|assumption].
        -- cbn [List.length]. lia.
        -- discriminate.
Qed.

(** ** Self-synchronisation *)

Definition starts_char (b : bytes) : Prop :=
  match b with [] => True | x :: _ => is_cont x = false end.

Lemma dec1_app : forall b r q, starts_char q ->
  dec1 b (r ++ q) = (fst (dec1 b r), snd (dec1 b r) ++ q).
Proof.
  intros b r q Hq.
  assert (Q : forall (A : Type) (x : A) (f : N -> bytes -> A),
     (forall y t, q = y :: t -> is_cont y = false)) .
  { intros A x f y t ->. exact Hq. }
  unfold dec1.
  destruct (b <? 128); [reflexivity|].
  destruct ((b <? 192) || (248 <=? b)); [reflexivity|].
  destruct r as [|b2 r2].
  { cbn [app]. destruct q as [|y q']; [reflexivity|]. cbn in Hq. rewrite Hq. reflexivity. }
  cbn [app]. destruct (is_cont b2); cbn [negb]; [|reflexivity].
  destruct (b <? 224); [reflexivity|].
  destruct r2 as [|b3 r3].
  { cbn [app]. destruct q as [|y q']; [reflexivity|]. cbn in Hq. rewrite Hq. reflexivity. }
  cbn [app]. destruct (is_cont b3); cbn [negb]; [|reflexivity].
  destruct (b <? 240); [reflexivity|].
  destruct r3 as [|b4 r4].
  { cbn [app]. destruct q as [|y q']; [reflexivity|]. cbn in Hq. rewrite Hq. reflexivity. }
  cbn [app]. destruct (is_cont b4); cbn [negb]; reflexivity.
Qed.

Lemma decode_app : forall n a q, (List.length a <= n)%nat -> starts_char q ->
  decode (a ++ q) = decode a ++ decode q.
Proof.
  induction n as [|n IH]; intros a q Hn Hq.
  - destruct a; [reflexivity|cbn in Hn; lia].
  - destruct a as [|b r]; [reflexivity|].
    cbn [app]. rewrite !decode_cons. rewrite dec1_app by exact Hq. cbn [fst snd].
    rewrite IH; [reflexivity| |exact Hq].
    pose proof (dec1_len b r). cbn [List.length] in Hn. lia.
Qed.

