(** Lemmas about numbers as text. *)
From Verif Require Import BaseFacts StringModel StringSpec.

Arguments N.mul : simpl never.
Arguments N.add : simpl never.
Arguments N.sub : simpl never.
Arguments N.div : simpl never.
Arguments N.modulo : simpl never.
Arguments N.pow : simpl never.
Arguments N.ltb : simpl never.
Arguments N.leb : simpl never.
Arguments N.eqb : simpl never.

Lemma size_nat_bound : forall x, x < 2 ^ N.of_nat (N.size_nat x).
Proof.
  intro x. destruct x as [|p]; [reflexivity|].
  unfold N.size_nat.
  induction p as [p IH|p IH|]; cbn [Pos.size_nat].
  - rewrite Nat2N.inj_succ, N.pow_succ_r'. lia.
  - rewrite Nat2N.inj_succ, N.pow_succ_r'. lia.
  - reflexivity.
Qed.

(** abstract digits, most significant first *)
Fixpoint digs (fuel : nat) (b x : N) : list N :=
  match fuel with
  | O => []
  | S f => if x =? 0 then [] else digs f b (x / b) ++ [x mod b]
  end.

Lemma positional_app : forall b ds d, positional b (ds ++ [d]) = positional b ds * b + d.
Proof. intros b ds d. unfold positional. rewrite fold_left_app. reflexivity. Qed.

Lemma div_bound : forall x b f, 2 <= b -> x < 2 ^ N.of_nat (S f) -> x / b < 2 ^ N.of_nat f.
Proof.
  intros x b f Hb H. rewrite Nat2N.inj_succ, N.pow_succ_r' in H.
  apply N.div_lt_upper_bound; [lia|]. nia.
Qed.

Lemma digs_value : forall f b x, 2 <= b -> x < 2 ^ N.of_nat f -> positional b (digs f b x) = x.
Proof.
  induction f as [|f IH]; intros b x Hb Hx; cbn [digs].
  - change (2 ^ N.of_nat 0) with 1 in Hx. unfold positional. cbn. lia.
  - destruct (x =? 0) eqn:E; [unfold positional; cbn; lia|].
    rewrite positional_app. rewrite IH by (try apply div_bound; assumption).
    rewrite N.mul_comm. symmetry. apply N.div_mod. lia.
Qed.
Lemma digs_lt : forall f b x, 2 <= b -> Forall (fun d => d < b) (digs f b x).
Proof.
  induction f as [|f IH]; intros b x Hb; cbn [digs]; [constructor|].
  destruct (x =? 0); [constructor|]. apply Forall_app. split; [apply IH; exact Hb|].
  constructor; [|constructor]. apply N.mod_lt. lia.
Qed.
Lemma digs_head : forall f b x, 2 <= b -> x < 2 ^ N.of_nat f -> x <> 0 ->
  exists d r, digs f b x = d :: r /\ d <> 0.
Proof.
  induction f as [|f IH]; intros b x Hb Hx Hn; cbn [digs].
  - change (2 ^ N.of_nat 0) with 1 in Hx. lia.
  - replace (x =? 0) with false by lia.
    destruct (N.eq_dec (x / b) 0) as [E|E].
    + rewrite E. destruct f; cbn [digs app].
      * exists (x mod b), []. split; [reflexivity|]. pose proof (N.div_mod x b ltac:(lia)). nia.
      * change (0 =? 0) with true. cbn [app]. exists (x mod b), []. split; [reflexivity|].
        pose proof (N.div_mod x b ltac:(lia)). nia.
    + destruct (IH b (x / b) Hb (div_bound _ _ _ Hb Hx) E) as [d [r [Ed Hd]]].
      rewrite Ed. exists d, (r ++ [x mod b]). split; [reflexivity|exact Hd].
Qed.

Lemma digitLoop_digs : forall f k d x acc, 1 <= k -> x < 2 ^ N.of_nat f ->
  digitLoop f k d x acc = Val (map d (digs f (2^k) x) ++ acc).
Proof.
  intros f k d x acc Hk. revert x acc.
  assert (Hb : 2 <= 2 ^ k).
  { change 2 with (2^1) at 1. apply N.pow_le_mono_r; lia. }
  induction f as [|f IH]; intros x acc Hx.
  - change (2 ^ N.of_nat 0) with 1 in Hx. cbn [digitLoop digs map app].
    replace (x =? 0) with true by lia. reflexivity.
  - cbn [digitLoop digs]. destruct (x =? 0) eqn:E; [reflexivity|].
    rewrite N.shiftr_div_pow2. rewrite IH by (apply div_bound; assumption).
    rewrite map_app, <- app_assoc. reflexivity.
Qed.

Lemma decLoop_digs : forall f x acc, decLoop f x acc = map (fun d => 48 + d) (digs f 10 x) ++ acc.
Proof.
  induction f as [|f IH]; intros x acc; cbn [decLoop digs]; [reflexivity|].
  destruct (x =? 0); [reflexivity|]. rewrite IH, map_app, <- app_assoc. reflexivity.
Qed.

(** ** Decimal *)

Definition digitsb (s : bytes) : bool := forallb (fun c => (48 <=? c) && (c <=? 57)) s.
Lemma digitsb_spec : forall s, digitsb s = true <-> Forall is_digit s.
Proof.
  intro s. unfold digitsb. rewrite forallb_forall, Forall_forall. unfold is_digit.
  split; intros H x Hx; specialize (H x Hx); lia.
Qed.

Lemma decimal_app : forall s c, decimal (s ++ [c]) = decimal s * 10 + (c - 48).
Proof. intros s c. unfold decimal. rewrite fold_left_app. reflexivity. Qed.

Lemma decimal_map : forall ds, decimal (map (fun d => 48 + d) ds) = positional 10 ds.
Proof.
  intro ds. unfold decimal, positional. generalize 0.
  induction ds as [|d ds IH]; intro a; cbn [map fold_left]; [reflexivity|].
  rewrite IH. f_equal. lia.
Qed.

Lemma to_string_decimal : forall x, decimal (to_string x) = x.
Proof.
  intro x. unfold to_string. destruct (x =? 0) eqn:E.
  - unfold decimal. cbn. lia.
  - rewrite decLoop_digs, app_nil_r, decimal_map. apply digs_value; [lia|apply size_nat_bound].
Qed.
Lemma to_string_digits : forall x, Forall is_digit (to_string x).
Proof.
  intro x. unfold to_string. destruct (x =? 0).
  - repeat constructor; lia.
  - rewrite decLoop_digs, app_nil_r. pose proof (digs_lt (N.size_nat x) 10 x ltac:(lia)) as H.
    induction H as [|d ds Hd H IH]; cbn [map]; constructor; [unfold is_digit; lia|exact IH].
Qed.
Lemma to_string_nonempty : forall x, to_string x <> [].
Proof.
  intro x. unfold to_string. destruct (x =? 0) eqn:E; [discriminate|].
  rewrite decLoop_digs, app_nil_r.
  destruct (digs_head (N.size_nat x) 10 x ltac:(lia) (size_nat_bound x) ltac:(lia)) as [d [r [Ed _]]].
  rewrite Ed. discriminate.
Qed.
Lemma to_string_head : forall x, x <> 0 -> exists c r, to_string x = c :: r /\ c <> 48.
Proof.
  intros x Hx. unfold to_string. replace (x =? 0) with false by lia.
  rewrite decLoop_digs, app_nil_r.
  destruct (digs_head (N.size_nat x) 10 x ltac:(lia) (size_nat_bound x) Hx) as [d [r [Ed Hd]]].
  rewrite Ed. cbn [map]. exists (48 + d), (map (fun d => 48 + d) r). split; [reflexivity|lia].
Qed.
Lemma to_string_inj : forall x y, to_string x = to_string y -> x = y.
Proof.
  intros x y H. rewrite <- (to_string_decimal x), <- (to_string_decimal y), H. reflexivity.
Qed.

(** ** Hex and binary *)

Lemma map_digit_value : forall d ds, (forall x, x < 16 -> digit_value (d x) = Some x) ->
  Forall (fun x => x < 16) ds -> map digit_value (map d ds) = map Some ds.
Proof.
  intros d ds Hd H. induction H as [|x ds Hx H IH]; cbn [map]; [reflexivity|].
  rewrite Hd by exact Hx. rewrite IH. reflexivity.
Qed.

Lemma hexDigit_value : forall c x, x < 16 -> digit_value (hexDigit c x) = Some x.
Proof.
  intros c x Hx. unfold digit_value, hexDigit.
  destruct c; destruct (x <? 10) eqn:E;
    repeat match goal with |- context[if ?b then _ else _] => destruct b eqn:? end;
    try (f_equal; lia); lia.
Qed.

Lemma positional_zeros : forall b n ds, positional b (repeat 0 n ++ ds) = positional b ds.
Proof.
  intros b n ds. unfold positional. rewrite fold_left_app. f_equal.
  induction n as [|n IH]; cbn [repeat fold_left]; [reflexivity|exact IH].
Qed.

Definition spec_digits (b x minSize : N) (ds : list N) : Prop :=
  positional b ds = x /\ Forall (fun d => d < b) ds /\ ds <> []
  /\ minSize <= len ds
  /\ (len ds <= N.max 1 minSize \/ exists d r, ds = d :: r /\ d <> 0).

Lemma padded_digits : forall b x minSize f (d : N -> N), 2 <= b -> x < 2 ^ N.of_nat f -> d 0 = 48 ->
  exists ds, addLeadingZeroes (map d (digs f b x)) minSize = map d ds /\ spec_digits b x minSize ds.
Proof.
  intros b x minSize f d Hb Hx Hd. unfold addLeadingZeroes.
  pose proof (digs_value f b x Hb Hx) as Hv. pose proof (digs_lt f b x Hb) as Hl.
  replace (len (map d (digs f b x))) with (len (digs f b x))
    by (unfold len; rewrite map_length; reflexivity).
  destruct (len (digs f b x) <? minSize) eqn:E.
  - set (n := N.to_nat (minSize - len (digs f b x))).
    assert (Hlen : len (repeat 0 n ++ digs f b x) = minSize).
    { rewrite len_app. unfold len at 1. rewrite repeat_length. unfold n. lia. }
    exists (repeat 0 n ++ digs f b x). split.
    + rewrite map_app. f_equal. clearbody n. clear Hlen.
      induction n as [|n IH]; cbn [repeat map]; [reflexivity|]. rewrite Hd, IH. reflexivity.
    + unfold spec_digits. repeat split.
      * rewrite positional_zeros. exact Hv.
      * apply Forall_app. split; [|exact Hl]. apply Forall_forall. intros y Hy.
        apply repeat_spec in Hy. lia.
      * intro Hn. rewrite Hn in Hlen. rewrite len_nil in Hlen. lia.
      * lia.
      * left. lia.
  - destruct (digs f b x) as [|d0 r] eqn:Ed.
    + cbn [map]. exists [0]. split; [cbn; rewrite Hd; reflexivity|].
      rewrite len_nil in E. unfold spec_digits. repeat split.
      * unfold positional in *. cbn in *. lia.
      * constructor; [lia|constructor].
      * discriminate.
      * rewrite len_cons, len_nil. lia.
      * left. rewrite len_cons, len_nil. lia.
    + cbn [map]. exists (d0 :: r). split; [reflexivity|].
      unfold spec_digits. repeat split.
      * exact Hv.
      * exact Hl.
      * discriminate.
      * lia.
      * right. assert (x <> 0).
        { intros ->. destruct f; cbn [digs] in Ed; [discriminate|]. change (0 =? 0) with true in Ed. discriminate. }
        destruct (digs_head f b x Hb Hx H) as [d1 [r1 [E1 Hd1]]]. rewrite Ed in E1.
        exists d0, r. split; [reflexivity|congruence].
Qed.

Lemma map_d_denotes : forall b x m d ds, b <= 16 ->
  (forall y, y < b -> digit_value (d y) = Some y) ->
  spec_digits b x m ds -> denotes b (map d ds) x.
Proof.
  intros b x m d ds Hb Hd [H1 [H2 [H3 _]]]. exists ds. repeat split.
  - clear H1 H3. induction H2 as [|y ds Hy H IH]; cbn [map]; [reflexivity|].
    rewrite Hd by exact Hy. rewrite IH. reflexivity.
  - exact H2.
  - destruct ds; [congruence|discriminate].
  - exact H1.
Qed.

Lemma to_hex_spec : forall size x c minSize,
  exists s, (forall b, toHex size x b c minSize = Val (addBrackets s b))
    /\ denotes 16 s x /\ min_size s (if minSize =? 0 then size * 2 else minSize)
    /\ Forall (match c with Upper => is_upper_hex | Lower => is_lower_hex end) s.
Proof.
  intros size x c minSize. set (m := if minSize =? 0 then size * 2 else minSize).
  assert (Hd0 : hexDigit c 0 = 48) by (destruct c; reflexivity).
  destruct (padded_digits 16 x m (N.size_nat x) (hexDigit c) ltac:(lia) (size_nat_bound x) Hd0)
    as [ds [Eds Hds]].
  exists (map (hexDigit c) ds). split; [|split; [|split]].
  - intro b. unfold toHex. rewrite digitLoop_digs by (try lia; apply size_nat_bound).
    cbn [obind]. rewrite app_nil_r. change (2^4) with 16. fold m. rewrite Eds. reflexivity.
  - eapply map_d_denotes; [lia| |exact Hds]. intros y Hy. apply hexDigit_value. exact Hy.
  - destruct Hds as [_ [H2 [_ [H4 H5]]]]. unfold min_size.
    replace (len (map (hexDigit c) ds)) with (len ds) by (unfold len; rewrite map_length; reflexivity).
    split; [exact H4|]. destruct H5 as [H5|[d [r [-> Hd]]]]; [left; exact H5|right].
    cbn [map]. apply Forall_cons_iff in H2. destruct H2 as [H2 _].
    unfold hexDigit. destruct (d <? 10) eqn:E; [lia|destruct c; lia].
  - destruct Hds as [_ [H2 _]]. clear -H2. induction H2 as [|d ds Hd H IH]; cbn [map]; constructor; [|exact IH].
    unfold hexDigit, is_upper_hex, is_lower_hex, is_digit. destruct (d <? 10) eqn:E, c; lia.
Qed.

Lemma to_binary_spec : forall size x minSize,
  exists s, (forall b, toBinary size x b minSize = Val (addBrackets s b))
    /\ denotes 2 s x /\ min_size s (if minSize =? 0 then size * 8 else minSize).
Proof.
  intros size x minSize. set (m := if minSize =? 0 then size * 8 else minSize).
  destruct (padded_digits 2 x m (N.size_nat x) binDigit ltac:(lia) (size_nat_bound x) eq_refl)
    as [ds [Eds Hds]].
  exists (map binDigit ds). split; [|split].
  - intro b. unfold toBinary. rewrite digitLoop_digs by (try lia; apply size_nat_bound).
    cbn [obind]. rewrite app_nil_r. change (2^1) with 2. fold m. rewrite Eds. reflexivity.
  - eapply map_d_denotes; [lia| |exact Hds]. intros y Hy. unfold digit_value, binDigit.
    replace ((48 <=? 48 + y) && (48 + y <=? 57)) with true by lia. f_equal. lia.
  - destruct Hds as [_ [H2 [_ [H4 H5]]]]. unfold min_size.
    replace (len (map binDigit ds)) with (len ds) by (unfold len; rewrite map_length; reflexivity).
    split; [exact H4|]. destruct H5 as [H5|[d [r [-> Hd]]]]; [left; exact H5|right].
    cbn [map]. unfold binDigit. lia.
Qed.

(** a numeral denotes one number *)
Lemma denotes_fun : forall b s x y, denotes b s x -> denotes b s y -> x = y.
Proof.
  intros b s x y [d1 [H1 [_ [_ E1]]]] [d2 [H2 [_ [_ E2]]]].
  assert (d1 = d2).
  { rewrite H1 in H2. clear -H2. revert d2 H2.
    induction d1 as [|a d1 IH]; intros [|b d2] H; cbn [map] in H; try discriminate; [reflexivity|].
    inversion H. f_equal. apply IH. assumption. }
  subst. reflexivity.
Qed.

Lemma addBrackets_inj : forall s t b, addBrackets s b = addBrackets t b -> s = t.
Proof.
  intros s t b. destruct b; cbn [addBrackets app]; intro H;
    [injection H; intro H'; apply app_inj_tail in H'; tauto ..|exact H].
Qed.
