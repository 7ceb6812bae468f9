(** Proofs about percentages: the division of doubles and the decimal text. *)
From Verif Require Import BaseFacts StringSpec StringProofs StatsReportModel.
Open Scope N_scope.
Arguments N.mul : simpl never.
Arguments N.add : simpl never.
Arguments N.sub : simpl never.
Arguments N.pow : simpl never.
Arguments N.div : simpl never.
Arguments N.modulo : simpl never.

Lemma round_near : forall n d, 0 < d ->
  2 * (roundDiv n d * d) <= 2 * n + d /\ 2 * n <= 2 * (roundDiv n d * d) + d.
Proof.
  intros n d Hd. pose proof (N.div_mod n d ltac:(lia)) as E. pose proof (N.mod_lt n d ltac:(lia)) as L.
  unfold roundDiv. set (q := n / d) in *. set (r := n mod d) in *. clearbody q r. subst n.
  destruct (N.ltb_spec (2 * r) d); [nia|]. destruct (N.ltb_spec d (2 * r)); [nia|]. destruct (N.even q); nia.
Qed.
Lemma round_exact : forall c d, 0 < d -> roundDiv (c * d) d = c.
Proof.
  intros c d Hd. unfold roundDiv. rewrite N.div_mul, N.mod_mul by lia.
  replace (2 * 0 <? d) with true; [reflexivity|]. symmetry. apply N.ltb_lt. lia.
Qed.

Lemma pow_pos : forall k, 0 < 2 ^ k.
Proof. intro k. apply N.neq_0_lt_0. apply N.pow_nonzero. discriminate. Qed.

(** the number is between 2^52 and 2^53 times its unit *)
Lemma exponent_range : forall n d, 0 < n -> 0 < d ->
  let x := unscale n d (exponent n d) in
  0 < fDen x /\ 2 ^ 52 * fDen x <= fNum x /\ fNum x < 2 ^ 53 * fDen x.
Proof.
  intros n d Hn Hd. pose proof (N.log2_spec n Hn) as [A1 A2]. pose proof (N.log2_spec d Hd) as [B1 B2].
  unfold exponent. set (a := N.log2 n) in *. set (b := N.log2 d) in *. clearbody a b.
  rewrite <- N.add_1_r, N.pow_add_r in A2, B2. change (2 ^ 1) with 2 in *.
  set (k := (Z.of_N a - Z.of_N b)%Z).
  assert (X : forall e, exists u v, 0 < u /\ 0 < v /\ fNum (unscale n d e) = n * u /\ fDen (unscale n d e) = d * v
     /\ (forall p q, Z.of_N p = (Z.of_N q + e)%Z -> 2 ^ q * v = 2 ^ p * u)).
  { intro e. unfold unscale. destruct (Z.leb_spec 0 e) as [He|He]; cbn [fNum fDen].
    - exists 1, (2 ^ Z.to_N e). split; [lia|]. split; [apply pow_pos|]. split; [lia|]. split; [lia|].
      intros p q E. rewrite <- N.pow_add_r, N.mul_1_r. f_equal. lia.
    - exists (2 ^ Z.to_N (- e)), 1. split; [apply pow_pos|]. split; [lia|]. split; [lia|]. split; [lia|].
      intros p q E. rewrite <- N.pow_add_r, N.mul_1_r. f_equal. lia. }
  destruct (X k) as (u & v & Hu & Hv & -> & -> & Huv).
  specialize (Huv a b ltac:(unfold k; lia)).
  destruct (N.leb_spec (d * v) (n * u)) as [C|C].
  - destruct (X (k - 52)%Z) as (u' & v' & Hu' & Hv' & -> & -> & E).
    assert (E1 := E a (b + 52) ltac:(unfold k; lia)). rewrite N.pow_add_r in E1. set (P := 2 ^ 52) in *.
    assert (HP : 2 ^ 53 = 2 * P) by reflexivity. rewrite HP.
    assert (0 < P) by reflexivity. clearbody P. pose proof (pow_pos a). pose proof (pow_pos b).
    set (Aa := 2 ^ a) in *. set (Bb := 2 ^ b) in *. clearbody Aa Bb.
    (* Bb v = Aa u; Bb P v' = Aa u' *)
    split; [nia|]. split.
    + (* P d v' <= n u' ; multiply by Aa: P d v' Aa <= n u' Aa = n Bb P v' <- d Aa <= n Bb <- d v <= n u *)
      assert (d * Aa <= n * Bb). { apply (N.mul_le_mono_pos_r _ _ u Hu). replace (d * Aa * u) with (d * v * Bb) by nia. nia. }
      apply (N.mul_le_mono_pos_r _ _ Aa ltac:(assumption)).
      replace (n * u' * Aa) with (n * (Aa * u')) by lia. rewrite <- E1. nia.
    + apply (N.mul_lt_mono_pos_r Aa _ _ ltac:(assumption)).
      replace (n * u' * Aa) with (n * (Aa * u')) by lia. rewrite <- E1.
      assert (n * Bb < 2 * (Aa * d)) by nia. nia.
  - destruct (X (k - 53)%Z) as (u' & v' & Hu' & Hv' & -> & -> & E).
    assert (E1 := E a (b + 53) ltac:(unfold k; lia)). rewrite N.pow_add_r in E1. set (P := 2 ^ 52) in *.
    assert (HP : 2 ^ 53 = 2 * P) by reflexivity. rewrite HP in *.
    assert (0 < P) by reflexivity. clearbody P. pose proof (pow_pos a). pose proof (pow_pos b).
    set (Aa := 2 ^ a) in *. set (Bb := 2 ^ b) in *. clearbody Aa Bb.
    split; [nia|]. split.
    + apply (N.mul_le_mono_pos_r _ _ Aa ltac:(assumption)).
      replace (n * u' * Aa) with (n * (Aa * u')) by lia. rewrite <- E1.
      assert (Aa * d <= 2 * (n * Bb)) by nia. nia.
    + assert (n * Bb < d * Aa). { apply (N.mul_lt_mono_pos_r u _ _ Hu). replace (d * Aa * u) with (d * v * Bb) by nia. nia. }
      apply (N.mul_lt_mono_pos_r Aa _ _ ltac:(assumption)).
      replace (n * u' * Aa) with (n * (Aa * u')) by lia. rewrite <- E1. nia.
Qed.

(** a number below 2^53 (or 100, for the bound on the unit) has a unit of at most 1 (2^-46) *)
Lemma exponent_small : forall n d, 0 < n -> 0 < d -> n < 2 ^ 53 * d -> (exponent n d <= 0)%Z.
Proof.
  intros n d Hn Hd H. pose proof (exponent_range n d Hn Hd) as (_ & A & _). cbv zeta in A.
  destruct (Z.leb_spec (exponent n d) 0) as [|C]; [assumption|exfalso].
  unfold unscale in A. replace (0 <=? exponent n d)%Z with true in A by lia. cbn [fNum fDen] in A.
  set (e := Z.to_N (exponent n d)) in *. assert (1 <= e) by lia.
  assert (2 <= 2 ^ e). { replace e with (1 + (e - 1)) by lia. rewrite N.pow_add_r. pose proof (pow_pos (e - 1)). change (2 ^ 1) with 2. lia. }
  assert (HP : 2 ^ 53 = 2 * 2 ^ 52) by reflexivity. rewrite HP in H. nia.
Qed.
Lemma exponent_hundred : forall n d, 0 < n -> 0 < d -> n <= 100 * d -> (exponent n d <= -46)%Z.
Proof.
  intros n d Hn Hd H. pose proof (exponent_range n d Hn Hd) as (_ & A & _). cbv zeta in A.
  destruct (Z.leb_spec (exponent n d) (-46)) as [|C]; [assumption|exfalso].
  assert (S : (exponent n d <= 0)%Z). { apply exponent_small; [assumption|assumption|]. assert (100 < 2 ^ 53) by reflexivity. nia. }
  assert (X : exists w, w <= 2 ^ 45 /\ fNum (unscale n d (exponent n d)) = n * w /\ fDen (unscale n d (exponent n d)) = d).
  { unfold unscale. destruct (Z.leb_spec 0 (exponent n d)) as [P|P]; cbn [fNum fDen].
    - exists 1. split; [|split; [lia|]]. { assert (0 < 2 ^ 45) by reflexivity. lia. }
      replace (exponent n d) with 0%Z by lia. change (Z.to_N 0) with 0. rewrite N.pow_0_r. lia.
    - eexists. split; [|split; reflexivity]. apply N.pow_le_mono_r; lia. }
  destruct X as (w & Hw & E1 & E2). rewrite E1, E2 in A.
  assert (E3 : 2 ^ 52 = 128 * 2 ^ 45) by reflexivity. rewrite E3 in A. nia.
Qed.

Lemma nearest_exact : forall c d, 0 < d -> c < 2 ^ 53 ->
  let x := nearestDouble (c * d) d in 0 < fDen x /\ fNum x = c * fDen x.
Proof.
  intros c d Hd Hc. unfold nearestDouble. destruct (N.eqb_spec (c * d) 0) as [E|E].
  - assert (c = 0) by nia. subst c. cbn [fNum fDen]. lia.
  - assert (0 < c * d) by lia.
    assert (S : (exponent (c * d) d <= 0)%Z) by (apply exponent_small; [assumption|assumption|nia]).
    set (e := exponent (c * d) d) in *. clearbody e. unfold unscale, ofScale.
    destruct (Z.leb_spec 0 e) as [P|P]; cbn [fNum fDen].
    + replace e with 0%Z by lia. change (Z.to_N 0) with 0. rewrite N.pow_0_r, !N.mul_1_r.
      rewrite round_exact by assumption. lia.
    + replace (c * d * 2 ^ Z.to_N (- e)) with (c * 2 ^ Z.to_N (- e) * d) by lia.
      rewrite round_exact by assumption. split; [apply pow_pos|reflexivity].
Qed.

(** the quotient is near, in units of at most 2^-46 *)
Lemma nearest_near : forall n d, 0 < d -> n <= 100 * d ->
  let x := nearestDouble n d in
  (n = 0 /\ fNum x = 0 /\ fDen x = 1)
  \/ (2 ^ 46 <= fDen x /\ 2 * (fNum x * d) <= 2 * (n * fDen x) + d /\ 2 * (n * fDen x) <= 2 * (fNum x * d) + d).
Proof.
  intros n d Hd H. unfold nearestDouble. destruct (N.eqb_spec n 0) as [->|E]; [left; auto|right].
  pose proof (exponent_hundred n d ltac:(lia) Hd H) as S. set (e := exponent n d) in *. clearbody e.
  unfold unscale, ofScale. replace (0 <=? e)%Z with false by lia. cbn [fNum fDen].
  split; [apply N.pow_le_mono_r; lia|]. exact (round_near _ d Hd).
Qed.

Lemma percent_nearest : forall P a t, 0 < t -> a <= t -> t < 2 ^ 46 -> t * P < 2 ^ 46 ->
  let x := asPercent a t in
  let v := roundDiv (fNum x * P) (fDen x) in
  0 < fDen x /\ 2 * (v * t) <= 2 * (100 * P * a) + t /\ 2 * (100 * P * a) <= 2 * (v * t) + t.
Proof.
  intros P a t Ht Ha HT HP. unfold asPercent.
  destruct (nearest_exact a 1 ltac:(lia) ltac:(assert (2 ^ 46 < 2 ^ 53) by reflexivity; lia)) as [A1 A2].
  rewrite N.mul_1_r in A1, A2.
  destruct (nearest_exact t 1 ltac:(lia) ltac:(assert (2 ^ 46 < 2 ^ 53) by reflexivity; lia)) as [T1 T2].
  rewrite N.mul_1_r in T1, T2.
  set (xa := nearestDouble a 1) in *. set (xt := nearestDouble t 1) in *.
  destruct (nearest_exact (a * 100) (fDen xa) A1 ltac:(assert (2 ^ 46 * 100 < 2 ^ 53) by reflexivity; lia)) as [P1 P2].
  replace (fNum xa * 100) with (a * 100 * fDen xa) by lia.
  set (xp := nearestDouble (a * 100 * fDen xa) (fDen xa)) in *. rewrite P2, T2.
  clearbody xa xt xp. clear P2 T2 A2.
  set (dp := fDen xp) in *. set (dt := fDen xt) in *. clearbody dp dt.
  pose proof (nearest_near (a * 100 * dp * dt) (dp * (t * dt)) ltac:(nia) ltac:(nia)) as N. cbv zeta in N |- *.
  set (x := nearestDouble (a * 100 * dp * dt) (dp * (t * dt))) in *. clearbody x.
  destruct N as [[N1 [N2 N3]]|[N1 [N2 N3]]].
  - assert (a = 0) by nia. subst a. rewrite N2, N3. split; [lia|].
    replace (roundDiv (0 * P) 1) with 0 by reflexivity. lia.
  - set (D := fDen x) in *. set (m := fNum x) in *. clearbody D m. set (v := roundDiv (m * P) D).
    assert (HD : 0 < D) by (pose proof (pow_pos 46); lia).
    pose proof (round_near (m * P) D HD) as [R1 R2]. fold v in R1, R2. clearbody v.
    assert (M1 : 2 * (m * t) <= 2 * (100 * a * D) + t).
    { apply (N.mul_le_mono_pos_r _ _ (dp * dt)); [nia|]. nia. }
    assert (M2 : 2 * (100 * a * D) <= 2 * (m * t) + t).
    { apply (N.mul_le_mono_pos_r _ _ (dp * dt)); [nia|]. nia. }
    split; [exact HD|]. clear N2 N3 P1 T1 A1.
    (* 2 v t D <= 2 m P t + D t <= P (2 100 a D + t) + D t < (2 100 P a + t + 1) D *)
    assert (L : t * P < D) by lia.
    split.
    + assert (2 * (v * t) < 2 * (100 * P * a) + t + 1); [|lia].
      apply (N.mul_lt_mono_pos_r D _ _ HD).
      assert (2 * (v * t) * D <= 2 * (m * P) * t + D * t) by nia.
      assert (2 * (m * P) * t <= P * (2 * (100 * a * D) + t)) by nia. nia.
    + assert (2 * (100 * P * a) < 2 * (v * t) + t + 1); [|lia].
      apply (N.mul_lt_mono_pos_r D _ _ HD).
      assert (2 * (m * P) * t <= 2 * (v * t) * D + D * t) by nia.
      assert (P * (2 * (100 * a * D)) <= P * (2 * (m * t) + t)) by nia. nia.
Qed.
