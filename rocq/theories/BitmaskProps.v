(** C138: operators of a bitmask enum are those of sets of flags. *)
From Verif Require Import BaseFacts BitmaskModel BitmaskSpec.
Open Scope N_scope.

Lemma enum_bit : forall w z i, N.testbit (toEnum w z) i = (i <? w) && Z.testbit z (Z.of_N i).
Proof.
  intros w z i. unfold toEnum. assert (P : (0 < 2 ^ Z.of_N w)%Z) by (apply Z.pow_pos_nonneg; lia). pose proof (Z.mod_pos_bound z _ P) as M.
  rewrite <- (Z2N.id (z mod 2 ^ Z.of_N w)) in M by lia. rewrite <- Z.testbit_of_N. rewrite Z2N.id by (apply Z.mod_pos_bound; exact P).
  destruct (i <? w) eqn:E.
  - apply Z.mod_pow2_bits_low. lia.
  - apply Z.mod_pow2_bits_high. lia.
Qed.
Lemma enum_fits : forall w z, fits w (toEnum w z).
Proof.
  intros w z. unfold fits, toEnum. assert (P : (0 < 2 ^ Z.of_N w)%Z) by (apply Z.pow_pos_nonneg; lia). pose proof (Z.mod_pos_bound z _ P) as M.
  apply N2Z.inj_lt. rewrite Z2N.id by lia. rewrite N2Z.inj_pow. change (Z.of_N 2) with 2%Z. lia.
Qed.
Lemma fits_bit : forall w x i, fits w x -> w <= i -> N.testbit x i = false.
Proof.
  intros w x i F H. destruct (N.eq_dec x 0) as [->|Hx]; [apply N.bits_0|]. apply N.bits_above_log2. apply N.log2_lt_pow2; [lia|]. unfold fits in F. apply N.lt_le_trans with (2 ^ w); [exact F|]. apply N.pow_le_mono_r; lia.
Qed.
Lemma and_bit : forall w x y i, fits w x -> N.testbit (maskAnd w x y) i = N.testbit x i && N.testbit y i.
Proof. intros w x y i F. unfold maskAnd. rewrite enum_bit, Z.land_spec, !Z.testbit_of_N. destruct (i <? w) eqn:E; [reflexivity|]. rewrite (fits_bit w x i F) by lia. reflexivity. Qed.
Lemma or_bit : forall w x y i, fits w x -> fits w y -> N.testbit (maskOr w x y) i = N.testbit x i || N.testbit y i.
Proof. intros w x y i F G. unfold maskOr. rewrite enum_bit, Z.lor_spec, !Z.testbit_of_N. destruct (i <? w) eqn:E; [reflexivity|]. rewrite (fits_bit w x i F), (fits_bit w y i G) by lia. reflexivity. Qed.
Lemma xor_bit : forall w x y i, fits w x -> fits w y -> N.testbit (maskXor w x y) i = xorb (N.testbit x i) (N.testbit y i).
Proof. intros w x y i F G. unfold maskXor. rewrite enum_bit, Z.lxor_spec, !Z.testbit_of_N. destruct (i <? w) eqn:E; [reflexivity|]. rewrite (fits_bit w x i F), (fits_bit w y i G) by lia. reflexivity. Qed.
Lemma not_bit : forall w x i, N.testbit (maskNot w x) i = (i <? w) && negb (N.testbit x i).
Proof. intros w x i. unfold maskNot. rewrite enum_bit. destruct (i <? w); [|reflexivity]. cbn [andb]. rewrite Z.lnot_spec by lia. rewrite Z.testbit_of_N. reflexivity. Qed.

(** for values of a type of any size *)
Theorem C138_sets : forall w x y, fits w x -> fits w y ->
  Forall (fits w) [maskAnd w x y; maskOr w x y; maskXor w x y; maskNot w x]
  /\ (forall i, has (maskAnd w x y) i <-> has x i /\ has y i) /\ (forall i, has (maskOr w x y) i <-> has x i \/ has y i)
  /\ (forall i, has (maskXor w x y) i <-> (has x i <-> ~ has y i)) /\ (forall i, has (maskNot w x) i <-> i < w /\ ~ has x i)
  /\ (maskHasValue x = true <-> exists i, has x i) /\ (maskIsEmpty x = true <-> forall i, ~ has x i)
  /\ (x = y <-> forall i, i < w -> (has x i <-> has y i)).
Proof.
  intros w x y F G. unfold has. split; [repeat (apply Forall_cons; [apply enum_fits|]); apply Forall_nil|].
  split; [intro i; rewrite and_bit by exact F; destruct (N.testbit x i), (N.testbit y i); cbn; intuition discriminate|].
  split; [intro i; rewrite or_bit by assumption; destruct (N.testbit x i), (N.testbit y i); cbn; intuition discriminate|].
  split; [intro i; rewrite xor_bit by assumption; destruct (N.testbit x i), (N.testbit y i); cbn; intuition discriminate|].
  split; [intro i; rewrite not_bit; destruct (i <? w) eqn:E, (N.testbit x i); cbn; split; try (intro K; discriminate K); try (intros [K1 K2]; (lia || (destruct (K2 eq_refl)) || reflexivity)); intros _; split; [lia|discriminate]|].
  assert (Z0 : (forall i, ~ N.testbit x i = true) <-> x = 0).
  { split; [|intros -> i; rewrite N.bits_0; discriminate]. intro H. apply N.bits_inj_0. intro i. destruct (N.testbit x i) eqn:E; [destruct (H i E)|reflexivity]. }
  split; [|split].
  - unfold maskHasValue. destruct (x =? 0) eqn:E; cbn [negb]; split.
    + discriminate.
    + intros [i H]. exfalso. apply (proj2 Z0) with i; [lia|exact H].
    + intros _. assert (Hx : x <> 0) by lia. exists (N.log2 x). apply N.bit_log2. exact Hx.
    + reflexivity.
  - unfold maskIsEmpty, maskHasValue. rewrite Z0. destruct (x =? 0) eqn:E; cbn; split; (lia || discriminate || reflexivity).
  - split; [intros -> i _; reflexivity|]. intro H. apply N.bits_inj. intro i. destruct (N.lt_ge_cases i w) as [K|K].
    + specialize (H i K). destruct (N.testbit x i), (N.testbit y i); try reflexivity; exfalso; (assert (false = true) by (apply H; reflexivity) || idtac); try discriminate; destruct H as [H1 H2]; (specialize (H1 eq_refl) || specialize (H2 eq_refl)); discriminate.
    + rewrite (fits_bit w x i F K), (fits_bit w y i G K). reflexivity.
Qed.
Print Assumptions C138_sets.
(** after any history of assignments a flag is set just if the history says so, and testing it tells *)
Theorem C138_history : forall w x ops, fits w x -> Forall (fun op => fits w (operand op)) ops ->
  fits w (maskRun w x ops)
  /\ (forall i, N.testbit (maskRun w x ops) i = last_said ops i (N.testbit x i))
  /\ (forall i, maskHasValue (maskAnd w (maskRun w x ops) (flag i)) = last_said ops i (N.testbit x i)).
Proof.
  intros w x ops F O.
  assert (P : forall ops x, fits w x -> Forall (fun op => fits w (operand op)) ops -> fits w (maskRun w x ops) /\ forall i, N.testbit (maskRun w x ops) i = last_said ops i (N.testbit x i)).
  { clear. induction ops as [|op r IH]; intros x F O; [split; [exact F|reflexivity]|]. inversion O as [|? ? O1 O2]; subst. unfold maskRun. cbn [fold_left last_said]. fold (maskRun w (maskStep w x op) r).
    assert (F2 : fits w (maskStep w x op)) by (destruct op; cbn [maskStep]; try apply enum_fits; exact O1).
    destruct (IH _ F2 O2) as [IH1 IH2]. split; [exact IH1|]. intro i. rewrite IH2. f_equal. destruct op as [f|f|f|f|f]; cbn [maskStep operand] in *.
    - apply or_bit; assumption.
    - rewrite and_bit by exact F. rewrite not_bit. destruct (i <? w) eqn:E; [reflexivity|]. rewrite (fits_bit w x i F) by lia. reflexivity.
    - rewrite xor_bit by assumption. destruct (N.testbit x i), (N.testbit f i); reflexivity.
    - apply and_bit. exact F.
    - reflexivity. }
  destruct (P ops x F O) as [P1 P2]. split; [exact P1|]. split; [exact P2|]. intro i. rewrite <- P2. unfold maskHasValue.
  assert (Bt : forall j, N.testbit (maskAnd w (maskRun w x ops) (flag i)) j = N.testbit (maskRun w x ops) j && (i =? j)) by (intro j; rewrite and_bit by exact P1; unfold flag; rewrite N.pow2_bits_eqb; reflexivity).
  destruct (maskAnd w (maskRun w x ops) (flag i) =? 0) eqn:E; cbn [negb].
  - apply N.eqb_eq in E. specialize (Bt i). rewrite E, N.bits_0, N.eqb_refl, Bool.andb_true_r in Bt. exact Bt.
  - assert (Hx : maskAnd w (maskRun w x ops) (flag i) <> 0) by lia. pose proof (N.bit_log2 _ Hx) as K. rewrite Bt in K. apply Bool.andb_true_iff in K. destruct K as [K1 K2]. apply N.eqb_eq in K2. rewrite K2. symmetry. exact K1.
Qed.
Print Assumptions C138_history.
(** 8 bits: the complement of 5 is 250; setting 8 and clearing 1 *)
Example C138_case : fits 8 5 /\ maskNot 8 5 = 250 /\ maskNot 32 0 = 0xFFFFFFFF /\ maskRun 8 5 [SetFlag 8; ClearFlag 1; ToggleFlag 6] = 10
  /\ Forall (fun op => fits 8 (operand op)) [SetFlag 8; ClearFlag 1; ToggleFlag 6] /\ last_said [SetFlag 8; ClearFlag 1; ToggleFlag 6] 3 false = true.
Proof. split; [reflexivity|]. do 3 (split; [vm_compute; reflexivity|]). split; [repeat (apply Forall_cons; [reflexivity|]); apply Forall_nil|reflexivity]. Qed.
