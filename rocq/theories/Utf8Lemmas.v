(** The property statements of Utf8Props.v, proved. *)
From Verif Require Import BaseFacts Utf8Model Utf8Spec Utf8Proofs Utf8Validate.

Lemma Forall_and_l : forall A (P Q : A -> Prop) l, Forall (fun x => P x /\ Q x) l ->
  Forall P l /\ Forall Q l.
Proof. intros A P Q l H. induction H as [|x l [H1 H2] H [IH1 IH2]]; split; constructor; assumption. Qed.

Lemma utf32_roundtrip : forall cs,
  Forall (fun c => scalar c /\ c <> 0) cs ->
  toUtf8 cs = Val (flat_map enc cs) /\ fromUtf8 (flat_map enc cs) 0 = Val cs.
Proof.
  intros cs H. apply Forall_and_l in H. destruct H as [Hs Hz].
  rewrite toUtf8_spec. rewrite encs_or_repl_scalar by exact Hs.
  split; [reflexivity|].
  rewrite fromUtf8_decode by (apply encs_bytes; exact Hs).
  rewrite upto_nul_id by (apply encs_no_nul; exact Hz).
  rewrite decode_encs by exact Hs. reflexivity.
Qed.

Lemma lossless_iff : forall s,
  bytes_ok s -> no_nul s ->
  exists cs t, fromUtf8 s 0 = Val cs /\ toUtf8 cs = Val t /\ (t = s <-> utf8 s).
Proof.
  intros s Hok Hnn. exists (decode s), (flat_map enc (decode s)).
  rewrite fromUtf8_decode by exact Hok. rewrite upto_nul_id by exact Hnn.
  split; [reflexivity|].
  destruct (decode_props (List.length s) s (le_n _) Hok Hnn) as [Hs _].
  rewrite toUtf8_spec, encs_or_repl_scalar by exact Hs.
  split; [reflexivity|]. split.
  - intros <-. apply utf8_iff_enc. exists (decode s). split; [exact Hs|reflexivity].
  - intro H. apply utf8_iff_enc in H. destruct H as [cs [Hcs ->]].
    rewrite decode_encs by exact Hcs. reflexivity.
Qed.

Lemma Forall_firstn : forall A (P : A -> Prop) n l, Forall P l -> Forall P (firstn n l).
Proof.
  intros A P n l H. revert n. induction H as [|x l Hx H IH]; intro n.
  - rewrite firstn_nil. constructor.
  - destruct n; cbn [firstn]; constructor; [exact Hx|apply IH].
Qed.

Lemma decoder_total : forall s n,
  bytes_ok s ->
  exists cs, fromUtf8 s n = Val cs
    /\ (List.length cs <= List.length s)%nat
    /\ Forall scalar cs /\ Forall (fun c => c <> 0) cs.
Proof.
  intros s n Hok. eexists. split; [apply fromUtf8_decode; exact Hok|].
  pose proof (upto_nul_no_nul s) as Hnn. pose proof (upto_nul_ok s Hok) as Hok'.
  pose proof (upto_nul_len s) as Hl.
  destruct (decode_props (List.length (upto_nul s)) (upto_nul s) (le_n _) Hok' Hnn)
    as [H1 [H2 [H3 _]]].
  destruct (n =? 0).
  - repeat split; [lia|exact H1|exact H2].
  - repeat split.
    + rewrite firstn_length. lia.
    + apply Forall_firstn; exact H1.
    + apply Forall_firstn; exact H2.
Qed.

Lemma encoder_well_formed : forall cs,
  exists s, toUtf8 cs = Val s /\ utf8 s
    /\ exists parts, s = concat parts
       /\ Forall2 (fun c p => (scalar c -> p = enc c)
                              /\ (~ scalar c -> p = [0xEF; 0xBF; 0xBD])) cs parts.
Proof.
  intro cs. exists (flat_map enc_or_repl cs). split; [apply toUtf8_spec|]. split.
  - induction cs as [|c cs IH]; cbn [flat_map]; [constructor|].
    apply utf8_app; [apply enc_or_repl_char|exact IH].
  - exists (map enc_or_repl cs). split; [apply flat_map_concat_map|].
    induction cs as [|c cs IH]; cbn [map]; constructor; [|exact IH].
    split; [apply enc_or_repl_scalar|apply enc_or_repl_not].
Qed.

Lemma isValidMB_iff : forall s one, bytes_ok s ->
  isValidMBUtf8 s one = Val true <-> validateMBUtf8 s one = Val MBValid.
Proof.
  intros s one Hok. unfold isValidMBUtf8.
  destruct (validateMBUtf8 s one) as [r| | |] eqn:E; cbn [obind]; try (split; discriminate).
  destruct r; split; try discriminate; reflexivity.
Qed.

Lemma valid_multi_byte : forall s, bytes_ok s ->
  (isValidMBUtf8 s false = Val true <-> starts_with_mb (upto_nul s))
  /\ (isValidMBUtf8 s true = Val true
      <-> utf8_char (upto_nul s) /\ multi_byte (upto_nul s))
  /\ (forall one, validateMBUtf8 s one = Val NotMultiByte <->
        match upto_nul s with [] => True | b :: _ => b < 0x80 end).
Proof.
  intros s Hok. rewrite !isValidMB_iff by exact Hok.
  split; [apply valid_mb; exact Hok|]. split; [apply valid_mb_one; exact Hok|].
  intro one. apply not_mb. exact Hok.
Qed.

Lemma char_too_long_refuted :
  exists s b r, bytes_ok s /\ upto_nul s = b :: r /\ 0xF8 <= b
    /\ validateUtf8 s false = Val MissingBytes.
Proof.
  exists [0xF8], 0xF8, []. repeat split; [repeat constructor|lia].
Qed.

Lemma utf8_char_first : forall c, utf8_char c -> exists b r, c = b :: r.
Proof. intros c H. inversion H; eauto. Qed.

Lemma utf8_inv : forall s, utf8 s -> s = [] \/ exists c r, s = c ++ r /\ utf8_char c /\ utf8 r.
Proof. intros s H. inversion H; [left; reflexivity|right; eauto]. Qed.

Lemma ascii_first_char : forall b r c q, b < 0x80 -> b :: r = c ++ q -> utf8_char c -> c = [b].
Proof.
  intros b r c q Hb E Hc.
  inversion Hc; subst c; cbn [app] in E; inversion E; subst; unfold between in *;
    first [reflexivity|lia].
Qed.

Lemma is_valid_utf8_refuted :
  (exists s, bytes_ok s /\ no_nul s /\ isValidUtf8 s false = Val true /\ ~ utf8 s)
  /\ (exists s, bytes_ok s /\ no_nul s /\ isValidUtf8 s true = Val true /\ ~ utf8_char s).
Proof.
  split.
  - exists [0x61; 0xFF]. split; [repeat constructor|]. split; [repeat constructor; discriminate|].
    split; [vm_compute; reflexivity|]. intro H. apply utf8_inv in H.
    destruct H as [H|[c [r [E [Hc Hr]]]]]; [discriminate|].
    assert (c = [0x61]) by (eapply ascii_first_char; [|exact E|exact Hc]; lia). subst c.
    cbn [app] in E. inversion E; subst r. apply utf8_inv in Hr.
    destruct Hr as [Hr|[c [r [E2 [Hc2 Hr2]]]]]; [discriminate|].
    inversion Hc2; subst c; cbn [app] in E2; inversion E2; subst; unfold between in *; lia.
  - exists [0x61; 0x62]. split; [repeat constructor|]. split; [repeat constructor; discriminate|].
    split; [vm_compute; reflexivity|]. intro H.
    inversion H; subst; unfold between in *; lia.
Qed.

Lemma is_valid_utf8_first : forall s, bytes_ok s -> no_nul s ->
  (utf8 s -> isValidUtf8 s false = Val true)
  /\ (isValidUtf8 s false = Val true
      <-> s = [] \/ exists c r, s = c ++ r /\ utf8_char c)
  /\ (match s with [] => False | b :: _ => 0x80 <= b end ->
      (isValidUtf8 s true = Val true <-> utf8_char s)).
Proof.
  intros s Hok Hnn.
  assert (M : isValidUtf8 s false = Val true
      <-> s = [] \/ exists c r, s = c ++ r /\ utf8_char c).
  { rewrite valid_utf8 by exact Hok. rewrite not_mb by exact Hok. rewrite valid_mb by exact Hok.
    rewrite upto_nul_id by exact Hnn. split.
    - intros [H|[c [r [E [Hc _]]]]].
      + destruct s as [|b r]; [left; reflexivity|]. right. exists [b], r.
        split; [reflexivity|]. constructor. unfold between. lia.
      + right. exists c, r. split; assumption.
    - intros [->|[c [r [E Hc]]]]; [left; exact I|].
      destruct (le_lt_dec 2 (List.length c)) as [Hl|Hl].
      + right. exists c, r. repeat split; [exact E|exact Hc|exact Hl].
      + left. inversion Hc; subst c; cbn [List.length] in Hl; try lia.
        subst s. cbn [app]. unfold between in *. lia. }
  split; [|split; [exact M|]].
  - intro H. apply M. apply utf8_inv in H. destruct H as [H|[c [r [E [Hc _]]]]]; [left; exact H|].
    right. exists c, r. split; assumption.
  - intro Hb. rewrite valid_utf8 by exact Hok. rewrite not_mb by exact Hok.
    rewrite valid_mb_one by exact Hok. rewrite upto_nul_id by exact Hnn.
    destruct s as [|b r]; [contradiction|]. split.
    + intros [H|H]; [lia|tauto].
    + intro H. right. split; [exact H|]. unfold multi_byte.
      inversion H; subst; unfold between in *; cbn [List.length]; lia.
Qed.

Lemma bounded_prefix : forall s n cs, bytes_ok s ->
  fromUtf8 s 0 = Val cs ->
  (n <> 0 -> fromUtf8 s n = Val (firstn (N.to_nat n) cs))
  /\ getCode s = Val (match cs with [] => 0 | c :: _ => c end).
Proof.
  intros s n cs Hok H. rewrite fromUtf8_decode in H by exact Hok.
  change (0 =? 0) with true in H. inversion H as [H1]. clear H. split.
  - intro Hn. rewrite fromUtf8_decode by exact Hok. replace (n =? 0) with false by lia.
    reflexivity.
  - rewrite getCode_decode by exact Hok. destruct (decode (upto_nul s)); reflexivity.
Qed.

Lemma upto_nul_app : forall a b, no_nul a -> upto_nul (a ++ b) = a ++ upto_nul b.
Proof.
  intros a b H. induction H as [|x a Hx H IH]; [reflexivity|].
  cbn [app upto_nul]. replace (x =? 0) with false by lia. rewrite IH. reflexivity.
Qed.

Lemma decoder_resync : forall a b x y,
  bytes_ok a -> no_nul a -> bytes_ok b -> at_boundary b ->
  fromUtf8 a 0 = Val x -> fromUtf8 b 0 = Val y ->
  fromUtf8 (a ++ b) 0 = Val (x ++ y).
Proof.
  intros a b x y Ha Hn Hb Hbd Hx Hy.
  rewrite fromUtf8_decode in Hx, Hy by assumption.
  rewrite fromUtf8_decode by (apply bytes_ok_app; split; assumption).
  change (0 =? 0) with true in *. inversion Hx as [Hx']. inversion Hy as [Hy']. clear Hx Hy.
  rewrite upto_nul_app by exact Hn. rewrite (upto_nul_id a Hn) in *. f_equal.
  apply decode_app with (n := List.length a); [lia|].
  destruct b as [|b0 br]; [exact I|]. cbn [at_boundary upto_nul] in *.
  destruct (b0 =? 0) eqn:E; [exact I|]. cbn [starts_char]. rewrite <- continuation_is_cont. exact Hbd.
Qed.
