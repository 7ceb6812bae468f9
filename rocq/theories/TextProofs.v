(** Further lemmas about strings, numbers in columns and names. *)
From Coq Require Import ListDec.
From Verif Require Import BaseFacts Utf8Proofs BlockSpec BlockProofs StringModel StringSpec StringProofs.
From Verif Require Export TextSpec.
From Verif Require Import ColumnFileModel ColumnFileSpec ColumnFileLemmas EnumModel EnumSpec EnumProofs IdsModel IdsProofs.
Open Scope N_scope.
Arguments N.mul : simpl never.
Arguments N.add : simpl never.
Arguments N.sub : simpl never.
Arguments N.div : simpl never.
Arguments N.modulo : simpl never.
Arguments N.pow : simpl never.

(** ** toUnicode of a text *)
Lemma unicode_loop : forall cs acc, exists us, Forall2 shown_code us cs
  /\ toUnicode_loop cs acc = Val (match us with [] => acc | _ => (match acc with [] => [] | _ => acc ++ [32] end) ++ join 32 us end).
Proof.
  induction cs as [|c cs IH]; intro acc.
  - exists []. split; [constructor|]. reflexivity.
  - cbn [toUnicode_loop]. unfold toUnicode. destruct (to_hex_spec 4 c Upper 4) as [u [H1 [H2 [H3 H4]]]].
    change (if 4 =? 0 then 4 * 2 else 4) with 4 in H3. rewrite H1. cbn [obind]. change (addBrackets u NoBrackets) with u.
    set (pre := match acc with [] => [] | _ => acc ++ [32] end).
    destruct (IH (pre ++ u)) as [us [F E]]. exists (u :: us). split; [constructor; [split; [exact H2|split; [exact H4|exact H3]]|exact F]|].
    rewrite E. f_equal. destruct us as [|v us]; [reflexivity|].
    assert (K : u <> []). { destruct H2 as [ds [_ [_ [K _]]]]. exact K. }
    destruct (pre ++ u) as [|x q] eqn:Q; [destruct pre; [cbn in Q; contradiction|discriminate]|]. rewrite <- Q.
    cbn [join]. rewrite <- !app_assoc. reflexivity.
Qed.
Lemma unicode_text : forall cs b, chars cs -> exists us, Forall2 shown_code us cs
  /\ toUnicode_string (text cs) b = Val (addBrackets (join 32 us) b).
Proof.
  intros cs b Hc. pose proof (chars_scalar cs Hc) as Hs. unfold toUnicode_string.
  rewrite fromUtf8_decode by (apply encs_bytes; exact Hs).
  assert (Hn : no_nul (text cs)).
  { unfold text. clear Hs. induction Hc as [|c cs [Hc1 Hc2] _ IH]; [constructor|]. cbn [flat_map]. apply no_nul_app.
    split; [apply enc_no_nul; assumption|exact IH]. }
  rewrite upto_nul_id by exact Hn. cbn [obind]. unfold text. rewrite decode_encs by exact Hs.
  unfold toUnicode_codes. destruct (unicode_loop cs []) as [us [F E]]. exists us. split; [exact F|]. change (if 0 =? 0 then cs else _) with cs. rewrite E. cbn [obind]. destruct us; reflexivity.
Qed.

(** ** Characters *)
Lemma toChar_spec : forall x neg,
  let ok := ((if neg : bool then -128 else 0) <= x <= 255)%Z in
  (ok -> exists b, toChar_int x neg = Val b /\ b < 256 /\ (Z.of_N b = x \/ Z.of_N b = x + 256)%Z)
  /\ (~ ok -> toChar_int x neg = Throw RangeError).
Proof.
  intros x neg ok. unfold ok, toChar_int. destruct neg; cbn [andb negb].
  - destruct (x <? -128)%Z eqn:E1; [split; [lia|reflexivity]|]. destruct (255 <? x)%Z eqn:E2; [split; [lia|reflexivity]|].
    split; [|lia]. intros _. eexists. split; [reflexivity|].
    pose proof (Z.mod_pos_bound x 256 ltac:(lia)). split; [lia|].
    destruct (Z.ltb_spec x 0).
    + right. rewrite Z2N.id by lia. rewrite <- (Z_mod_plus_full x 1 256), Z.mod_small by lia. lia.
    + left. rewrite Z2N.id by lia. apply Z.mod_small. lia.
  - destruct (x <? 0)%Z eqn:E1; [split; [lia|reflexivity]|]. destruct (255 <? x)%Z eqn:E2; [split; [lia|reflexivity]|].
    split; [|lia]. intros _. eexists. split; [reflexivity|]. rewrite Z.mod_small by lia. split; [lia|]. left. lia.
Qed.
Lemma single_all : forall s, isAllSingleByte s = true <-> Forall (fun b => b < 128) s.
Proof.
  intro s. unfold isAllSingleByte. rewrite forallb_forall, Forall_forall. unfold isSingleByteChar. split; intros H x Hx; specialize (H x Hx); lia.
Qed.
Lemma single_any : forall s, isAnySingleByte s = true <-> exists b, In b s /\ b < 128.
Proof.
  intro s. unfold isAnySingleByte. rewrite existsb_exists. unfold isSingleByteChar. split; intros [x [A B]]; exists x; split; try assumption; lia.
Qed.
Lemma single_one : forall s one, isSingleByte s one = true <-> exists b r, s = b :: r /\ b < 128 /\ (one = true -> r = []).
Proof.
  intros s one. unfold isSingleByte, isSingleByteChar. destruct s as [|b r].
  - split; [destruct one; discriminate|intros [b [r [E _]]]; discriminate].
  - rewrite len_cons. destruct one.
    + split.
      * intro H. apply andb_true_iff in H. destruct H as [H1 H2]. exists b, r. split; [reflexivity|]. split; [lia|]. intros _.
        destruct r as [|y r]; [reflexivity|]. rewrite len_cons in H1. lia.
      * intros [x [q [[= -> ->] [H K]]]]. rewrite (K eq_refl). cbn. lia.
    + replace (negb (1 + len r =? 0)) with true by lia. cbn [andb]. split.
      * intro H. exists b, r. split; [reflexivity|]. split; [lia|discriminate].
      * intros [x [q [[= -> ->] [H _]]]]. lia.
Qed.
Lemma tolower_spec : forall c, lowered c (c_tolower c).
Proof. intro c. unfold lowered, c_tolower, c_isupper, upper_letter. destruct ((65 <=? c) && (c <=? 90)) eqn:E; lia. Qed.
Lemma toupper_spec : forall c, raised c (c_toupper c).
Proof. intro c. unfold raised, c_toupper, c_islower, lower_letter. destruct ((97 <=? c) && (c <=? 122)) eqn:E; lia. Qed.
Lemma map_spec : forall (R : N -> N -> Prop) f s, (forall c, R c (f c)) -> Forall2 R s (map f s).
Proof. intros R f s H. induction s; cbn [map]; constructor; auto. Qed.
(** letters of a text change, nothing else *)
Lemma map_text : forall f cs, (forall c, c < 128 -> f c < 128) -> (forall c, 128 <= c -> f c = c) -> Forall scalar cs ->
  map f (text cs) = text (map f cs).
Proof.
  intros f cs H1 H2 Hs. unfold text. induction Hs as [|c cs Hc _ IH]; [reflexivity|]. cbn [flat_map map]. rewrite map_app, IH. f_equal.
  destruct (N.ltb_spec c 128) as [L|L].
  - unfold enc. replace (c <? 128) with true by lia. pose proof (H1 c L). replace (f c <? 128) with true by lia. reflexivity.
  - rewrite (H2 c L). unfold enc. replace (c <? 128) with false by lia.
    destruct (c <? 2048); [|destruct (c <? 65536)]; cbn [map]; rewrite !H2 by lia; reflexivity.
Qed.
Lemma lower_text : forall cs, Forall scalar cs -> toLower (text cs) = text (map c_tolower cs).
Proof.
  intros cs H. apply map_text; [| |exact H]; intros c L; pose proof (tolower_spec c) as K; unfold lowered, upper_letter in K; lia.
Qed.
Lemma upper_text : forall cs, Forall scalar cs -> toUpper (text cs) = text (map c_toupper cs).
Proof.
  intros cs H. apply map_text; [| |exact H]; intros c L; pose proof (toupper_spec c) as K; unfold raised, lower_letter in K; lia.
Qed.
Lemma first_lower : forall s, (s = [] /\ firstLower s = []) \/ (exists c d r, s = c :: r /\ lowered c d /\ firstLower s = d :: r).
Proof.
  intros [|c r]; [left; auto|]. right. exists c, (c_tolower c), r. split; [reflexivity|]. split; [apply tolower_spec|].
  cbn [firstLower]. unfold c_tolower. destruct (c_isupper c); reflexivity.
Qed.
Lemma first_upper : forall s, (s = [] /\ firstUpper s = []) \/ (exists c d r, s = c :: r /\ raised c d /\ firstUpper s = d :: r).
Proof.
  intros [|c r]; [left; auto|]. right. exists c, (c_toupper c), r. split; [reflexivity|]. split; [apply toupper_spec|].
  cbn [firstUpper]. unfold c_toupper. destruct (c_islower c); reflexivity.
Qed.

(** ** Columns *)
Lemma typed_columns : forall f c s, getField f c = Val s ->
  (forall v, getU8 f c = Val v <-> loose_number s v /\ v < 256)
  /\ ((forall v, ~ (loose_number s v /\ v < 256)) -> getU8 f c = Throw DomainError)
  /\ (forall v, getU16 f c = Val v <-> loose_number s v /\ v < 65536)
  /\ ((forall v, ~ (loose_number s v /\ v < 65536)) -> getU16 f c = Throw DomainError)
  /\ (forall max, getU64 f c max = processU64 s max)
  /\ (forall max v, getOptU64 f c max = Val (Some v) <-> s <> [] /\ getU64 f c max = Val v)
  /\ (forall max, getOptU64 f c max = Val None <-> s = [])
  /\ getBool f c = convBool s /\ getChar32 f c = convChar32 s.
Proof.
  intros f c s E. unfold getU8, getU16, getOptU64, getBool, getChar32, getU64. rewrite E. cbn [obind].
  assert (Hu : forall max, 0 < max -> forall v, (processU64 s max = Val v <-> loose_number s v /\ v <= max)).
  { intros max Hm v. rewrite (proj1 (processU64_iff s max)). split; intros [A B]; (split; [exact A|]); lia. }
  assert (Ht : forall max, (forall v, processU64 s max <> Val v) -> processU64 s max = Throw DomainError) by (intro max; apply processU64_iff).
  assert (NV : forall max, 0 < max -> (forall v, ~ (loose_number s v /\ v <= max)) -> processU64 s max = Throw DomainError).
  { intros max Hm H. apply Ht. intros v K. apply Hu in K; [|exact Hm]. exact (H v K). }
  change (2^8 - 1) with 255. change (2^16 - 1) with 65535.
  split; [|split; [|split; [|split; [|split; [|split; [|split; [|split]]]]]]]; try reflexivity.
  - intro v. split.
    + destruct (processU64 s 255) as [x|y| |] eqn:P; cbn [obind]; try discriminate. intros [= <-]. apply Hu in P; [|lia]. destruct P as [P1 P2].
      unfold u8. rewrite N.mod_small by (change (2^8) with 256; lia). split; [exact P1|lia].
    + intros [A B]. assert (P : processU64 s 255 = Val v) by (apply Hu; [lia|split; [exact A|lia]]). rewrite P. cbn [obind]. unfold u8.
      rewrite N.mod_small by (change (2^8) with 256; lia). reflexivity.
  - intro H. rewrite NV; [reflexivity|lia|]. intros v [A B]. apply (H v). split; [exact A|lia].
  - intro v. split.
    + destruct (processU64 s 65535) as [x|y| |] eqn:P; cbn [obind]; try discriminate. intros [= <-]. apply Hu in P; [|lia]. destruct P as [P1 P2].
      unfold u16. rewrite N.mod_small by (change (2^16) with 65536; lia). split; [exact P1|lia].
    + intros [A B]. assert (P : processU64 s 65535 = Val v) by (apply Hu; [lia|split; [exact A|lia]]). rewrite P. cbn [obind]. unfold u16.
      rewrite N.mod_small by (change (2^16) with 65536; lia). reflexivity.
  - intro H. rewrite NV; [reflexivity|lia|]. intros v [A B]. apply (H v). split; [exact A|lia].
  - intros max v. destruct s as [|b r]; [split; [discriminate|intros [K _]; congruence]|].
    destruct (processU64 (b :: r) max); cbn [obind]; split; try discriminate; try (intros [_ [= ->]]; reflexivity);
      try (intros [= ->]; split; [discriminate|reflexivity]); intros [_ K]; discriminate.
  - intros max. destruct s as [|b r]; [split; reflexivity|]. destruct (processU64 (b :: r) max); cbn [obind]; split; discriminate.
Qed.

(** ** Names *)
Lemma from_exact : forall wn names e, createEnum false wn names = Val e ->
  enumNames e = names /\ (forall s x, enumFromString e s = Val x <-> named names s x)
  /\ (forall s, (exists x, named names s x) \/ enumFromString e s = Throw DomainError).
Proof.
  intros wn names e E. destruct (create_spec false wn names) as [H1 H2].
  assert (G : good_names wn names).
  { assert (D : good_names wn names \/ ~ good_names wn names).
    { unfold good_names. destruct (ListDec.NoDup_dec bytes_eq_dec names) as [A|A]; [|tauto].
      destruct (in_dec bytes_eq_dec (b_ "None") names) as [B|B]; [destruct wn; [right; tauto|left; split; [exact A|discriminate]]|tauto]. }
    destruct D as [D|D]; [exact D|]. rewrite H2 in E by (right; exact D). discriminate. }
  destruct (H1 eq_refl G) as [e' [E' [N' F]]]. rewrite E in E'. injection E' as <-. split; [exact N'|]. split; [exact F|].
  intro s. destruct (in_dec bytes_eq_dec s names) as [I|I].
  - left. apply In_nth_error in I. destruct I as [n Hn]. exists (N.of_nat n). unfold named. rewrite Nat2N.id. exact Hn.
  - right. unfold enumFromString in *. destruct (findName s (nameMap e)) as [x|] eqn:K; [|reflexivity]. exfalso. apply I.
    specialize (F s x). rewrite K in F. apply (nth_error_In names (N.to_nat x)). apply F. reflexivity.
Qed.
Lemma lenient_names : forall wn names e, createEnum false wn names = Val e -> forall s,
  (forall x, fromStringAllowEmpty e s = Val x <-> (s = [] /\ x = len names) \/ (s <> [] /\ named names s x))
  /\ (forall x, fromStringAllowNone e s = Val x <-> (s = b_ "None" /\ x = len names) \/ (s <> b_ "None" /\ named names s x))
  /\ (forall x, fromStringAllowEmptyAndNone e s = Val x <->
        ((s = [] \/ s = b_ "None") /\ x = len names) \/ (s <> [] /\ s <> b_ "None" /\ named names s x))
  /\ (s <> [] -> s <> b_ "None" -> (forall x, ~ named names s x) ->
        fromStringAllowEmpty e s = Throw DomainError /\ fromStringAllowNone e s = Throw DomainError
        /\ fromStringAllowEmptyAndNone e s = Throw DomainError).
Proof.
  intros wn names e E s. destruct (from_exact wn names e E) as [N' [F T]].
  unfold fromStringAllowEmpty, fromStringAllowNone, fromStringAllowEmptyAndNone. rewrite N'.
  assert (Em : isEmpty s = true <-> s = []) by (destruct s; cbn; split; congruence).
  assert (Nn : beq s (b_ "None") = true <-> s = b_ "None") by apply beq_eq.
  assert (V : forall x, Val (len names) = Val x <-> x = len names) by (intro x; split; [intros [= <-]; reflexivity|intros ->; reflexivity]).
  split; [|split; [|split]].
  - intro x. destruct (isEmpty s); [rewrite V|rewrite F]; intuition congruence.
  - intro x. destruct (beq s (b_ "None")); [rewrite V|rewrite F]; intuition congruence.
  - intro x. destruct (isEmpty s); [cbn [orb]; rewrite V; intuition congruence|]. destruct (beq s (b_ "None")); cbn [orb]; [rewrite V|rewrite F]; intuition congruence.
  - intros A B C. destruct (T s) as [[x K]|K]; [destruct (C x K)|]. rewrite K.
    destruct (isEmpty s); [exfalso; apply A; apply Em; reflexivity|]. destruct (beq s (b_ "None")); [exfalso; apply B; apply Nn; reflexivity|].
    cbn [orb]. auto.
Qed.

(** ** Strokes *)
Lemma strokes_text : forall v w,
  (numeral (strokesToString (v, w) false) /\ decimal (strokesToString (v, w) false) = v)
  /\ (w = 0 -> strokesToString (v, w) true = strokesToString (v, w) false)
  /\ (w <> 0 -> exists t, numeral t /\ decimal t = w /\ strokesToString (v, w) true = strokesToString (v, w) false ++ b_ "/" ++ t).
Proof.
  intros v w. unfold strokesToString. cbn [fst snd andb]. rewrite app_nil_r. split; [|split].
  - split; [apply to_string_numeral|apply to_string_decimal].
  - intros ->. change (0 =? 0) with true. cbn [negb]. apply app_nil_r.
  - intro H. replace (w =? 0) with false by lia. cbn [negb]. exists (to_string w). split; [apply to_string_numeral|]. split; [apply to_string_decimal|reflexivity].
Qed.
