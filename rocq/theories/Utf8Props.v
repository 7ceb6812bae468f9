(** Properties C01-C07 and C47: UTF-8 conversion and validation. *)
From Verif Require Import BaseFacts Utf8Model Utf8Spec Utf8Proofs Utf8Validate Utf8Lemmas.

(** C01: encoding then decoding a sequence of non-zero scalar values is the
    identity, and the bytes in between are the RFC 3629 encodings. *)
Theorem C01_utf32_utf8_roundtrip : forall cs,
  Forall (fun c => scalar c /\ c <> 0) cs ->
  toUtf8 cs = Val (flat_map enc cs) /\ fromUtf8 (flat_map enc cs) 0 = Val cs.
Proof. exact utf32_roundtrip. Qed.
Print Assumptions C01_utf32_utf8_roundtrip.
Example C01_example :
  Forall (fun c => scalar c /\ c <> 0) [0x41; 0xE9; 0x3042; 0x2000B; 0x10FFFF]
  /\ toUtf8 [0x41; 0xE9; 0x3042; 0x2000B; 0x10FFFF]
     = Val [0x41; 0xC3; 0xA9; 0xE3; 0x81; 0x82; 0xF0; 0xA0; 0x80; 0x8B; 0xF4; 0x8F; 0xBF; 0xBF].
Proof. split; [repeat constructor; unfold scalar; lia | vm_compute; reflexivity]. Qed.

(** C02: decoding then encoding gives back the input exactly when the input is
    well-formed UTF-8; and what it decodes to is the sequence of code points
    whose encodings make up the input. *)
Theorem C02_lossless_iff_well_formed : forall s,
  bytes_ok s -> no_nul s ->
  exists cs t, fromUtf8 s 0 = Val cs /\ toUtf8 cs = Val t /\ (t = s <-> utf8 s).
Proof. exact lossless_iff. Qed.
Print Assumptions C02_lossless_iff_well_formed.
Example C02_example :
  bytes_ok (b_ "aé日") /\ no_nul (b_ "aé日") /\ utf8 (b_ "aé日")
  /\ bytes_ok [0xE6; 0x97; 0x41] /\ no_nul [0xE6; 0x97; 0x41]
  /\ fromUtf8 [0xE6; 0x97; 0x41] 0 = Val [0xFFFD; 0x41].
Proof.
  split; [repeat constructor|]. split; [repeat constructor; discriminate|]. split.
  { apply utf8_iff_enc. exists [0x61; 0xE9; 0x65E5].
    split; [repeat constructor; unfold scalar; lia | vm_compute; reflexivity]. }
  split; [repeat constructor|]. split; [repeat constructor; discriminate|].
  vm_compute; reflexivity.
Qed.

(** C03: on every byte string (well-formed or not, with or without NULs) and for
    every limit the decoder returns: no undefined behaviour (in particular no read
    past the terminator), no endless loop, at most one code point per byte, and
    only non-zero scalar values. *)
Theorem C03_decoder_total_and_safe : forall s n,
  bytes_ok s ->
  exists cs, fromUtf8 s n = Val cs
    /\ (List.length cs <= List.length s)%nat
    /\ Forall scalar cs /\ Forall (fun c => c <> 0) cs.
Proof. exact decoder_total. Qed.
Print Assumptions C03_decoder_total_and_safe.
Example C03_example : bytes_ok [0xF0; 0x9F; 0x98]
  /\ fromUtf8 [0xF0; 0x9F; 0x98] 0 = Val [0xFFFD].
Proof. split; [repeat constructor | vm_compute; reflexivity]. Qed.

(** C04: whatever values are given, the encoder returns (its range checks never
    fire), the result is well-formed UTF-8, and it is the concatenation of the
    RFC encodings of the scalar values and EF BF BD for every other value. *)
Theorem C04_encoder_well_formed : forall cs,
  exists s, toUtf8 cs = Val s /\ utf8 s
    /\ exists parts, s = concat parts
       /\ Forall2 (fun c p => (scalar c -> p = enc c)
                              /\ (~ scalar c -> p = [0xEF; 0xBF; 0xBD])) cs parts.
Proof. exact encoder_well_formed. Qed.
Print Assumptions C04_encoder_well_formed.
Example C04_example :
  ~ scalar 0xD800 /\ toUtf8 [0x61; 0xD800; 0x110000] =
    Val [0x61; 0xEF; 0xBF; 0xBD; 0xEF; 0xBF; 0xBD].
Proof. split; [unfold scalar; lia | vm_compute; reflexivity]. Qed.

(** C05: accepted strings of the multi-byte validator. *)
Theorem C05_valid_multi_byte : forall s, bytes_ok s ->
  (isValidMBUtf8 s false = Val true <-> starts_with_mb (upto_nul s))
  /\ (isValidMBUtf8 s true = Val true
      <-> utf8_char (upto_nul s) /\ multi_byte (upto_nul s))
  /\ (forall one, validateMBUtf8 s one = Val NotMultiByte <->
        match upto_nul s with [] => True | b :: _ => b < 0x80 end).
Proof. exact valid_multi_byte. Qed.
Print Assumptions C05_valid_multi_byte.

(** C05: the error code reported for every rejected string (see [first_error] in
    Utf8Spec.v); in every case the function returns without undefined behaviour,
    and an accepted string leaves the caller's error variable alone. *)
Theorem C05_error_codes : forall s e0 one, bytes_ok s ->
  validateMBUtf8_err s e0 one =
  Val (match upto_nul s with
       | [] => (NotMultiByte, e0)
       | b :: r =>
           if b <? 0x80 then (NotMultiByte, e0)
           else match first_error b r one with
                | Some e => (NotValid, e)
                | None => (MBValid, e0)
                end
       end).
Proof. exact validate_spec. Qed.
Print Assumptions C05_error_codes.
Example C05_example :
  isValidMBUtf8 (b_ "雪s") false = Val true /\ isValidMBUtf8 (b_ "雪s") true = Val false
  /\ isValidMBUtf8 (b_ "雪") true = Val true
  /\ validateUtf8 [0xC1; 0xBF] false = Val Overlong
  /\ validateUtf8 [0xED; 0xA0; 0x80] false = Val InvalidCodePoint
  /\ validateUtf8 [0xF4; 0x90; 0x80; 0x80] false = Val InvalidCodePoint
  /\ validateUtf8 [0xE9; 0x9B] false = Val MissingBytes.
Proof. vm_compute. repeat split. Qed.

(** C05, finding: [Utf8Result::CharTooLong] is documented as "first byte starts
    with more than 4 1's" but a string starting with such a byte can be reported
    as [MissingBytes] instead. *)
Theorem C05_char_too_long_refuted :
  exists s b r, bytes_ok s /\ upto_nul s = b :: r /\ 0xF8 <= b
    /\ validateUtf8 s false = Val MissingBytes.
Proof. exact char_too_long_refuted. Qed.
Print Assumptions C05_char_too_long_refuted.

(** C06 is false of the code: [isValidUtf8] accepts strings that are not
    well-formed UTF-8, and with [sizeOne] it accepts more than one character. *)
Theorem C06_is_valid_utf8_refuted :
  (exists s, bytes_ok s /\ no_nul s /\ isValidUtf8 s false = Val true /\ ~ utf8 s)
  /\ (exists s, bytes_ok s /\ no_nul s /\ isValidUtf8 s true = Val true /\ ~ utf8_char s).
Proof. exact is_valid_utf8_refuted. Qed.
Print Assumptions C06_is_valid_utf8_refuted.

(** C06, the true part: well-formed strings are always accepted, and acceptance
    means exactly that the first character (if any) is well-formed; with
    [sizeOne], a string not starting with an Ascii byte is accepted iff it is
    exactly one character.  Missing: the rest of the string is not looked at. *)
Theorem C06_is_valid_utf8_partial : forall s, bytes_ok s -> no_nul s ->
  (utf8 s -> isValidUtf8 s false = Val true)
  /\ (isValidUtf8 s false = Val true
      <-> s = [] \/ exists c r, s = c ++ r /\ utf8_char c)
  /\ (match s with [] => False | b :: _ => 0x80 <= b end ->
      (isValidUtf8 s true = Val true <-> utf8_char s)).
Proof. exact is_valid_utf8_first. Qed.
Print Assumptions C06_is_valid_utf8_partial.
Example C06_example : bytes_ok (b_ "日本") /\ no_nul (b_ "日本")
  /\ isValidUtf8 (b_ "日本") false = Val true /\ isValidUtf8 (b_ "日本") true = Val false
  /\ isValidUtf8 (b_ "日") true = Val true.
Proof.
  split; [repeat constructor|]. split; [repeat constructor; discriminate|].
  vm_compute. repeat split.
Qed.

(** C07: decoding with a limit, and decoding one code. *)
Theorem C07_bounded_decoding_is_prefix : forall s n cs, bytes_ok s ->
  fromUtf8 s 0 = Val cs ->
  (n <> 0 -> fromUtf8 s n = Val (firstn (N.to_nat n) cs))
  /\ getCode s = Val (match cs with [] => 0 | c :: _ => c end).
Proof. exact bounded_prefix. Qed.
Print Assumptions C07_bounded_decoding_is_prefix.
Example C07_example : fromUtf8 (b_ "aé日") 2 = Val [0x61; 0xE9] /\ getCode (b_ "日") = Val 0x65E5.
Proof. vm_compute. split; reflexivity. Qed.

(** C47: malformed bytes never swallow the characters that follow: decoding a
    concatenation is the concatenation of the decodings whenever the second part
    does not start with a continuation byte. *)
Theorem C47_decoder_resynchronises : forall a b x y,
  bytes_ok a -> no_nul a -> bytes_ok b -> at_boundary b ->
  fromUtf8 a 0 = Val x -> fromUtf8 b 0 = Val y ->
  fromUtf8 (a ++ b) 0 = Val (x ++ y).
Proof. exact decoder_resync. Qed.
Print Assumptions C47_decoder_resynchronises.
Example C47_example :
  at_boundary (b_ "日a") /\ fromUtf8 [0xF0; 0x9F] 0 = Val [0xFFFD]
  /\ fromUtf8 ([0xF0; 0x9F] ++ b_ "日a") 0 = Val [0xFFFD; 0x65E5; 0x61].
Proof. vm_compute. repeat split. Qed.
