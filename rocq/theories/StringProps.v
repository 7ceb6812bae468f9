(** Property C08: hex, binary and Unicode text forms. *)
From Verif Require Import BaseFacts StringModel StringSpec StringProofs ColumnFileModel ColumnFileLemmas.

(** C08: for every number (of any unsigned type, [size] its bytes), bracket type,
    letter case and minimum size: the text between the brackets is a base 16
    numeral for exactly that number in the requested letter case, at least the
    requested size (twice the byte size by default) and without leading zeroes
    beyond it. *)
Theorem C08_to_hex : forall size x c minSize,
  exists s, (forall b, toHex size x b c minSize = Val (addBrackets s b))
    /\ denotes 16 s x /\ min_size s (if minSize =? 0 then size * 2 else minSize)
    /\ Forall (match c with Upper => is_upper_hex | Lower => is_lower_hex end) s.
Proof. exact to_hex_spec. Qed.
Print Assumptions C08_to_hex.

Theorem C08_to_binary : forall size x minSize,
  exists s, (forall b, toBinary size x b minSize = Val (addBrackets s b))
    /\ denotes 2 s x /\ min_size s (if minSize =? 0 then size * 8 else minSize).
Proof. exact to_binary_spec. Qed.
Print Assumptions C08_to_binary.

(** different numbers never share a text form *)
Theorem C08_numeral_unique : forall b s x y, denotes b s x -> denotes b s y -> x = y.
Proof. exact denotes_fun. Qed.
Print Assumptions C08_numeral_unique.

(** the Unicode text form of a code point below U+100000 reads back as that code
    point through ColumnFile::getChar32 ... *)
Theorem C08_to_unicode_reads_back : forall c, c < 0x100000 ->
  exists s, toUnicode c NoBrackets = Val s /\ convChar32 s = Val c.
Proof. exact unicode_char32. Qed.
Print Assumptions C08_to_unicode_reads_back.

(** ... and from U+100000 (plane 16) on the reader always refuses it. *)
Theorem C08_plane_16_refused : forall c, 0x100000 <= c ->
  exists s, toUnicode c NoBrackets = Val s /\ convChar32 s = Throw DomainError.
Proof. exact unicode_char32_above. Qed.
Print Assumptions C08_plane_16_refused.

Example C08_example :
  toHex 2 0xBEEF Square Lower 0 = Val (b_ "[beef]")
  /\ toHex 1 10 NoBrackets Upper 0 = Val (b_ "0A")
  /\ toBinary 1 5 Round 3 = Val (b_ "(101)")
  /\ toBinary 1 0 NoBrackets 1 = Val (b_ "0")
  /\ toUnicode 0x2000B Square = Val (b_ "[2000B]")
  /\ convChar32 (b_ "2000B") = Val 0x2000B.
Proof. vm_compute. repeat split; reflexivity. Qed.
