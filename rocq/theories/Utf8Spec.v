(** Independent specification of UTF-8 (RFC 3629), used to state the properties. *)
From Verif Require Export Base.
From Verif Require Import Utf8Model. (* only for the names of the result codes *)

(** Unicode scalar values: every code point except the surrogates. *)
Definition scalar (c : N) : Prop := c < 0xD800 \/ (0xE000 <= c /\ c <= 0x10FFFF).

(** RFC 3629 section 3: the table of encodings, by plain arithmetic. *)
Definition enc (c : N) : bytes :=
  if c <? 0x80 then [c]
  else if c <? 0x800 then [0xC0 + c / 64; 0x80 + c mod 64]
  else if c <? 0x10000 then [0xE0 + c / 4096; 0x80 + (c / 64) mod 64; 0x80 + c mod 64]
  else [0xF0 + c / 262144; 0x80 + (c / 4096) mod 64; 0x80 + (c / 64) mod 64;
        0x80 + c mod 64].

(** RFC 3629 section 4: the syntax of one UTF-8 character in ABNF.
<<
   UTF8-1      = %x00-7F
   UTF8-2      = %xC2-DF UTF8-tail
   UTF8-3      = %xE0 %xA0-BF UTF8-tail / %xE1-EC 2( UTF8-tail ) /
                 %xED %x80-9F UTF8-tail / %xEE-EF 2( UTF8-tail )
   UTF8-4      = %xF0 %x90-BF 2( UTF8-tail ) / %xF1-F3 3( UTF8-tail ) /
                 %xF4 %x80-8F 2( UTF8-tail )
   UTF8-tail   = %x80-BF
>> *)
Definition between (lo hi b : N) : Prop := lo <= b /\ b <= hi.
Definition tail_byte := between 0x80 0xBF.
Inductive utf8_char : bytes -> Prop :=
| UTF8_1 : forall a, between 0x00 0x7F a -> utf8_char [a]
| UTF8_2 : forall a b, between 0xC2 0xDF a -> tail_byte b -> utf8_char [a; b]
| UTF8_3a : forall b c, between 0xA0 0xBF b -> tail_byte c -> utf8_char [0xE0; b; c]
| UTF8_3b : forall a b c, between 0xE1 0xEC a -> tail_byte b -> tail_byte c ->
    utf8_char [a; b; c]
| UTF8_3c : forall b c, between 0x80 0x9F b -> tail_byte c -> utf8_char [0xED; b; c]
| UTF8_3d : forall a b c, between 0xEE 0xEF a -> tail_byte b -> tail_byte c ->
    utf8_char [a; b; c]
| UTF8_4a : forall b c d, between 0x90 0xBF b -> tail_byte c -> tail_byte d ->
    utf8_char [0xF0; b; c; d]
| UTF8_4b : forall a b c d, between 0xF1 0xF3 a -> tail_byte b -> tail_byte c ->
    tail_byte d -> utf8_char [a; b; c; d]
| UTF8_4c : forall b c d, between 0x80 0x8F b -> tail_byte c -> tail_byte d ->
    utf8_char [0xF4; b; c; d].

(** A well-formed UTF-8 string is a sequence of well-formed characters. *)
Inductive utf8 : bytes -> Prop :=
| utf8_nil : utf8 []
| utf8_app : forall c s, utf8_char c -> utf8 s -> utf8 (c ++ s).

(** More than one byte, i.e. not Ascii. *)
Definition multi_byte (c : bytes) : Prop := (2 <= List.length c)%nat.

(** What [const char*] code can see of a string: everything before the first NUL. *)
Fixpoint upto_nul (s : bytes) : bytes :=
  match s with
  | [] => []
  | b :: r => if b =? 0 then [] else b :: upto_nul r
  end.

(** ** Classification of the first character, for validation errors

    [need b]: number of continuation bytes announced by a leading byte. *)
Definition need (b : N) : nat :=
  if b <? 0xE0 then 1 else if b <? 0xF0 then 2 else 3.
Definition continuation (b : N) : bool := (0x80 <=? b) && (b <=? 0xBF).
(** number of continuation bytes a string starts with *)
Fixpoint continuations (s : bytes) : nat :=
  match s with
  | b :: r => if continuation b then S (continuations r) else O
  | [] => O
  end.
(** The number spelled by leading byte [b] (one of 0xC0..0xF7) and the
    continuation bytes [need b] of [r]. *)
Definition payload (b : N) : N :=
  if b <? 0xE0 then b - 0xC0 else if b <? 0xF0 then b - 0xE0 else b - 0xF0.
Definition value (b : N) (r : bytes) : N :=
  fold_left (fun acc x => acc * 64 + (x - 0x80)) (firstn (need b) r) (payload b).
(** smallest number that needs that many continuation bytes *)
Definition smallest (n : nat) : N :=
  match n with 1%nat => 0x80 | 2%nat => 0x800 | _ => 0x10000 end.

(** What the documentation of [Utf8Result] (Utf8.h:62-73) says about the first
    character of the NUL-free string [s]; [None] means valid multi-byte.  The one
    deviation of the code from its documentation is kept visible in the branch for
    leading bytes above 0xF7 ([CharTooLong] is only reported when two continuation
    bytes follow, otherwise [MissingBytes]). *)
Definition first_error (b : N) (r : bytes) (sizeOne : bool) : option Utf8Result :=
  if b <? 0xC0 then Some ContinuationByte
  else if 0xF8 <=? b then
    Some (if (continuations r <? 2)%nat then MissingBytes else CharTooLong)
  else if (continuations r <? need b)%nat then Some MissingBytes
  else if value b r <? smallest (need b) then Some Overlong
  else if (0x10FFFF <? value b r)
          || ((0xD800 <=? value b r) && (value b r <=? 0xDFFF))
  then Some InvalidCodePoint
  else if sizeOne && (need b <? List.length r)%nat then Some StringTooLong
  else None.

(** starts with a well-formed multi-byte character *)
Definition starts_with_mb (s : bytes) : Prop :=
  exists c r, s = c ++ r /\ utf8_char c /\ multi_byte c.

(** no continuation byte at the start, i.e. a character can start here *)
Definition at_boundary (s : bytes) : Prop :=
  match s with [] => True | b :: _ => continuation b = false end.
