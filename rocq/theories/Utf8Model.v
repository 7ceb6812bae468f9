(** Model of libs/utils/src/Utf8.cpp and libs/utils/include/kt_utils/Utf8.h. *)
From Verif Require Export Base.

(** ** Constants *)

(** Utf8.cpp:19-20 *)
Definition MinSurrogate : N := 0xd800.
Definition MaxSurrogate : N := 0xdfff.
Definition Max2Uni : N := 0x7ff.
Definition Max3Uni : N := 0xffff.
Definition ErrorReplacement : N := 0xfffd.
(** Utf8.h:147-148 *)
Definition MaxAscii : N := 0x7f.
Definition MaxUnicode : N := 0x10ffff.
(** Utf8.h:129-139 *)
Definition Bit5 : N := 0x08.
Definition Bit4 : N := 0x10.
Definition Bit3 : N := 0x20.
Definition Bit1 : N := 0x80.
Definition TwoBits : N := 0xc0.
Definition ThreeBits : N := 0xe0.
Definition FourBits : N := 0xf0.

(** ** Shifts on uint32_t (Utf8.cpp:25-50); the wrap at 2^32 is explicit *)
Definition shl32 (x n : N) : N := u32 (N.shiftl x n).
Definition left6 (x y : N) : N := u32 (shl32 x 6 + y).
Definition left12 (x y : N) : N := u32 (shl32 x 12 + y).
Definition left18 (x y : N) : N := u32 (shl32 x 18 + y).
Definition right6 (x y : N) : N := u32 (N.shiftr x 6 + y).
Definition right12 (x y : N) : N := u32 (N.shiftr x 12 + y).
Definition right18 (x y : N) : N := u32 (N.shiftr x 18 + y).

(** [std::countl_one] on a [uint8_t]: number of leading one bits, starting from
    bit [k-1]. *)
Fixpoint countl_one_from (k : nat) (b : N) : N :=
  match k with
  | O => 0
  | S k' => if N.testbit b (N.of_nat k') then 1 + countl_one_from k' b else 0
  end.
Definition countl_one (b : N) : N := countl_one_from 8 b.

(** ** Pointers into a NUL-terminated buffer

    A [const uint8_t*] is the list of the bytes of the buffer from the pointed-to
    one to the end of the buffer (the terminating NUL included).  Reading through
    a pointer past the end of the buffer is undefined behaviour. *)
Definition ptr := list N.
Definition deref (u : ptr) : out N := match u with [] => Ub | b :: _ => Val b end.
(** [++u]; forming a pointer more than one past the end is undefined too *)
Definition incr (u : ptr) : out ptr := match u with [] => Ub | _ :: r => Val r end.
(** the buffer behind [s.c_str()] *)
Definition c_str (s : bytes) : ptr := s ++ [0].

(** Utf8.cpp:54-56 getNextByte: advances and tests for a continuation byte *)
Definition getNextByte (u : ptr) : out (bool * ptr) :=
  u' <- incr u ;;
  b <- deref u' ;;
  Val (countl_one b =? 1, u').

(** Utf8.cpp:72-76 threeByteUtf8 (third byte already read) *)
Definition threeByteUtf8 (b1 b2 b3raw : N) : N :=
  left12 (N.lxor b1 ThreeBits) (left6 b2 (N.lxor b3raw Bit1)).
(** Utf8.cpp:85-89 fourByteUtf8 (fourth byte already read) *)
Definition fourByteUtf8 (b1 b2 b3 b4raw : N) : N :=
  left18 (N.lxor b1 FourBits) (left12 b2 (left6 b3 (N.lxor b4raw Bit1))).

(** Utf8.cpp:106-133 convertOneUtf8; returns the code and the advanced pointer.
    The [wchar_t] instantiation is the same function (values fit 31 bits). *)
Definition convertOneUtf8 (u : ptr) : out (N * ptr) :=
  b <- deref u ;;
  let utfLen := countl_one b in
  if utfLen =? 0 then u' <- incr u ;; Val (b, u')
  else if (utfLen =? 1) || (4 <? utfLen) then
    u' <- incr u ;; Val (ErrorReplacement, u')
  else
    let byte1 := b in
    '(c2, u2) <- getNextByte u ;;
    if negb c2 then Val (ErrorReplacement, u2)
    else
      x2 <- deref u2 ;;
      let byte2 := N.lxor x2 Bit1 in
      if 2 <? utfLen then
        '(c3, u3) <- getNextByte u2 ;;
        if negb c3 then Val (ErrorReplacement, u3)
        else if utfLen =? 4 then
          x3 <- deref u3 ;;
          let byte3 := N.lxor x3 Bit1 in
          '(c4, u4) <- getNextByte u3 ;;
          if negb c4 then Val (ErrorReplacement, u4)
          else
            x4 <- deref u4 ;;
            let t := fourByteUtf8 byte1 byte2 byte3 x4 in
            u5 <- incr u4 ;;
            Val (if (Max3Uni <? t) && (t <=? MaxUnicode) then t else ErrorReplacement, u5)
        else
          x3 <- deref u3 ;;
          let t := threeByteUtf8 byte1 byte2 x3 in
          u4 <- incr u3 ;;
          Val (if (Max2Uni <? t) && ((t <? MinSurrogate) || (MaxSurrogate <? t))
               then t else ErrorReplacement, u4)
      else
        u3 <- incr u2 ;;
        Val (if 1 <? N.lxor byte1 TwoBits then left6 (N.lxor byte1 TwoBits) byte2
             else ErrorReplacement, u3).

(** Utf8.cpp:142-144, the do-while loop of convertFromUtf8; [acc] is [result] in
    reverse.  Each iteration consumes at least a byte so the buffer size bounds
    the number of iterations (out of fuel is a distinct outcome). *)
Fixpoint convertLoop (fuel : nat) (u : ptr) (maxSize : N) (acc : list N) : out (list N) :=
  match fuel with
  | O => Fuel
  | S fuel' =>
      '(c, u') <- convertOneUtf8 u ;;
      let acc' := c :: acc in
      b <- deref u' ;;
      if negb (b =? 0) && ((maxSize =? 0) || (len acc' <? maxSize))
      then convertLoop fuel' u' maxSize acc'
      else Val (rev acc')
  end.

(** Utf8.cpp:135-146 convertFromUtf8 on a non-null pointer; the [!s] test of the
    code concerns null pointers, which have no counterpart here. *)
Definition convertFromUtf8 (u : ptr) (maxSize : N) : out (list N) :=
  b <- deref u ;;
  if b =? 0 then Val []
  else convertLoop (List.length u) u maxSize [].

(** Utf8.cpp:206-208 fromUtf8(const String&, size_t) *)
Definition fromUtf8 (s : bytes) (maxSize : N) : out (list N) :=
  convertFromUtf8 (c_str s) maxSize.

(** Utf8.cpp:218-224 getCode *)
Definition getCode (s : bytes) : out N :=
  b <- deref (c_str s) ;;
  if b =? 0 then Val 0
  else '(c, _) <- convertOneUtf8 (c_str s) ;; Val c.

(** ** Encoding *)

(** String.cpp:20-24, 110-113 toChar(Code): throws above 255 *)
Definition toChar (x : N) : out N := if 255 <? x then Throw RangeError else Val x.

(** Utf8.cpp:93 *)
Definition ReplacementCharacter : bytes := [0xEF; 0xBF; 0xBD].

(** Utf8.cpp:148-171 convertToUtf8, appending to [s] *)
Definition convertToUtf8 (c : N) (s : bytes) : out bytes :=
  let FirstThree := shl32 7 18 in
  let FirstFour := shl32 15 12 in
  let FirstFive := shl32 31 6 in
  let Six := 63 in
  let SecondSix := shl32 Six 6 in
  let ThirdSix := shl32 Six 12 in
  if c <=? MaxAscii then x <- toChar c ;; Val (s ++ [x])
  else if c <=? Max2Uni then
    x1 <- toChar (right6 (N.land FirstFive c) TwoBits) ;;
    x2 <- toChar (u32 (N.land Six c + Bit1)) ;;
    Val (s ++ [x1] ++ [x2])
  else if c <=? Max3Uni then
    if (c <? MinSurrogate) || (MaxSurrogate <? c) then
      x1 <- toChar (right12 (N.land FirstFour c) ThreeBits) ;;
      x2 <- toChar (right6 (N.land SecondSix c) Bit1) ;;
      x3 <- toChar (u32 (N.land Six c + Bit1)) ;;
      Val (s ++ [x1] ++ [x2] ++ [x3])
    else Val (s ++ ReplacementCharacter)
  else if c <=? MaxUnicode then
    x1 <- toChar (right18 (N.land FirstThree c) FourBits) ;;
    x2 <- toChar (right12 (N.land ThirdSix c) Bit1) ;;
    x3 <- toChar (right6 (N.land SecondSix c) Bit1) ;;
    x4 <- toChar (u32 (N.land Six c + Bit1)) ;;
    Val (s ++ [x1] ++ [x2] ++ [x3] ++ [x4])
  else Val (s ++ ReplacementCharacter).

(** Utf8.cpp:226-230 toUtf8(Code) *)
Definition toUtf8_code (c : N) : out bytes := convertToUtf8 c [].

(** Utf8.cpp:236-242 toUtf8(const CodeString&): the range-for loop *)
Fixpoint toUtf8_loop (cs : list N) (acc : bytes) : out bytes :=
  match cs with
  | [] => Val acc
  | c :: r => acc' <- convertToUtf8 c acc ;; toUtf8_loop r acc'
  end.
Definition toUtf8 (cs : list N) : out bytes := toUtf8_loop cs [].

(** ** Validation *)

(** Utf8.h:55-59 *)
Inductive MBUtf8Result := MBValid | NotMultiByte | NotValid.
(** Utf8.h:62-73 *)
Inductive Utf8Result :=
| U8Valid | CharTooLong | ContinuationByte | InvalidCodePoint | MissingBytes
| Overlong | StringTooLong.

(** [b & m] used as a condition *)
Definition has (b m : N) : bool := negb (N.land b m =? 0).

(** Utf8.cpp:175-198 validateMB; [inl e] is [err(e)], [inr tt] is Valid *)
Definition validateMB (u : ptr) (sizeOne : bool) : out (Utf8Result + unit) :=
  let finish (u : ptr) :=
    if negb sizeOne then Val (inr tt)
    else
      u' <- incr u ;; b <- deref u' ;;
      if b =? 0 then Val (inr tt) else Val (inl StringTooLong) in
  byte1 <- deref u ;;
  '(c2, u2) <- getNextByte u ;;
  if negb c2 then Val (inl MissingBytes)
  else if has byte1 Bit3 then
    x2 <- deref u2 ;;
    let byte2 := N.lxor x2 Bit1 in
    '(c3, u3) <- getNextByte u2 ;;
    if negb c3 then Val (inl MissingBytes)
    else
      x3 <- deref u3 ;;
      if has byte1 Bit4 then
        if has byte1 Bit5 then Val (inl CharTooLong)
        else
          let byte3 := N.lxor x3 Bit1 in
          '(c4, u4) <- getNextByte u3 ;;
          if negb c4 then Val (inl MissingBytes)
          else
            x4 <- deref u4 ;;
            let code4 := fourByteUtf8 byte1 byte2 byte3 x4 in
            if code4 <=? Max3Uni then Val (inl Overlong)
            else if MaxUnicode <? code4 then Val (inl InvalidCodePoint)
            else finish u4
      else
        let code3 := threeByteUtf8 byte1 byte2 x3 in
        if code3 <=? Max2Uni then Val (inl Overlong)
        else if (MinSurrogate <=? code3) && (code3 <=? MaxSurrogate)
        then Val (inl InvalidCodePoint)
        else finish u3
  else if N.lxor byte1 TwoBits <? 2 then Val (inl Overlong)
  else finish u2.

(** Utf8.cpp:254-270 validateMBUtf8(const String&, Utf8Result&, bool): the result
    and the value left in [error] when it was [e0] before the call *)
Definition validateMBUtf8_err (s : bytes) (e0 : Utf8Result) (sizeOne : bool)
  : out (MBUtf8Result * Utf8Result) :=
  let u := c_str s in
  b <- deref u ;;
  if negb (has b Bit1) then Val (NotMultiByte, e0)
  else if N.land b TwoBits =? Bit1 then Val (NotValid, ContinuationByte)
  else
    r <- validateMB u sizeOne ;;
    match r with
    | inl e => Val (NotValid, e)
    | inr _ => Val (MBValid, e0)
    end.

(** Utf8.h:100-104 validateMBUtf8(const T&, bool) *)
Definition validateMBUtf8 (s : bytes) (sizeOne : bool) : out MBUtf8Result :=
  '(r, _) <- validateMBUtf8_err s U8Valid sizeOne ;; Val r.

(** Utf8.h:110-115 validateUtf8 *)
Definition validateUtf8 (s : bytes) (sizeOne : bool) : out Utf8Result :=
  '(_, e) <- validateMBUtf8_err s U8Valid sizeOne ;; Val e.

(** Utf8.cpp:272-274 isValidMBUtf8 *)
Definition isValidMBUtf8 (s : bytes) (sizeOne : bool) : out bool :=
  r <- validateMBUtf8 s sizeOne ;;
  Val (match r with MBValid => true | _ => false end).

(** Utf8.cpp:276-278 isValidUtf8 *)
Definition isValidUtf8 (s : bytes) (sizeOne : bool) : out bool :=
  r <- validateUtf8 s sizeOne ;;
  Val (match r with U8Valid => true | _ => false end).
