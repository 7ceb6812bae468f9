(** Model of the number-to-text part of libs/utils/include/kt_utils/String.h and
    libs/utils/src/String.cpp. *)
From Verif Require Export Base Utf8Model.

(** String.h:24-29 *)
Inductive BracketType := Curly | Round | Square | NoBrackets.
(** String.h:32-35 *)
Inductive HexCase := Upper | Lower.

(** String.cpp:38-46 addBrackets *)
Definition addBrackets (s : bytes) (t : BracketType) : bytes :=
  match t with
  | Curly => [123] ++ s ++ [125]
  | Round => [40] ++ s ++ [41]
  | Square => [91] ++ s ++ [93]
  | NoBrackets => s
  end.

(** String.cpp:48-53 addLeadingZeroes; the CodeString overload (55-60) is the same
    function on wider characters *)
Definition addLeadingZeroes (s : bytes) (minSize : N) : bytes :=
  if len s <? minSize then repeat 48 (N.to_nat (minSize - len s)) ++ s
  else match s with [] => [48] | _ => s end.

(** The loop shared by toBinary (String.h:113-114, [x % 2], [x >>= 1]) and toHex
    (138-144, [x % 16], [x >>= 4]): prepend the last digit while [x > 0].
    [shift] is the number of bits; [d] turns a digit into a character.  The fuel
    is the bit width of [x]; running out is visible in the result type. *)
Fixpoint digitLoop (fuel : nat) (shift : N) (d : N -> N) (x : N) (result : bytes)
  : out bytes :=
  if x =? 0 then Val result
  else match fuel with
       | O => Fuel
       | S f => digitLoop f shift d (N.shiftr x shift) (d (x mod 2^shift) :: result)
       end.

(** String.h:114 *)
Definition binDigit (i : N) : N := 48 + i.
(** String.h:139-143 *)
Definition hexDigit (c : HexCase) (i : N) : N :=
  if i <? 10 then 48 + i
  else (match c with Upper => 65 | Lower => 97 end) + i - 10.

(** String.h:109-117 toBinary for an unsigned type of [size] bytes *)
Definition toBinary (size x : N) (b : BracketType) (minSize : N) : out bytes :=
  r <- digitLoop (N.size_nat x) 1 binDigit x [] ;;
  Val (addBrackets (addLeadingZeroes r (if minSize =? 0 then size * 8 else minSize)) b).

(** String.h:133-147 toHex for an unsigned type of [size] bytes *)
Definition toHex (size x : N) (b : BracketType) (c : HexCase) (minSize : N) : out bytes :=
  r <- digitLoop (N.size_nat x) 4 (hexDigit c) x [] ;;
  Val (addBrackets (addLeadingZeroes r (if minSize =? 0 then size * 2 else minSize)) b).

(** String.cpp:62-64 toUnicode(Code, BracketType); Code has 4 bytes *)
Definition toUnicode (c : N) (b : BracketType) : out bytes := toHex 4 c b Upper 4.

(** String.cpp:75-82 toUnicode(const CodeString&, BracketType): the loop *)
Fixpoint toUnicode_loop (cs : list N) (result : bytes) : out bytes :=
  match cs with
  | [] => Val result
  | c :: r =>
      u <- toUnicode c NoBrackets ;;
      toUnicode_loop r ((match result with [] => [] | _ => result ++ [32] end) ++ u)
  end.
Definition toUnicode_codes (cs : list N) (b : BracketType) : out bytes :=
  r <- toUnicode_loop cs [] ;; Val (addBrackets r b).
(** String.cpp:66-73 toUnicode(const String&, BracketType) *)
Definition toUnicode_string (s : bytes) (b : BracketType) : out bytes :=
  cs <- fromUtf8 s 0 ;; toUnicode_codes cs b.

(** [std::to_string] on an unsigned value: decimal digits without leading zeroes *)
Fixpoint decLoop (fuel : nat) (x : N) (result : bytes) : bytes :=
  match fuel with
  | O => result
  | S f => if x =? 0 then result else decLoop f (x / 10) ((48 + x mod 10) :: result)
  end.
Definition to_string (x : N) : bytes :=
  if x =? 0 then [48] else decLoop (N.size_nat x) x [].

(** String.cpp:20-24, 86-93: toChar(int, bool) (the [int] is a [Z]); the result is
    the [char] as an unsigned byte *)
Definition toChar_int (x : Z) (allowNegative : bool) : out N :=
  if allowNegative && (x <? -128)%Z then Throw RangeError
  else if negb allowNegative && (x <? 0)%Z then Throw RangeError
  else if (255 <? x)%Z then Throw RangeError
  else Val (Z.to_N (x mod 256)).

(** String.h:182-184: isSingleByteChar(char); a [char] is non-negative iff its byte is below 128 *)
Definition isSingleByteChar (b : N) : bool := b <? 128.
(** String.cpp:121-123 *)
Definition isSingleByte (s : bytes) (sizeOne : bool) : bool :=
  (if sizeOne then len s =? 1 else negb (len s =? 0))
  && match s with b :: _ => isSingleByteChar b | [] => false end.
(** String.cpp:129-132, 139-142 *)
Definition isAllSingleByte (s : bytes) : bool := forallb isSingleByteChar s.
Definition isAnySingleByte (s : bytes) : bool := existsb isSingleByteChar s.

(** [::isupper], [::islower], [::tolower], [::toupper] in the C locale *)
Definition c_isupper (b : N) : bool := (65 <=? b) && (b <=? 90).
Definition c_islower (b : N) : bool := (97 <=? b) && (b <=? 122).
Definition c_tolower (b : N) : N := if c_isupper b then b + 32 else b.
Definition c_toupper (b : N) : N := if c_islower b then b - 32 else b.
(** String.h:216-223 firstConvert, String.cpp:149-155 firstLower, firstUpper *)
Definition firstLower (s : bytes) : bytes :=
  match s with b :: r => if c_isupper b then c_tolower b :: r else s | [] => s end.
Definition firstUpper (s : bytes) : bytes :=
  match s with b :: r => if c_islower b then c_toupper b :: r else s | [] => s end.
(** String.cpp:157-169 *)
Definition toLower (s : bytes) : bytes := map c_tolower s.
Definition toUpper (s : bytes) : bytes := map c_toupper s.
