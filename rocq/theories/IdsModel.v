(** Model of libs/kanji/src/MorohashiId.cpp, libs/kanji/src/Strokes.cpp and their headers. *)
From Verif Require Export Base StringModel.

(** ** MorohashiId *)

(** MorohashiId.h:26 *)
Inductive IdType := Plain | Prime | DoublePrime | Supplemental.
(** MorohashiId.h:28 *)
Definition MaxId : N := 65535.

(** std::string::ends_with / starts_with *)
Fixpoint starts_with (s p : bytes) : bool :=
  match p, s with
  | [], _ => true
  | _ :: _, [] => false
  | a :: p', b :: s' => (a =? b) && starts_with s' p'
  end.
Definition ends_with_str (s p : bytes) : bool := starts_with (rev s) (rev p).

(** MorohashiId.cpp:12-22; 80 is 'P', 39 is the single quote, 72 is 'H' *)
Definition isDoublePrime (s : bytes) : bool := ends_with_str s [80; 80] || ends_with_str s [39; 39].
Definition isPrime (s : bytes) : bool := ends_with_str s [80] || ends_with_str s [39].
Definition isSupplemental (s : bytes) : bool := starts_with s [72].

(** MorohashiId.cpp:57-66: the loop over the characters between prefix and suffix.
    [leading] is [i == prefixSize] (only zeroes seen so far).  [result] is a
    uint16_t: the multiplication wraps, as written. *)
Fixpoint validateLoop (cs : bytes) (leading : bool) (result : N) : out N :=
  match cs with
  | [] => Val result
  | c :: r =>
      if leading && (c =? 48) then validateLoop r true result
      else if (c <? 48) || (57 <? c) then Throw DomainError
      else let x := c - 48 in
           if MaxId / 10 <? result then Throw DomainError
           else let result' := u16 (result * 10) in
                if MaxId - x <? result' then Throw DomainError
                else validateLoop r false (u16 (result' + x))
  end.
(** MorohashiId.cpp:43-71 validate.  [s.size() - prefixSize - suffixSize] is a
    size_t subtraction; the callers below never make it negative, and the model
    makes a negative one undefined behaviour. *)
Definition validate (s : bytes) (prefixSize suffixSize : N) : out N :=
  if (len s =? 0) && (prefixSize =? 0) && (suffixSize =? 0) then Val 0
  else if len s <? prefixSize + suffixSize then Ub
  else if len s - prefixSize - suffixSize =? 0 then Throw DomainError
  else
    r <- validateLoop (firstn (N.to_nat (len s - suffixSize - prefixSize))
                         (skipn (N.to_nat prefixSize) s)) true 0 ;;
    if (negb (prefixSize =? 0) || negb (suffixSize =? 0)) && (r =? 0)
    then Throw DomainError else Val r.

(** MorohashiId.cpp:29-34 getId *)
Definition getId (s : bytes) : out N :=
  if isDoublePrime s then validate s 0 2
  else if isPrime s then validate s 0 1
  else if isSupplemental s then validate s 1 0
  else validate s 0 0.
(** MorohashiId.cpp:36-41 getIdType *)
Definition getIdType (s : bytes) : IdType :=
  if isDoublePrime s then DoublePrime
  else if isPrime s then Prime
  else if isSupplemental s then Supplemental
  else Plain.
(** MorohashiId.cpp:26-27, MorohashiId.h:60-61 *)
Definition newMorohashi (s : bytes) : out (N * IdType) := i <- getId s ;; Val (i, getIdType s).

(** MorohashiId.cpp:73-82 toString *)
Definition morohashiToString (m : N * IdType) : bytes :=
  let '(i, t) := m in
  let result := if i =? 0 then [] else to_string i in
  match t with
  | Prime => result ++ [80]
  | DoublePrime => result ++ [80; 80]
  | Supplemental => [72] ++ result
  | Plain => result
  end.
(** MorohashiId.h:50-51: the defaulted [operator<=>] compares _id, then _idType *)
Definition typeNumber (t : IdType) : N :=
  match t with Plain => 0 | Prime => 1 | DoublePrime => 2 | Supplemental => 3 end.
Definition morohashiCompare (a b : N * IdType) : comparison :=
  match fst a ?= fst b with
  | Eq => typeNumber (snd a) ?= typeNumber (snd b)
  | c => c
  end.

(** ** Strokes *)

(** Strokes.h:20 *)
Definition MaxStrokes : N := 64.
Definition MaxVariant : N := 33.
(** Strokes.cpp:15-17 (the arguments are uint8_t) *)
Definition newStrokes (value : N) : out (N * N) :=
  if (value =? 0) || (MaxStrokes <? value) then Throw RangeError else Val (value, 0).
(** Strokes.cpp:19-25 *)
Definition newStrokes2 (value variant : N) : out (N * N) :=
  if (value <? 2) || (MaxStrokes <? value) then Throw RangeError
  else if (variant <? 3) || (MaxVariant <? variant) then Throw RangeError
  else if value =? variant then Throw DomainError
  else Val (value, variant).
(** Strokes.cpp:27-34 *)
Definition strokesToString (s : N * N) (includeVariant : bool) : bytes :=
  to_string (fst s) ++
  (if includeVariant && negb (snd s =? 0) then [47] ++ to_string (snd s) else []).
(** Strokes.h:42-43: defaulted [operator<=>] on (_value, _variant) *)
Definition strokesCompare (a b : N * N) : comparison :=
  match fst a ?= fst b with Eq => snd a ?= snd b | c => c end.
