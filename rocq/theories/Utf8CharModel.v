(** Model of libs/kana/src/Utf8Char.cpp and libs/kana/include/kt_kana/Utf8Char.h.

    A [const char*] into a string is the list of the bytes from the pointed-to one up to,
    but not including, the terminating NUL of the buffer, so [*p] reads a NUL for the
    empty list.  Moving a pointer past the terminating NUL is undefined behaviour. *)
From Verif Require Export Utf8Model KanaModel.
Open Scope N_scope.

(** [*p] and [p + 1] *)
Definition at_ (p : bytes) : N := match p with [] => 0 | b :: _ => b end.
Definition next_ (p : bytes) : out bytes := match p with [] => Ub | _ :: r => Val r end.
(** [p += 3] (VarSelectorSize, Utf8.h:141) *)
Definition skip3 (p : bytes) : out bytes := p1 <- next_ p ;; p2 <- next_ p1 ;; next_ p2.

(** Utf8Char.cpp:6-13 isVariationSelector *)
Definition isVariationSelector (s : bytes) : out bool :=
  if at_ s =? 0xef then
    s1 <- next_ s ;;
    if at_ s1 =? 0xb8 then
      s2 <- next_ s1 ;;
      Val ((0x80 <=? at_ s2) && (at_ s2 <=? 0x8f))
    else Val false
  else Val false.
(** Utf8Char.cpp:23-26 isCombiningMark *)
Definition isCombiningMark (s : bytes) : out bool :=
  if at_ s =? 0xe3 then
    s1 <- next_ s ;;
    if at_ s1 =? 0x82 then
      s2 <- next_ s1 ;;
      Val ((at_ s2 =? 0x99) || (at_ s2 =? 0x9a))
    else Val false
  else Val false.

(** Utf8Char.cpp:36-55 size(const char*, bool) on a non-null pointer *)
Fixpoint sizeLoop (fuel : nat) (i : bytes) (onlyMB : bool) (result : N) : out N :=
  match fuel with
  | O => Fuel
  | S fuel' =>
      if at_ i =? 0 then Val result
      else
        cm <- isCombiningMark i ;;
        vs <- (if cm : bool then Val true else isVariationSelector i) ;;
        if vs : bool then i' <- skip3 i ;; sizeLoop fuel' i' onlyMB result
        else
          i' <- next_ i ;;
          let counted := if onlyMB then N.land (at_ i) TwoBits =? TwoBits
                         else negb (N.land (at_ i) TwoBits =? Bit1) in
          sizeLoop fuel' i' onlyMB (result + (if counted then 1 else 0))
  end.
(** Utf8Char.cpp:57-59 size(const String&, bool), 148 size(bool) *)
Definition u8size (s : bytes) (onlyMB : bool) : out N := sizeLoop (S (List.length s)) s onlyMB 0.

(** Utf8Char.cpp:61-70 isCharWithVariationSelector *)
Definition isCharWithVariationSelector (s : bytes) : out bool :=
  if (3 + 2 <=? len s) && (len s <=? 3 + 4)
  then isVariationSelector (skipn (List.length s - 3) s)
  else Val false.
(** Utf8Char.cpp:72-76 noVariationSelector *)
Definition noVariationSelector (s : bytes) : out bytes :=
  b <- isCharWithVariationSelector s ;;
  Val (if b : bool then firstn (List.length s - 3) s else s).

(** Utf8Char.cpp:158-163 getMBUtf8: the character and the moved pointer *)
Fixpoint getMBLoop (masks : list N) (first : N) (result loc : bytes) : out (bytes * bytes) :=
  match masks with
  | [] => Val (result, loc)
  | x :: masks' =>
      if has first x then
        loc' <- next_ loc ;; getMBLoop masks' first (result ++ [at_ loc]) loc'
      else Val (result, loc)
  end.
Definition getMBUtf8 (loc : bytes) : out (bytes * bytes) :=
  loc' <- next_ loc ;;
  getMBLoop [0x40; 0x20; 0x10; 0x08; 0x04; 0x02; 0x01] (at_ loc) [at_ loc] loc'.

(** Utf8Char.cpp:165-168 validResult: the test, the character and the moved pointer *)
Definition validResult (loc : bytes) : out (bool * bytes * bytes) :=
  '(r, loc') <- getMBUtf8 loc ;;
  vs <- isVariationSelector r ;;
  if vs : bool then Val (false, r, loc')
  else cm <- isCombiningMark r ;; Val (negb cm, r, loc').

(** Utf8Char.cpp:170-172 peekVariant: the test and the character (empty when [loc] does not
    point to a valid multi-byte character) *)
Definition peekVariant (loc : bytes) : out (bool * bytes) :=
  v <- isValidMBUtf8 loc false ;;
  if v : bool then '(r, _) <- getMBUtf8 loc ;; b <- isVariationSelector r ;; Val (b, r)
  else Val (false, []).

(** Utf8.h:151-152 *)
Definition CombiningVoiced : bytes := Eval vm_compute in b_ "゙".
Definition CombiningSemiVoiced : bytes := Eval vm_compute in b_ "゚".

(** Utf8Char.h:145-148, the object; counters do not wrap (each is at most the size) *)
Record Utf8Char := { uData : bytes; uCur : bytes; uErrors : N; uVariants : N; uMarks : N }.
(** Utf8Char.cpp:85 constructor, 87-90 reset *)
Definition newUtf8Char (s : bytes) : Utf8Char :=
  {| uData := s; uCur := s; uErrors := 0; uVariants := 0; uMarks := 0 |}.
Definition reset (u : Utf8Char) : Utf8Char :=
  {| uData := uData u; uCur := uData u; uErrors := 0; uVariants := 0; uMarks := 0 |}.
Definition setCur (u : Utf8Char) (c : bytes) : Utf8Char :=
  {| uData := uData u; uCur := c; uErrors := uErrors u; uVariants := uVariants u; uMarks := uMarks u |}.
Definition addError (u : Utf8Char) : Utf8Char :=
  {| uData := uData u; uCur := uCur u; uErrors := uErrors u + 1; uVariants := uVariants u; uMarks := uMarks u |}.
Definition addVariant (u : Utf8Char) : Utf8Char :=
  {| uData := uData u; uCur := uCur u; uErrors := uErrors u; uVariants := uVariants u + 1; uMarks := uMarks u |}.
Definition addMark (u : Utf8Char) : Utf8Char :=
  {| uData := uData u; uCur := uCur u; uErrors := uErrors u; uVariants := uVariants u; uMarks := uMarks u + 1 |}.

(** Utf8Char.cpp:188-196 combiningMark (non-const) *)
Definition combiningMark (u : Utf8Char) (base : bytes) (accented : option bytes) : out (bytes * Utf8Char) :=
  c <- skip3 (uCur u) ;;
  match accented with
  | Some a => Val (a, addMark (setCur u c))
  | None => Val (base, addError (setCur u c))
  end.
(** Utf8Char.cpp:183-186 combiningMark (const) *)
Definition combiningMarkConst (base : bytes) (accented : option bytes) : bytes :=
  match accented with Some a => a | None => base end.
(** Utf8Char.cpp:174-180 processOne for both instances *)
Definition processOne (u : Utf8Char) (cur nxt : bytes) : out (bytes * Utf8Char) :=
  if beq nxt CombiningVoiced then combiningMark u cur (findDakuten cur)
  else if beq nxt CombiningSemiVoiced then combiningMark u cur (findHanDakuten cur)
  else Val (cur, u).
Definition processOneConst (cur nxt : bytes) : bytes :=
  if beq nxt CombiningVoiced then combiningMarkConst cur (findDakuten cur)
  else if beq nxt CombiningSemiVoiced then combiningMarkConst cur (findHanDakuten cur)
  else cur.

(** Utf8Char.cpp:92-121 next: [Some result] when it returns true *)
Fixpoint nextLoop (fuel : nat) (u : Utf8Char) (onlyMB : bool) : out (option bytes * Utf8Char) :=
  match fuel with
  | O => Fuel
  | S fuel' =>
      let loc := uCur u in
      if at_ loc =? 0 then Val (None, u)
      else
        v <- validateMBUtf8 loc false ;;
        match v with
        | NotMultiByte =>
            loc' <- next_ loc ;;
            if negb onlyMB then Val (Some [at_ loc], setCur u loc')
            else nextLoop fuel' (setCur u loc') onlyMB
        | MBValid =>
            '(ok, curChar, loc') <- validResult loc ;;
            let u1 := setCur u loc' in
            if ok : bool then
              '(vs, nexChar) <- peekVariant loc' ;;
              if vs : bool then
                loc2 <- skip3 loc' ;;
                Val (Some (curChar ++ nexChar), addVariant (setCur u1 loc2))
              else
                '(r, u2) <- processOne u1 curChar nexChar ;;
                Val (Some r, u2)
            else nextLoop fuel' (addError u1) onlyMB
        | NotValid =>
            loc' <- next_ loc ;;
            nextLoop fuel' (addError (setCur u loc')) onlyMB
        end
  end.
Definition next (u : Utf8Char) (onlyMB : bool) : out (option bytes * Utf8Char) :=
  nextLoop (S (List.length (uCur u))) u onlyMB.

(** Utf8Char.cpp:123-146 peek *)
Fixpoint peekLoop (fuel : nat) (loc : bytes) (onlyMB : bool) : out (option bytes) :=
  match fuel with
  | O => Fuel
  | S fuel' =>
      if at_ loc =? 0 then Val None
      else
        v <- validateMBUtf8 loc false ;;
        match v with
        | NotMultiByte =>
            if negb onlyMB then Val (Some [at_ loc])
            else loc' <- next_ loc ;; peekLoop fuel' loc' onlyMB
        | MBValid =>
            '(ok, curChar, loc') <- validResult loc ;;
            if ok : bool then
              '(vs, nextChar) <- peekVariant loc' ;;
              Val (Some (if vs : bool then curChar ++ nextChar else processOneConst curChar nextChar))
            else peekLoop fuel' loc' onlyMB
        | NotValid => loc' <- next_ loc ;; peekLoop fuel' loc' onlyMB
        end
  end.
Definition peek (u : Utf8Char) (onlyMB : bool) : out (option bytes) :=
  peekLoop (S (List.length (uCur u))) (uCur u) onlyMB.

(** Utf8Char.cpp:78-83 getFirst *)
Definition getFirst (s : bytes) : out bytes :=
  '(r, _) <- next (newUtf8Char s) true ;;
  Val (match r with Some x => x | None => [] end).

(** the loop [for (Utf8Char s{x}; s.next(c, onlyMB);)] of the callers: all characters and the
    object left behind *)
Fixpoint collect (fuel : nat) (u : Utf8Char) (onlyMB : bool) : out (list bytes * Utf8Char) :=
  match fuel with
  | O => Fuel
  | S fuel' =>
      '(r, u') <- next u onlyMB ;;
      match r with
      | None => Val ([], u')
      | Some c => '(cs, u2) <- collect fuel' u' onlyMB ;; Val (c :: cs, u2)
      end
  end.
Definition allChars (s : bytes) (onlyMB : bool) : out (list bytes * Utf8Char) :=
  collect (S (List.length s)) (newUtf8Char s) onlyMB.

(** A client of an object: any sequence of calls and what each returned (None for reset). *)
Inductive call := CNext (onlyMB : bool) | CPeek (onlyMB : bool) | CReset.
Definition do_call (u : Utf8Char) (c : call) : out (option bytes * Utf8Char) :=
  match c with
  | CNext mb => next u mb
  | CPeek mb => r <- peek u mb ;; Val (r, u)
  | CReset => Val (None, reset u)
  end.
Fixpoint run (u : Utf8Char) (cs : list call) : out (list (option bytes) * Utf8Char) :=
  match cs with
  | [] => Val ([], u)
  | c :: r =>
      '(x, u1) <- do_call u c ;;
      '(xs, u2) <- run u1 r ;;
      Val (x :: xs, u2)
  end.
