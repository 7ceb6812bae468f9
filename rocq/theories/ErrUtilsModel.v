(** Model of the messages of libs/utils: EnumContainer.h, EnumContainer.cpp, EnumList.h, EnumMap.h, Symbol.cpp, BlockRange.cpp and toChar
    of String.cpp.  The functions are those of EnumModel, SymbolModel, BlockModel and StringModel with what() of what they throw (see
    C136_same and C137_same); comparing and subtracting iterators and the static instance of an enum list are only here. *)
From Verif Require Import ErrArgsModel ErrUcdModel.
From Verif Require Export EnumModel SymbolModel BlockModel StringModel.
From Verif Require Export ErrBase.
Open Scope N_scope.

(** ** Enums *)

(** EnumContainer.h:26-27 *)
Definition IndexMsg : bytes := b_ "index '".
Definition EnumMsg : bytes := b_ "enum '".
Definition RangeMsg : bytes := b_ "' is out of range".
(** EnumContainer.h:143-156 checkIndex for an integral type, or for the enum itself ([asEnum]) *)
Definition checkIndexT (asEnum : bool) (n : N) (i : Z) (name : bytes) : res N :=
  let x := toSize i in
  if n <=? x then Says RangeError (name ++ (if asEnum then b_ "enum value " ++ to_string x else to_stringZ i) ++ RangeMsg) else Got x.

(** EnumList.h:299-303 insert *)
Definition insertNameT (m : list (bytes * N)) (name : bytes) (index : N) : res (list (bytes * N)) :=
  match findName name m with
  | Some _ => Says DomainError (b_ "duplicate name '" ++ name ++ b_ "'")
  | None => Got ((name, index) :: m)
  end.
(** EnumList.h:156-158, 191-196, 259-270 *)
Fixpoint setNamesT (withNone : bool) (n : N) (names : list bytes) : res (list (bytes * N) * list bytes) :=
  match names with
  | [] => Got ([], repeat [] (N.to_nat n))
  | name :: args =>
      '(m, arr) <~ setNamesT withNone n args ;;
      if withNone && beq name (b_ "None") then Says DomainError (b_ "'None' should not be specified")
      else let index := n - 1 - len args in
           m' <~ insertNameT m name index ;;
           Got (m', setAt arr (N.to_nat index) name)
  end.
(** EnumList.h:275-290 create *)
Definition createEnumT (created withNone : bool) (names : list bytes) : res EnumNames :=
  if created then Says DomainError (b_ "'create' should only be called once")
  else '(m, arr) <~ setNamesT withNone (len names) names ;; Got {| nameMap := m; enumNames := arr |}.
(** EnumList.h:114-116 operator[] *)
Definition enumAtT (withNone : bool) (e : EnumNames) (i : Z) : res N := checkIndexT false (enumSize withNone e) i IndexMsg.
(** EnumList.h:121-123 with EnumContainer.h:69-71: getIndex passes the number of the enum value *)
Definition baseToStringT (withNone : bool) (e : EnumNames) (x : N) : res bytes :=
  i <~ checkIndexT false (enumSize withNone e) (Z.of_N x) EnumMsg ;;
  match nth_error (enumNames e) (N.to_nat i) with Some s => Got s | None => Undefined end.
(** EnumList.h:233-235 *)
Definition enumToStringT (withNone : bool) (e : EnumNames) (x : N) : res bytes :=
  if withNone && (x =? len (enumNames e)) then Got (b_ "None") else baseToStringT withNone e x.
(** EnumList.h:292-297 *)
Definition enumFromStringT (e : EnumNames) (name : bytes) : res N :=
  match findName name (nameMap e) with Some x => Got x | None => Says DomainError (b_ "name '" ++ name ++ b_ "' not found") end.
(** EnumList.h:239-253 *)
Definition fromStringAllowEmptyT (e : EnumNames) (name : bytes) : res N :=
  if isEmpty name then Got (len (enumNames e)) else enumFromStringT e name.
Definition fromStringAllowNoneT (e : EnumNames) (name : bytes) : res N :=
  if beq name (b_ "None") then Got (len (enumNames e)) else enumFromStringT e name.
Definition fromStringAllowEmptyAndNoneT (e : EnumNames) (name : bytes) : res N :=
  if isEmpty name || beq name (b_ "None") then Got (len (enumNames e)) else enumFromStringT e name.

(** EnumList.h:87, 91: the static instance is set while an object exists.  EnumList.h:73: the destructor resets it, also if a constructor
    throws after the one of BaseEnumList (all throws are after it), so a failed create leaves none. *)
Definition Instance : Type := option EnumNames.
Definition create (withNone : bool) (st : Instance) (names : list bytes) : res EnumNames * Instance :=
  let r := createEnumT (match st with Some _ => true | None => false end) withNone names in
  (r, match st, r with Some e, _ => Some e | None, Got e => Some e | None, _ => None end).
(** EnumList.h:66-69 *)
Definition instance (st : Instance) : res EnumNames :=
  match st with Some e => Got e | None => Says DomainError (b_ "must call 'create' before calling 'instance'") end.
(** EnumList.h:309-311: the global toString *)
Definition globalToString (withNone : bool) (st : Instance) (x : N) : res bytes := e <~ instance st ;; enumToStringT withNone e x.
(** calls of create and destructions of the object, in a program *)
Inductive EnumOp := Create (names : list bytes) | Destroy.
Fixpoint enumRun (withNone : bool) (st : Instance) (ops : list EnumOp) : Instance :=
  match ops with
  | [] => st
  | Create names :: r => enumRun withNone (snd (create withNone st names)) r
  | Destroy :: r => enumRun withNone None r
  end.
(** EnumList.h:319-335: hasValue, operator! and isNextNone, [none] the number of T::None *)
Definition hasValue (none x : N) : bool := negb (x =? none).
Definition notValue (none x : N) : bool := negb (hasValue none x).
Definition isNextNone (none x : N) : bool := toSize (Z.of_N x + 1) =? none.

(** ** Iterators *)

(** EnumContainer.h:40-41 *)
Definition BadBegin : bytes := b_ "can't decrement past zero".
Definition BadEnd : bytes := b_ "can't increment past end".
(** EnumContainer.h:199-207 *)
Definition iterPlusT (n i : N) (d : Z) : res N :=
  let cur := (Z.of_N i + d)%Z in
  if negb (int64_ok cur) then Undefined
  else if (cur <? 0)%Z then Says RangeError BadBegin
  else let j := toSize cur in if n <? j then Says RangeError BadEnd else Got j.
(** EnumContainer.h:159-163, 174-178, 211-213 *)
Definition iterStepT (n i : N) (op : IterOp) : res N :=
  match op with
  | Incr => if n <=? i then Says RangeError BadEnd else Got (u8 (i + 1))
  | Decr => if i =? 0 then Says RangeError BadBegin else Got (i - 1)
  | Plus d => iterPlusT n i d
  | Minus d => if int64_ok (- d) then iterPlusT n i (- d) else Undefined
  end.
(** EnumList.h:136-140 *)
Definition iterDerefT (n i : N) : res N := if n <=? i then Says RangeError (IndexMsg ++ to_string i ++ RangeMsg) else Got i.
(** EnumContainer.h:192-196 *)
Definition iterAtT (n i : N) (d : Z) : res N := j <~ iterPlusT n i d ;; iterDerefT n j.
(** EnumList.h:143-145: uint8_t values are promoted to int *)
Definition iterMinus (i j : N) : Z := (Z.of_N i - Z.of_N j)%Z.

(** ** Enum maps *)

(** EnumMap.h:59-61, 66-69 *)
Definition mapGetT {V} (dflt : V) (vals : list V) (x : N) : res V :=
  if x =? len vals then Got dflt
  else i <~ checkIndexT true (len vals) (Z.of_N x) IndexMsg ;;
       match nth_error vals (N.to_nat i) with Some v => Got v | None => Undefined end.
Definition mapSetT {V} (vals : list V) (x : N) (v : V) : res (list V) :=
  i <~ checkIndexT true (len vals) (Z.of_N x) IndexMsg ;; Got (setAt vals (N.to_nat i) v).
(** EnumMap.h:78-150: an iterator has a position and the map it belongs to, a number here; none if it was made by the default constructor *)
Record MapIter := MkIter { itMap : option N; itPos : N }.
Definition sameMap (a b : option N) : bool :=
  match a, b with Some x, Some y => x =? y | None, None => true | _, _ => false end.
(** EnumContainer.cpp:6-8 *)
Definition comparable {A} (a b : MapIter) (k : res A) : res A :=
  if sameMap (itMap a) (itMap b) then k else Says DomainError (b_ "not comparable").
(** EnumMap.h:87-96 *)
Definition itEq (a b : MapIter) : res bool := comparable a b (Got (itPos a =? itPos b)).
Definition itNe (a b : MapIter) : res bool := r <~ itEq a b ;; Got (negb r).
(** EnumMap.h:113-135 *)
Definition itLt (a b : MapIter) : res bool := comparable a b (Got (itPos a <? itPos b)).
Definition itLe (a b : MapIter) : res bool := r <~ itLt a b ;; if r then Got true else itEq a b.
Definition itGe (a b : MapIter) : res bool := r <~ itLt a b ;; Got (negb r).
Definition itGt (a b : MapIter) : res bool := r <~ itLe a b ;; Got (negb r).
(** EnumMap.h:138-142 *)
Definition itMinus (a b : MapIter) : res Z := comparable a b (Got (iterMinus (itPos a) (itPos b))).
(** EnumMap.h:101-108, EnumContainer.cpp:10-12; [maps] are the values of each map *)
Definition itDeref {V} (dflt : V) (maps : N -> list V) (n : N) (a : MapIter) : res V :=
  match itMap a with
  | None => Says DomainError (b_ "not initialized")
  | Some m => if n <=? itPos a then Says RangeError (IndexMsg ++ to_string (itPos a) ++ RangeMsg) else mapGetT dflt (maps m) (itPos a)
  end.

(** ** Symbols *)

(** Symbol.cpp:6-20; [type] is the name of the type of the symbol *)
Definition newSymbolT (type : bytes) (st : Symbols) (name : bytes) : res N * Symbols :=
  match name with
  | [] => (Got 0, st)
  | _ =>
      if len (symList st) <? SymbolMax then
        match lookup name (symMap st) with
        | Some i => (Got i, st)
        | None => let i := u16 (len (symList st) + 1) in
                  (Got i, {| symMap := (name, i) :: symMap st; symList := symList st ++ [name] |})
        end
      else match lookup name (symMap st) with
           | Some i => (Got i, st)
           | None => (Says DomainError (type ++ b_ ": can't add '" ++ name ++ b_ "' - max capacity"), st)
           end
  end.

(** ** Ranges of blocks *)

(** BlockRange.h:53-55, BlockRange.cpp:6-12 *)
Definition rangeAtT (blocks : list block) (i : N) : res N :=
  if rangeSize blocks <? i
  then Says RangeError (b_ "index '" ++ to_string i ++ b_ "' is out of range for BlockRange with size '" ++ to_string (rangeSize blocks) ++ b_ "'")
  else match nth_error (rangeArray blocks) (N.to_nat i) with Some c => Got c | None => Undefined end.

(** ** toChar *)

(** String.cpp:11-13 *)
Definition outOfRange {A} (msg : bytes) (shown : bytes) : res A := Says RangeError (msg ++ b_ ": '" ++ shown ++ b_ "' out of range").
(** String.cpp:86-93 with 20-24; char is signed or not *)
Definition toCharIntT (signed : bool) (x : Z) (allowNegative : bool) : res N :=
  if allowNegative && (x <? (if signed then -128 else 0))%Z then outOfRange (b_ "toChar (int)") (to_stringZ x)
  else if negb allowNegative && (x <? 0)%Z then outOfRange (b_ "toChar (positive int)") (to_stringZ x)
  else if (255 <? x)%Z then outOfRange (b_ "toChar (int)") (to_stringZ x)
  else Got (Z.to_N (x mod 256)).
(** String.cpp:95-115: the unsigned types *)
Inductive CharFrom := FromUInt32 | FromUInt16 | FromSize | FromCode | FromUChar.
Definition charType (t : CharFrom) : bytes :=
  match t with FromUInt32 => b_ "uint32_t" | FromUInt16 => b_ "uint16_t" | FromSize => b_ "size_t" | FromCode => b_ "Code" | FromUChar => [] end.
Definition toCharT (t : CharFrom) (x : N) : res N :=
  if 255 <? x
  then shown <~ (match t with FromCode => quiet (toHex 4 x NoBrackets Lower 4) | _ => Got (to_string x) end) ;;
       outOfRange (b_ "toChar (" ++ charType t ++ b_ ")") shown
  else Got x.
