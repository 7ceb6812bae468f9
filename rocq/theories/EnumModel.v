(** Model of libs/utils/include/kt_utils/EnumContainer.h, EnumList.h and EnumMap.h.
    Enum values are their underlying uint8_t numbers.  Names are compile time
    arguments in the code, so the number of names N is at most 255 (EnumList) or
    254 (EnumListWithNone); theorems state that where it matters. *)
From Verif Require Export Base.
Open Scope N_scope.

(** [static_cast<uint8_t>(i)] of any integral value *)
Definition toSize (i : Z) : N := Z.to_N (i mod 256).

(** EnumContainer.h:143-156 checkIndex: the cast comes before the check *)
Definition checkIndex (n : N) (i : Z) : out N :=
  let x := toSize i in if n <=? x then Throw RangeError else Val x.

(** ** EnumList *)

(** EnumList.h:92, 161: the name map and the names *)
Record EnumNames := { nameMap : list (bytes * N); enumNames : list bytes }.

Fixpoint findName (name : bytes) (m : list (bytes * N)) : option N :=
  match m with
  | [] => None
  | (k, v) :: r => if beq k name then Some v else findName name r
  end.
(** EnumList.h:299-303 insert *)
Definition insertName (m : list (bytes * N)) (name : bytes) (index : N) : out (list (bytes * N)) :=
  match findName name m with
  | Some _ => Throw DomainError
  | None => Val ((name, index) :: m)
  end.

(** assignment to one element of an array *)
Fixpoint setAt {A} (l : list A) (i : nat) (x : A) : list A :=
  match l, i with
  | [], _ => []
  | _ :: r, O => x :: r
  | y :: r, S i' => y :: setAt r i' x
  end.
(** EnumList.h:191-196 (EnumList) and 259-270 (EnumListWithNone): the delegating
    constructors set the last name first.  [n] is the total number of names; the
    name at the front gets index [n - 1 - sizeof...(args)].  The result is the name
    map and the [_names] array (EnumList.h:156-158 setName). *)
Fixpoint setNames (withNone : bool) (n : N) (names : list bytes)
  : out (list (bytes * N) * list bytes) :=
  match names with
  | [] => Val ([], repeat [] (N.to_nat n))
  | name :: args =>
      '(m, arr) <- setNames withNone n args ;;
      if withNone && beq name (b_ "None") then Throw DomainError
      else let index := n - 1 - len args in
           m' <- insertName m name index ;;
           Val (m', setAt arr (N.to_nat index) name)
  end.
(** EnumList.h:275-290 create: [created] is whether an instance exists *)
Definition createEnum (created withNone : bool) (names : list bytes) : out EnumNames :=
  if created then Throw DomainError
  else '(m, arr) <- setNames withNone (len names) names ;;
       Val {| nameMap := m; enumNames := arr |}.

(** number of values used for iteration and index checks: EnumList.h:186-187, 226-229 *)
Definition enumSize (withNone : bool) (e : EnumNames) : N :=
  len (enumNames e) + (if withNone then 1 else 0).
(** EnumList.h:114-116 operator[] *)
Definition enumAt (withNone : bool) (e : EnumNames) (i : Z) : out N :=
  checkIndex (enumSize withNone e) i.
(** EnumList.h:121-123 toString (EnumContainer.h:69-71 getIndex); reading past the
    names array is undefined behaviour *)
Definition baseToString (withNone : bool) (e : EnumNames) (x : N) : out bytes :=
  i <- checkIndex (enumSize withNone e) (Z.of_N x) ;;
  match nth_error (enumNames e) (N.to_nat i) with Some s => Val s | None => Ub end.
(** EnumList.h:233-235 EnumListWithNone::toString; None is the value after the names *)
Definition enumToString (withNone : bool) (e : EnumNames) (x : N) : out bytes :=
  if withNone && (x =? len (enumNames e)) then Val (b_ "None") else baseToString withNone e x.
(** EnumList.h:292-297 fromString *)
Definition enumFromString (e : EnumNames) (name : bytes) : out N :=
  match findName name (nameMap e) with Some x => Val x | None => Throw DomainError end.
(** EnumList.h:239-253 *)
Definition isEmpty (s : bytes) : bool := match s with [] => true | _ => false end.
Definition fromStringAllowEmpty (e : EnumNames) (name : bytes) : out N :=
  if isEmpty name then Val (len (enumNames e)) else enumFromString e name.
Definition fromStringAllowNone (e : EnumNames) (name : bytes) : out N :=
  if beq name (b_ "None") then Val (len (enumNames e)) else enumFromString e name.
Definition fromStringAllowEmptyAndNone (e : EnumNames) (name : bytes) : out N :=
  if isEmpty name || beq name (b_ "None") then Val (len (enumNames e)) else enumFromString e name.

(** ** Iterators *)

(** One call on an iterator over [n] values whose position is [i]. *)
Inductive IterOp := Incr | Decr | Plus (d : Z) | Minus (d : Z).
Definition int64_ok (z : Z) : bool := ((- 2^63 <=? z) && (z <? 2^63))%Z.
(** EnumContainer.h:199-207 operator+=; signed overflow is undefined behaviour *)
Definition iterPlus (n i : N) (d : Z) : out N :=
  let cur := (Z.of_N i + d)%Z in
  if negb (int64_ok cur) then Ub
  else if (cur <? 0)%Z then Throw RangeError
  else let j := toSize cur in if n <? j then Throw RangeError else Val j.
(** EnumContainer.h:159-163 operator++, 174-178 operator--, 211-213 operator-= *)
Definition iterStep (n i : N) (op : IterOp) : out N :=
  match op with
  | Incr => if n <=? i then Throw RangeError else Val (u8 (i + 1))
  | Decr => if i =? 0 then Throw RangeError else Val (i - 1)
  | Plus d => iterPlus n i d
  | Minus d => if int64_ok (- d) then iterPlus n i (- d) else Ub
  end.
(** EnumList.h:136-140 operator*, EnumMap.h:103-109 *)
Definition iterDeref (n i : N) : out N := if n <=? i then Throw RangeError else Val i.
(** EnumContainer.h:192-196 operator[] *)
Definition iterAt (n i : N) (d : Z) : out N := j <- iterPlus n i d ;; iterDeref n j.

(** positions after a history of calls; a call that throws leaves the iterator *)
Fixpoint iterRun (n i : N) (ops : list IterOp) : option N :=
  match ops with
  | [] => Some i
  | op :: r => match iterStep n i op with
               | Val j => iterRun n j r
               | Throw _ => iterRun n i r
               | _ => None
               end
  end.

(** ** EnumMap *)

(** EnumMap.h:153: N values; [dflt] is the value of a default constructed V *)
(** EnumMap.h:66-69 const operator[]; [x] is the enum value *)
Definition mapGet {V} (dflt : V) (vals : list V) (x : N) : out V :=
  if x =? len vals then Val dflt
  else i <- checkIndex (len vals) (Z.of_N x) ;;
       match nth_error vals (N.to_nat i) with Some v => Val v | None => Ub end.
(** EnumMap.h:59-61 [m[x] = v] *)
Definition mapSet {V} (vals : list V) (x : N) (v : V) : out (list V) :=
  i <- checkIndex (len vals) (Z.of_N x) ;; Val (setAt vals (N.to_nat i) v).
(** a history of assignments; one that throws changes nothing *)
Fixpoint mapRun {V} (vals : list V) (ops : list (N * V)) : list V :=
  match ops with
  | [] => vals
  | (x, v) :: r => match mapSet vals x v with Val vals' => mapRun vals' r | _ => mapRun vals r end
  end.
