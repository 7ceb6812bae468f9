(** Specification of the messages of the containers in libs/utils. *)
From Verif Require Export EnumSpec ErrArgsSpec StringSpec ErrUtilsModel.
From Verif Require Export ErrBase.
Open Scope N_scope.

(** an integer in decimal *)
Definition written_int (t : bytes) (z : Z) : Prop := ((0 <= z)%Z /\ written t (Z.to_N z)) \/ ((z < 0)%Z /\ exists d, written d (Z.to_N (- z)) /\ t = 45 :: d).
(** the message for [what], an index or an enum value *)
Definition out_of_range (what t : bytes) : bytes := what ++ b_ " '" ++ t ++ b_ "' is out of range".

(** an enum list cannot be created: there is one, or the names from the end on are good up to one that is None or occurs behind it again *)
Inductive create_says (created withNone : bool) (names : list bytes) : bytes -> Prop :=
| says_twice : created = true -> create_says created withNone names (b_ "'create' should only be called once")
| says_none : forall before behind, created = false -> withNone = true -> names = before ++ b_ "None" :: behind -> good_names withNone behind ->
    create_says created withNone names (b_ "'None' should not be specified")
| says_duplicate : forall before name behind, created = false -> names = before ++ name :: behind -> good_names withNone behind ->
    (withNone = true -> name <> b_ "None") -> In name behind -> create_says created withNone names (b_ "duplicate name '" ++ name ++ b_ "'").

(** the names of the list that exists after a history: those of the first creation with good names since the last destruction *)
Inductive exists_after (withNone : bool) : list EnumOp -> option (list bytes) -> Prop :=
| after_nothing : exists_after withNone [] None
| after_destroy : forall ops x, exists_after withNone ops x -> exists_after withNone (ops ++ [Destroy]) None
| after_create : forall ops names, exists_after withNone ops None -> good_names withNone names -> exists_after withNone (ops ++ [Create names]) (Some names)
| after_refused : forall ops names, exists_after withNone ops None -> ~ good_names withNone names -> exists_after withNone (ops ++ [Create names]) None
| after_again : forall ops names x, exists_after withNone ops (Some x) -> exists_after withNone (ops ++ [Create names]) (Some x).

(** an iterator over [n] values at [i] does not move *)
Inductive stuck (n i : N) : IterOp -> bytes -> Prop :=
| stuck_end : i = n -> stuck n i Incr (b_ "can't increment past end")
| stuck_begin : i = 0 -> stuck n i Decr (b_ "can't decrement past zero")
| stuck_before : forall op d, (op = Plus d \/ op = Minus (- d))%Z -> (Z.of_N i + d < 0)%Z -> stuck n i op (b_ "can't decrement past zero")
| stuck_beyond : forall op d, (op = Plus d \/ op = Minus (- d))%Z -> (0 <= Z.of_N i + d)%Z -> (Z.of_N n < (Z.of_N i + d) mod 256)%Z ->
    stuck n i op (b_ "can't increment past end").
(** how far the iterator would move fits into ptrdiff_t *)
Definition fits64 (i : N) (op : IterOp) : Prop :=
  match op with Incr | Decr => True | Plus d => (- 2^63 <= Z.of_N i + d < 2^63)%Z | Minus d => (- 2^63 <= - d < 2^63 /\ - 2^63 <= Z.of_N i - d < 2^63)%Z end.
