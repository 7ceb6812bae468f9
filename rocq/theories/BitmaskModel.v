(** Model of libs/utils/include/kt_utils/Bitmask.h with to_underlying and to_enum of TypeTraits.h.
    A value of the enum is its underlying number, of an unsigned type of [w] bits. *)
From Verif Require Export Base.
Open Scope N_scope.

Section Mask.
Variable w : N.
(** TypeTraits.h:39-41, 46-49: the conversion of any integer to the underlying type *)
Definition toEnum (z : Z) : N := Z.to_N (z mod 2 ^ Z.of_N w).
(** Bitmask.h:28-31, 33-36, 38-41; the operands of smaller types are promoted to int, which keeps their values *)
Definition maskAnd (x y : N) : N := toEnum (Z.land (Z.of_N x) (Z.of_N y)).
Definition maskOr (x y : N) : N := toEnum (Z.lor (Z.of_N x) (Z.of_N y)).
Definition maskXor (x y : N) : N := toEnum (Z.lxor (Z.of_N x) (Z.of_N y)).
(** Bitmask.h:43-46: the complement of a promoted operand is a negative int *)
Definition maskNot (x : N) : N := toEnum (Z.lnot (Z.of_N x)).
(** Bitmask.h:63-73 *)
Definition maskHasValue (x : N) : bool := negb (x =? 0).
Definition maskIsEmpty (x : N) : bool := negb (maskHasValue x).
(** Bitmask.h:48-61: the assignments that set, clear or change a flag ([x |= f], [x &= ~f], [x ^= f]) or assign *)
Inductive MaskOp := SetFlag (f : N) | ClearFlag (f : N) | ToggleFlag (f : N) | KeepFlag (f : N) | AssignFlag (f : N).
Definition maskStep (x : N) (op : MaskOp) : N :=
  match op with
  | SetFlag f => maskOr x f
  | ClearFlag f => maskAnd x (maskNot f)
  | ToggleFlag f => maskXor x f
  | KeepFlag f => maskAnd x f
  | AssignFlag f => f
  end.
Definition maskRun (x : N) (ops : list MaskOp) : N := fold_left maskStep ops x.
End Mask.
