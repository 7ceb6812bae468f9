(** Masks as sets of flags; refers to no operation of the model. *)
From Verif Require Export BitmaskModel.
Open Scope N_scope.

(** flag number [i] is in a value *)
Definition has (x i : N) : Prop := N.testbit x i = true.
(** a value of an unsigned type of [w] bits *)
Definition fits (w x : N) : Prop := x < 2 ^ w.
(** the value with flag number [i] only *)
Definition flag (i : N) : N := 2 ^ i.
(** what a history of assignments says about flag number [i] *)
Fixpoint last_said (ops : list MaskOp) (i : N) (before : bool) : bool :=
  match ops with
  | [] => before
  | op :: r => last_said r i (match op with
                              | SetFlag f => before || N.testbit f i
                              | ClearFlag f => before && negb (N.testbit f i)
                              | ToggleFlag f => if N.testbit f i then negb before else before
                              | KeepFlag f => before && N.testbit f i
                              | AssignFlag f => N.testbit f i
                              end)
  end.
Definition operand (op : MaskOp) : N := match op with SetFlag f | ClearFlag f | ToggleFlag f | KeepFlag f | AssignFlag f => f end.
