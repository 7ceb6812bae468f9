(** What enum lists and maps should do; refers to no model definition. *)
From Verif Require Export Base.
Open Scope N_scope.

(** names an enum list can be made from *)
Definition good_names (withNone : bool) (names : list bytes) : Prop :=
  NoDup names /\ (withNone = true -> ~ In (b_ "None") names).

(** last value assigned to [x] in the history *)
Fixpoint last_assigned {V} (x : N) (ops : list (N * V)) (v0 : V) : V :=
  match ops with
  | [] => v0
  | (y, v) :: r => last_assigned x r (if y =? x then v else v0)
  end.

