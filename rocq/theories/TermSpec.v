(** Specification of reading keys from a terminal. *)
From Verif Require Export ChoiceSpec TermModel.
Open Scope N_scope.

(** a key stands for the line a user would have typed: Enter for an empty one.  When nothing is read it is as if the key was NUL. *)
Definition typed (r : ReadResult) : bytes :=
  match r with ReadKey 10 => [] | ReadKey c => [c] | _ => [0] end.

(** keys are given to the program at once, and are not shown *)
Definition raw (icanon echo : N) (s r : Settings) : Prop :=
  N.testbit (sLocal r) icanon = false /\ N.testbit (sLocal r) echo = false
  /\ (forall i, i <> icanon -> i <> echo -> N.testbit (sLocal r) i = N.testbit (sLocal s) i)
  /\ sMin r = 1 /\ sTime r = 0 /\ sOthers r = sOthers s.
(** whole lines are given to the program, and are shown *)
Definition cooked (icanon echo : N) (s r : Settings) : Prop :=
  N.testbit (sLocal r) icanon = true /\ N.testbit (sLocal r) echo = true
  /\ (forall i, i <> icanon -> i <> echo -> N.testbit (sLocal r) i = N.testbit (sLocal s) i)
  /\ sMin r = 1 /\ sTime r = 0 /\ sOthers r = sOthers s.
