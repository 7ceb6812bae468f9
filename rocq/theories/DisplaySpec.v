(** Specification of the columns taken by text on a terminal. *)
From Verif Require Export BlockSpec DisplayModel.
Open Scope N_scope.

(** characters shown with double width, as listed by the table *)
Definition wide (c : N) : Prop := exists b, In b WideBlocks /\ fst b <= c <= snd b.
(** columns of one character *)
Definition columns (c k : N) : Prop :=
  (non_spacing c /\ k = 0) \/ (~ non_spacing c /\ wide c /\ k = 2) \/ (~ non_spacing c /\ ~ wide c /\ k = 1).
(** columns of a text *)
Inductive total : list N -> N -> Prop :=
| total_nil : total [] 0
| total_cons : forall c cs k n, columns c k -> total cs n -> total (c :: cs) (k + n).
(** a string that a character starts with (or is empty): its first byte is no continuation byte *)
Definition boundary (s : bytes) : Prop :=
  match s with [] => True | b :: _ => ~ (0x80 <= b <= 0xBF) end.
