(** Specification of radicals. *)
From Verif Require Export ListSpec RadicalModel.
Open Scope N_scope.

(** the names in a field: words separated by single spaces, after any number of spaces; the
    first one is the name, the others are alternative forms *)
Definition field_names (field name : bytes) (alt : list bytes) : Prop :=
  (exists m, cut 32 field (repeat [] m ++ name :: alt) /\ name <> [])
  \/ (exists m, cut 32 field (repeat [] m) /\ name = [] /\ alt = []).
(** the radical on row [n] *)
Definition row_radical (n : N) (row : RadicalRow) (r : Radical) : Prop :=
  radNumber r = n /\ field_names (rrName row) (radName r) (radAltForms r)
  /\ radLongName r = rrLongName row /\ radReading r = rrReading row.
(** row number [n] of the file (counted from 1) is [row] *)
Definition at_row {A} (rows : list A) (n : N) (row : A) : Prop :=
  1 <= n /\ nth_error rows (N.to_nat (n - 1)) = Some row.
