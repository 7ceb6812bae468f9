(** Further specifications about strings and names. *)
From Verif Require Export StringSpec.
Open Scope N_scope.

(** ASCII letters and the other case of them *)
Definition upper_letter (c : N) : Prop := 65 <= c /\ c <= 90.
Definition lower_letter (c : N) : Prop := 97 <= c /\ c <= 122.
Definition lowered (c d : N) : Prop := (upper_letter c /\ d = c + 32) \/ (~ upper_letter c /\ d = c).
Definition raised (c d : N) : Prop := (lower_letter c /\ d + 32 = c) \/ (~ lower_letter c /\ d = c).
(** a code in upper case hex digits, at least four of them *)
Definition shown_code (u : bytes) (c : N) : Prop := denotes 16 u c /\ Forall is_upper_hex u /\ min_size u 4.
(** [s] is the name of value [x] *)
Definition named (names : list bytes) (s : bytes) (x : N) : Prop := nth_error names (N.to_nat x) = Some s.
