(** Independent specification of positional notation. *)
From Verif Require Export Base.

(** The number denoted by a list of digit values in base [b]. *)
Definition positional (b : N) (ds : list N) : N := fold_left (fun a d => a * b + d) ds 0.

(** Value of a digit character: 0-9, A-F, a-f. *)
Definition digit_value (c : N) : option N :=
  if (48 <=? c) && (c <=? 57) then Some (c - 48)
  else if (65 <=? c) && (c <=? 70) then Some (c - 55)
  else if (97 <=? c) && (c <=? 102) then Some (c - 87)
  else None.

(** [s] is a numeral for [x] in base [b] (digits below the base only). *)
Definition denotes (b : N) (s : bytes) (x : N) : Prop :=
  exists ds, map digit_value s = map Some ds /\ Forall (fun d => d < b) ds
             /\ s <> [] /\ positional b ds = x.

(** decimal digits and their value *)
Definition is_digit (c : N) : Prop := 48 <= c /\ c <= 57.
Definition decimal (s : bytes) : N := fold_left (fun a c => a * 10 + (c - 48)) s 0.

(** An upper (lower) case hexadecimal digit. *)
Definition is_upper_hex (c : N) : Prop := is_digit c \/ (65 <= c /\ c <= 70).
Definition is_lower_hex (c : N) : Prop := is_digit c \/ (97 <= c /\ c <= 102).

(** [s] has at least [m] characters, and no leading zero beyond that (a single
    "0" excepted) *)
Definition min_size (s : bytes) (m : N) : Prop :=
  m <= len s /\ (len s <= N.max 1 m \/ match s with c :: _ => c <> 48 | [] => False end).
