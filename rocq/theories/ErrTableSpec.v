(** Specification of the messages about tables. *)
From Verif Require Export ErrTableModel ListSpec.
From Verif Require Import JoinSpec.
From Coq Require Import Sorted.
Open Scope N_scope.

(** the order of strings by their bytes *)
Inductive before : bytes -> bytes -> Prop :=
| before_end : forall c r, before [] (c :: r)
| before_less : forall c d a b, c < d -> before (c :: a) (d :: b)
| before_same : forall c a b, before a b -> before (c :: a) (c :: b).

(** the columns without a field in the header, in their order *)
Definition missing (names fields : list bytes) (ms : list bytes) : Prop :=
  StronglySorted before ms /\ forall n, In n ms <-> In n names /\ ~ In n fields.

(** what is wrong with the header of a file with these contents, when these columns are asked for *)
Inductive header_wrong (names : list bytes) (delim : N) : place -> bytes -> Prop :=
| hw_no_columns : forall p, names = [] -> header_wrong names delim p (b_ "must specify at least one column")
| hw_nothing : names <> [] -> header_wrong names delim Nothing (b_ "doesn't exist")
| hw_not_file : names <> [] -> header_wrong names delim NotFile (b_ "not regular file")
| hw_empty : names <> [] -> header_wrong names delim (Contents []) (b_ "missing header row")
| hw_column_twice : forall s a n b, s <> [] -> names = a ++ n :: b -> NoDup a -> In n a ->
    header_wrong names delim (Contents s) (b_ "duplicate column " ++ quoted n)
| hw_header_twice : forall s line lines a h b, NoDup names -> cut 10 s (line :: lines) -> cut delim line (a ++ h :: b) ->
    NoDup a -> incl a names -> In h a ->
    header_wrong names delim (Contents s) (b_ "duplicate header " ++ quoted h)
| hw_unknown : forall s line lines a h b, names <> [] -> NoDup names -> cut 10 s (line :: lines) -> cut delim line (a ++ h :: b) ->
    NoDup a -> incl a names -> ~ In h names ->
    header_wrong names delim (Contents s) (b_ "unrecognized header " ++ quoted h)
| hw_one_missing : forall s line lines fields n, NoDup names -> cut 10 s (line :: lines) -> cut delim line fields ->
    NoDup fields -> incl fields names -> missing names fields [n] ->
    header_wrong names delim (Contents s) (b_ "column " ++ quoted n ++ b_ " not found")
| hw_missing : forall s line lines fields m n ms, NoDup names -> cut 10 s (line :: lines) -> cut delim line fields ->
    NoDup fields -> incl fields names -> missing names fields (m :: n :: ms) ->
    header_wrong names delim (Contents s)
      (to_string (len (m :: n :: ms)) ++ b_ " columns not found: " ++ separated (b_ ", ") (map quoted (m :: n :: ms))).

(** where it is wrong *)
Definition in_file (name : bytes) : bytes := b_ " - file: " ++ name.
Definition in_row (name : bytes) (k : N) : bytes := in_file name ++ b_ ", row: " ++ to_string k.
Definition in_column (column value : bytes) : bytes := b_ ", column: " ++ quoted column ++ b_ ", value: " ++ quoted value.

(** a line of a table with [n] columns; one more, empty, field is dropped *)
Definition row_fits (delim : N) (n : nat) (line : bytes) : Prop :=
  exists fs, has_fields delim line fs /\ (List.length fs = n \/ List.length (strip_trailing_empty fs) = n).
Inductive row_wrong (delim : N) (n : nat) (line : bytes) : bytes -> Prop :=
| rw_many : forall fs, has_fields delim line fs -> (n < List.length (strip_trailing_empty fs))%nat ->
    row_wrong delim n line (b_ "too many columns")
| rw_few : forall fs, has_fields delim line fs -> (List.length fs < n)%nat -> row_wrong delim n line (b_ "not enough columns").

(** what is wrong with a value *)
Inductive number_wrong (max : N) (s : bytes) : bytes -> Prop :=
| nw_not : (forall v, ~ loose_number s v) -> number_wrong max s (b_ "failed to convert to unsigned number")
| nw_large : forall v, loose_number s v -> max <> 0 -> max < v -> number_wrong max s (b_ "exceeded max value of " ++ to_string max).
Inductive bool_wrong (s : bytes) : bytes -> Prop :=
| bw_not : s <> [] -> ~ In s [b_ "Y"; b_ "T"; b_ "N"; b_ "F"] -> bool_wrong s (b_ "failed to convert to bool").
Inductive code_wrong (s : bytes) : bytes -> Prop :=
| cw_size : len s <> 4 -> len s <> 5 -> code_wrong s (b_ "failed to convert to Code, size must be 4 or 5")
| cw_hex : len s = 4 \/ len s = 5 -> ~ Forall is_upper_hex s -> code_wrong s (b_ "failed to convert to Code, invalid hex").
