(** Specification of the messages of a table that is read row by row. *)
From Verif Require Export ErrListSpec ErrTableSpec RowsSpec ErrRowsModel.
From Verif Require Export ErrBase.
Open Scope N_scope.

Section Table.
Variable fs : bytes -> option CountModel.node.
Variable writable : bytes -> bool.
(** the file for [file], which may lack .txt, is at [q]; it is called [name] and contains [c] *)
Definition found_at (dir file q name c : bytes) : Prop :=
  is_dir fs dir /\ is_file fs q c /\ exists p, child dir file p
  /\ ((name = file /\ q = p) \/ (no_file fs p /\ ~ has_ext file /\ name = file ++ b_ ".txt" /\ q = p ++ b_ ".txt")).

Context {A : Type}.
(** what a row does to what was read before it: [step name number row a b], or what is wrong with it *)
Variable step : bytes -> N -> list bytes -> A -> A -> Prop.
Variable wrong : bytes -> N -> list bytes -> A -> exn -> bytes -> Prop.

(** the rows of some lines, the first of which is row number [k] *)
Inductive ran (name : bytes) (headers names : list bytes) : N -> list bytes -> A -> A -> Prop :=
| ran_nil : forall k a, ran name headers names k [] a a
| ran_cons : forall k line row lines a b c, line_row headers names line row -> step name k row a b ->
    ran name headers names (k + 1) lines b c -> ran name headers names k (line :: lines) a c.
(** the whole table *)
Definition table_loads (dir file : bytes) (names : list bytes) (a b : A) : Prop :=
  exists q name c hl lines headers, found_at dir file q name c /\ writable q = true /\ cut 10 c (hl :: lines)
  /\ header_of names hl headers /\ ran name headers names 1 lines a b.
(** the first fault *)
Inductive table_says (dir file : bytes) (names : list bytes) (a : A) : exn -> bytes -> Prop :=
| ts_file : forall w, file_says fs dir file w -> table_says dir file names a DomainError w
| ts_locked : forall q name c, found_at dir file q name c -> writable q = false ->
    table_says dir file names a DomainError (b_ "missing header row" ++ in_file name)
| ts_header : forall q name c r, found_at dir file q name c -> writable q = true -> header_wrong names 9 (Contents c) r ->
    table_says dir file names a DomainError (r ++ in_file name)
| ts_line : forall q name c hl before line rest headers b r, found_at dir file q name c -> writable q = true ->
    cut 10 c (hl :: before ++ line :: rest) -> header_of names hl headers -> ran name headers names 1 before a b ->
    row_wrong 9 (List.length names) line r -> table_says dir file names a DomainError (r ++ in_row name (1 + len before))
| ts_row : forall q name c hl before line rest headers b row e w, found_at dir file q name c -> writable q = true ->
    cut 10 c (hl :: before ++ line :: rest) -> header_of names hl headers -> ran name headers names 1 before a b ->
    line_row headers names line row -> wrong name (1 + len before) row b e w -> table_says dir file names a e w.
End Table.
