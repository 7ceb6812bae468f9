(** Specification of tables: a header line with the names of the columns in any order, then a line for each row. *)
From Verif Require Export ListSpec.
From Coq Require Export Permutation.
Open Scope N_scope.

(** the values of the columns [names] in a line below [headers]; one more field that is empty is ignored *)
Definition line_row (headers names : list bytes) (line : bytes) (row : list bytes) : Prop :=
  exists fs vals, has_fields 9 line fs /\ (fs = vals \/ fs = vals ++ [[]]) /\ List.length vals = List.length headers
    /\ Forall2 (fun name v => exists p, nth_error headers p = Some name /\ nth_error vals p = Some v) names row.
(** a header with exactly these columns *)
Definition header_of (names : list bytes) (line : bytes) (headers : list bytes) : Prop :=
  cut 9 line headers /\ Permutation headers names.
Definition table (names : list bytes) (contents : bytes) (rows : list (list bytes)) : Prop :=
  exists hl lines headers, cut 10 contents (hl :: lines) /\ header_of names hl headers
    /\ Forall2 (line_row headers names) lines rows.
(** a table up to a line that is not a row *)
Definition broken_table (names : list bytes) (contents : bytes) (rows : list (list bytes)) : Prop :=
  exists hl lines bad rest headers, cut 10 contents (hl :: lines ++ bad :: rest) /\ header_of names hl headers
    /\ Forall2 (line_row headers names) lines rows /\ ~ (exists row, line_row headers names bad row).
(** a registry of columns that have been created *)
Definition known (reg : list bytes) : Prop := exists history, reg = snd (ColumnFileModel.newColumns [] history).
