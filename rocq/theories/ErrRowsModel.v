(** Model of the loops [for (ColumnFile f{ListFile::getFile(dir, file), columns}; f.nextRow();)] that read the data files, with what() of
    what they throw.  They are those of DirModel.fileRows and RowsModel (ErrRowsProofs shows that they are the same otherwise); the body
    of the loop is a parameter, it gets the name of the file and the number of the row that ColumnFile adds to messages. *)
From Verif Require Export DirModel RowsModel.
From Verif Require Export ErrListModel ErrTableModel.
From Verif Require Export ErrBase.
Open Scope N_scope.

(** the fields of a row, as in RowsModel.fieldsOf *)
Fixpoint fieldsT (name : bytes) (f : ColumnFile) (cols : list Column) : res (list bytes) :=
  match cols with
  | [] => Got []
  | c :: r => v <~ getFieldE name f c ;; vs <~ fieldsT name f r ;; Got (v :: vs)
  end.
Section Loop.
Context {A : Type}.
Variable body : bytes -> N -> list bytes -> A -> res A.
(** the loop; [n] is a bound for the number of rows *)
Fixpoint rowsLoopT (n : nat) (name : bytes) (f : ColumnFile) (cols : list Column) (a : A) : res A :=
  '(more, g) <~ nextRowE name f ;;
  if more : bool then
    match n with
    | O => Unfinished
    | S n' =>
        row <~ fieldsT name g cols ;;
        a <~ body name (currentRow g) row a ;;
        rowsLoopT n' name g cols a
    end
  else Got a.
(** ColumnFile.cpp:30-47 and the loop; a file that cannot be opened for writing has nothing to read (ColumnFile.cpp:31, 39) *)
Definition tableLoadT (fs : bytes -> option CountModel.node) (writable : bytes -> bool) (reg : bytes -> registry) (dir file : bytes)
    (names : list bytes) (a : A) : res A :=
  p <~ getFileT fs dir file ;;
  let name := fileName p in
  let '(cols, reg) := newColumns (reg file) names in
  f <~ openFileE reg name (Contents (if writable p then contentsOf fs p else [])) cols 9 ;;
  rowsLoopT (List.length (ColumnFileModel.file f)) name f cols a.
End Loop.
