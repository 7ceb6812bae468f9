(** Model of the loops [for (ColumnFile f{file, columns}; f.nextRow();)] that read the data files: libs/kanji/src/UcdData.cpp:93-98,
    libs/kanji/src/RadicalData.cpp:47-51, libs/kanji/src/TextKanjiData.cpp:71-76, libs/kanji/include/kt_kanji/OfficialKanji.h:205-213
    and libs/quiz/src/GroupData.cpp:47-50. *)
From Verif Require Export ColumnFileModel.
Open Scope N_scope.

(** what the body of the loop gets for its columns.  The code asks for each field when it needs it; here all are asked for,
    which makes no difference since all these columns are in the header. *)
Fixpoint fieldsOf (f : ColumnFile) (cols : list Column) : out (list bytes) :=
  match cols with
  | [] => Val []
  | c :: r => v <- getField f c ;; vs <- fieldsOf f r ;; Val (v :: vs)
  end.
(** the rows for which the body is executed, and whether the loop then ends because there are no more rows ([true]) or
    because nextRow throws ([false]).  [n] is a bound for the number of rows. *)
Fixpoint rowsLoop (n : nat) (f : ColumnFile) (cols : list Column) : out (list (list bytes) * bool) :=
  match nextRow f with
  | Val (false, _) => Val ([], true)
  | Val (true, g) =>
      match n with
      | O => Fuel
      | S n' =>
          row <- fieldsOf g cols ;;
          '(rows, ended) <- rowsLoop n' g cols ;;
          Val (row :: rows, ended)
      end
  | Throw _ => Val ([], false)
  | Ub => Ub
  | Fuel => Fuel
  end.
(** the whole loop over a file with these contents; [reg] are the columns that exist before.  Columns that are static objects
    are in [reg], so asking for them again does not change it (ColumnFile.cpp:24-28). *)
Definition tableRows (reg : registry) (names : list bytes) (contents : bytes) : out (list (list bytes) * bool) :=
  let '(cols, reg) := newColumns reg names in
  f <- openFile reg contents cols 9 ;;
  rowsLoop (List.length (file f)) f cols.
