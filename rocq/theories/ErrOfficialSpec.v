(** Specification of the messages about radicals, extra readings and the tables of Jouyou, Jinmei and extra Kanji. *)
From Verif Require Export RadicalSpec ErrUcdSpec ErrOfficialModel.
Open Scope N_scope.

(** ** Radicals *)
Definition radical_names : list bytes := [b_ "Number"; b_ "Name"; b_ "LongName"; b_ "Reading"].
Definition radical_fields (l : list bytes) (r : RadicalRow) : Prop := l = [rrNumber r; rrName r; rrLongName r; rrReading r].
(** row [k] is the one of radical [k] *)
Definition radical_step (name : bytes) (k : N) (l : list bytes) (rs rs' : list Radical) : Prop :=
  exists r x, radical_fields l r /\ loose_number (rrNumber r) k /\ k <= 255 /\ row_radical k r x /\ rs' = rs ++ [x].
Definition radical_fault (name : bytes) (k : N) (l : list bytes) (rs : list Radical) (e : exn) (w : bytes) : Prop :=
  e = DomainError /\ exists r, radical_fields l r
  /\ ((exists why, number_wrong 255 (rrNumber r) why /\ w = why ++ in_row name k ++ in_column (b_ "Number") (rrNumber r))
      \/ exists v, loose_number (rrNumber r) v /\ v <= 255 /\ v <> k /\ w = b_ "radicals must be ordered by 'number'" ++ in_row name k).
Definition radical_table fs writable (dir : bytes) (rs : list Radical) : Prop := table_loads fs writable radical_step dir (b_ "radicals") radical_names [] rs.
Definition radical_says fs writable (dir : bytes) (e : exn) (w : bytes) : Prop :=
  table_says fs writable radical_step radical_fault dir (b_ "radicals") radical_names [] e w.

(** ** Extra readings *)
Definition reading_names : list bytes := [b_ "Name"; b_ "Reading"].
Definition reading_step (name : bytes) (k : N) (l : list bytes) (ps ps' : list (bytes * bytes)) : Prop :=
  exists n r, l = [n; r] /\ ~ In n (map fst ps) /\ ps' = ps ++ [(n, r)].
Definition reading_fault (name : bytes) (k : N) (l : list bytes) (ps : list (bytes * bytes)) (e : exn) (w : bytes) : Prop :=
  e = DomainError /\ exists n r, l = [n; r] /\ In n (map fst ps) /\ w = b_ "duplicate name" ++ in_row name k.
Definition reading_table fs writable (dir : bytes) (ps : list (bytes * bytes)) : Prop :=
  table_loads fs writable reading_step dir (b_ "frequency-readings") reading_names [] ps.
Definition reading_says fs writable (dir : bytes) (e : exn) (w : bytes) : Prop :=
  table_says fs writable reading_step reading_fault dir (b_ "frequency-readings") reading_names [] e w.

(** ** Official Kanji *)
Section Checks.
(** the names of all radicals and whether there is Unicode data *)
Variable radicals : list bytes.
Variable has_ucd : bytes -> Prop.
Variable at_row : bytes.
Variable r : KanjiRow.
Definition texts (t : bytes) : bytes -> Prop := fun w => w = t.
Definition count_checks : list check :=
  [ (is_number (krStrokes r) 255, number_said at_row (b_ "Strokes") (krStrokes r) 255 []);
    (exists v, loose_number (krStrokes r) v /\ 1 <= v <= 64, fun w => exists v, loose_number (krStrokes r) v /\ strokes_wrong v None w) ].
Definition radical_checks : list check :=
  [ (radicals <> [], texts (b_ "must call 'load' before calling 'find'"));
    (In (krRadical r) radicals, texts (b_ "name not found: " ++ krRadical r)) ].
Definition entry_checks : list check := [ (has_ucd (krName r), texts (b_ "UCD entry not found: " ++ krName r)) ].
Definition number_checks : list check := [ (is_number (krNumber r) 65535, number_said at_row (b_ "Number") (krNumber r) 65535 []) ].
Definition year_checks : list check := [ (krYear r <> [] -> is_number (krYear r) 65535, number_said at_row (b_ "Year") (krYear r) 65535 []) ].
Definition grade_checks : list check :=
  [ (In (krGrade r) [b_ "1"; b_ "2"; b_ "3"; b_ "4"; b_ "5"; b_ "6"; b_ "S"],
     fun w => exists g, (((exists t, krGrade r = b_ "S" ++ t) /\ g = krGrade r) \/ ((forall t, krGrade r <> b_ "S" ++ t) /\ g = b_ "G" ++ krGrade r))
       /\ w = b_ "name " ++ quoted g ++ b_ " not found") ].
Definition reason_checks : list check :=
  [ (In (krReason r) [b_ "Names"; b_ "Print"; b_ "Variant"; b_ "Moved"; b_ "Simple"; b_ "Other"], texts (b_ "name " ++ quoted (krReason r) ++ b_ " not found")) ].
Definition jouyou_checks : list check := count_checks ++ radical_checks ++ number_checks ++ year_checks ++ grade_checks.
Definition jinmei_checks : list check := radical_checks ++ entry_checks ++ number_checks ++ year_checks ++ reason_checks.
Definition extra_checks : list check := count_checks ++ radical_checks ++ number_checks.
End Checks.

(** the exception for a count of strokes that is out of range is the only one of its type *)
Definition strokes_off (r : KanjiRow) : Prop := exists v, loose_number (krStrokes r) v /\ v <= 255 /\ ~ (1 <= v <= 64).
Definition count_kind (r : KanjiRow) (e : exn) : Prop := (strokes_off r /\ e = RangeError) \/ (~ strokes_off r /\ e = DomainError).
Definition plain_kind (r : KanjiRow) (e : exn) : Prop := e = DomainError.
(** what a table with some columns gives: the rows, if all pass their checks *)
Section Table.
Variable kind : KanjiRow -> exn -> Prop.
Variable fields : list bytes -> KanjiRow -> Prop.
Variable checks : bytes -> KanjiRow -> list check.
Definition kanji_step (name : bytes) (k : N) (l : list bytes) (rs rs' : list KanjiRow) : Prop :=
  exists r, fields l r /\ all_pass (checks (in_row name k) r) /\ rs' = rs ++ [r].
Definition kanji_fault (name : bytes) (k : N) (l : list bytes) (rs : list KanjiRow) (e : exn) (w : bytes) : Prop :=
  exists r, fields l r /\ kind r e /\ first_fault (checks (in_row name k) r) w.
Definition kanji_table fs writable (dir file : bytes) (names : list bytes) (rs : list KanjiRow) : Prop :=
  table_loads fs writable kanji_step dir file names [] rs.
Definition kanji_says fs writable (dir file : bytes) (names : list bytes) (e : exn) (w : bytes) : Prop :=
  table_says fs writable kanji_step kanji_fault dir file names [] e w.
End Table.
Definition jouyou_names : list bytes :=
  [b_ "Number"; b_ "Name"; b_ "Radical"; b_ "Reading"; b_ "OldNames"; b_ "Year"; b_ "Strokes"; b_ "Grade"; b_ "Meaning"].
Definition jouyou_fields (l : list bytes) (r : KanjiRow) : Prop :=
  l = [krNumber r; krName r; krRadical r; krReading r; krOldNames r; krYear r; krStrokes r; krGrade r; krMeaning r] /\ krReason r = [].
Definition jinmei_names : list bytes := [b_ "Number"; b_ "Name"; b_ "Radical"; b_ "Reading"; b_ "OldNames"; b_ "Year"; b_ "Reason"].
Definition jinmei_fields (l : list bytes) (r : KanjiRow) : Prop :=
  l = [krNumber r; krName r; krRadical r; krReading r; krOldNames r; krYear r; krReason r]
  /\ krStrokes r = [] /\ krGrade r = [] /\ krMeaning r = [].
Definition extra_names : list bytes := [b_ "Number"; b_ "Name"; b_ "Radical"; b_ "Reading"; b_ "Strokes"; b_ "Meaning"].
Definition extra_fields (l : list bytes) (r : KanjiRow) : Prop :=
  l = [krNumber r; krName r; krRadical r; krReading r; krStrokes r; krMeaning r]
  /\ krOldNames r = [] /\ krYear r = [] /\ krGrade r = [] /\ krReason r = [].
