(** Model of libs/kanji/include/kt_kanji/Radical.h, RadicalData.h and the loading and lookup
    part of libs/kanji/src/RadicalData.cpp.  Not modelled: the reports of RadicalData::print
    and the text of error messages.  The rows of the file are given as ColumnFile::get
    returns their fields (ColumnFileModel.v has the reading of rows). *)
From Verif Require Export ColumnFileModel MapModel.
Open Scope N_scope.

(** Radical.h:51-56 *)
Record Radical := MkRadical {
  radNumber : N; radName : bytes; radAltForms : list bytes; radLongName : bytes; radReading : bytes }.
(** RadicalData.h:60-63: _radicals and _map *)
Record RadicalData := MkRadicals { radList : list Radical; radMap : smap N }.
Definition emptyRadicals : RadicalData := MkRadicals [] [].

(** the fields of one row: RadicalData.cpp:47-48 *)
Record RadicalRow := MkRadicalRow { rrNumber : bytes; rrName : bytes; rrLongName : bytes; rrReading : bytes }.

(** RadicalData.cpp:54-60: the first token that is not empty is the name, all after it are
    other forms *)
Fixpoint splitName (tokens : list bytes) (name : bytes) (alt : list bytes) : bytes * list bytes :=
  match tokens with
  | [] => (name, alt)
  | t :: r => match name with
              | [] => splitName r t alt
              | _ => splitName r name (alt ++ [t])
              end
  end.
(** RadicalData.cpp:49-64: the loop; [row] is currentRow() *)
Fixpoint loadRadicalRows (row : N) (rows : list RadicalRow) (d : RadicalData) : out RadicalData :=
  match rows with
  | [] => Val d
  | r :: rest =>
      n <- processU64 (rrNumber r) 255 ;;
      let n := u8 n in
      if negb (n =? row) then Throw DomainError
      else
        let '(name, alt) := splitName (getlines 32 (rrName r)) [] [] in
        loadRadicalRows (row + 1) rest
          (MkRadicals (radList d ++ [MkRadical n name alt (rrLongName r) (rrReading r)])
                      (mupdate (fun _ => n - 1) name (radMap d)))
  end.
(** RadicalData.cpp:46-65: load *)
Definition loadRadicals (rows : list RadicalRow) (d : RadicalData) : out RadicalData :=
  loadRadicalRows 1 rows d.

(** RadicalData.cpp:32-37 and 108-110: find by name; [at] throws std::out_of_range *)
Definition radicalByName (d : RadicalData) (name : bytes) : out Radical :=
  match radList d with
  | [] => Throw DomainError
  | _ => match mfind name (radMap d) with
         | None => Throw DomainError
         | Some i => match nth_error (radList d) (N.to_nat i) with
                     | Some r => Val r
                     | None => Throw StdOutOfRange
                     end
         end
  end.
(** RadicalData.cpp:39-44: find by number *)
Definition radicalByNumber (d : RadicalData) (number : N) : out Radical :=
  match radList d with
  | [] => Throw DomainError
  | _ => if (number =? 0) || (len (radList d) <? number) then Throw DomainError
         else match nth_error (radList d) (N.to_nat (number - 1)) with
              | Some r => Val r
              | None => Throw StdOutOfRange
              end
  end.
