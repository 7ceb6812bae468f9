(** Model of libs/utils/src/ColumnFile.cpp with the texts of its exceptions.  The class is the one of ColumnFileModel;
    [_fileName] is the parameter [name]. *)
From Verif Require Export ErrBase ColumnFileModel MapModel.
Open Scope N_scope.

(** ColumnFile.cpp:168-172 errorMsg *)
Definition errorMsg (name : bytes) (row : N) (msg : bytes) : bytes :=
  msg ++ b_ " - file: " ++ name ++ (if row =? 0 then [] else b_ ", row: " ++ to_string row).
(** ColumnFile.cpp:158-160 error *)
Definition tableError {A} (name : bytes) (row : N) (msg : bytes) : res A := Says DomainError (errorMsg name row msg).
(** ColumnFile.cpp:162-166 error, with a column and a value *)
Definition valueError {A} (name : bytes) (row : N) (msg : bytes) (c : Column) (s : bytes) : res A :=
  Says DomainError (errorMsg name row msg ++ b_ ", column: '" ++ cname c ++ b_ "', value: '" ++ s ++ b_ "'").

(** ColumnFile.cpp:40-42: colNames.emplace *)
Fixpoint emplaceColumnsE (name : bytes) (cs colNames : list Column) : res (list Column) :=
  match cs with
  | [] => Got colNames
  | c :: r =>
      if existsb (fun d => beq (cname d) (cname c)) colNames then tableError name 0 (b_ "duplicate column '" ++ cname c ++ b_ "'")
      else emplaceColumnsE name r (colNames ++ [c])
  end.
(** ColumnFile.cpp:49-61 processHeaderRow *)
Fixpoint processHeaderE (name : bytes) (headers : list bytes) (pos : nat) (found : list bytes)
    (colNames : list Column) (ctp : list (option nat)) : res (list Column * list (option nat)) :=
  match headers with
  | [] => Got (colNames, ctp)
  | h :: r =>
      if existsb (beq h) found then tableError name 0 (b_ "duplicate header '" ++ h ++ b_ "'")
      else match findCol h colNames with
           | None => tableError name 0 (b_ "unrecognized header '" ++ h ++ b_ "'")
           | Some c =>
               if (cnumber c <? List.length ctp)%nat then
                 processHeaderE name r (S pos) (h :: found) (eraseCol h colNames) (update ctp (cnumber c) (Some pos))
               else Undefined
           end
  end.
(** colNames is a std::map, so its names come in their order (ColumnFile.h:104) *)
Fixpoint insertName (n : bytes) (l : list bytes) : list bytes :=
  match l with
  | [] => [n]
  | x :: r => if blt n x then n :: l else x :: insertName n r
  end.
Definition sortNames (l : list bytes) : list bytes := fold_right insertName [] l.
(** ColumnFile.cpp:67-71: the list of columns *)
Fixpoint columnList (msg : bytes) (l : list bytes) : bytes :=
  match l with
  | [] => msg
  | n :: r => columnList ((match msg with [] => [] | _ => msg ++ b_ "," end) ++ b_ " '" ++ n ++ b_ "'") r
  end.
(** ColumnFile.cpp:63-74 verifyHeaderColumns *)
Definition verifyHeaderColumns (name : bytes) (colNames : list Column) : res unit :=
  match sortNames (map cname colNames) with
  | [] => Got tt
  | [n] => tableError name 0 (b_ "column '" ++ n ++ b_ "' not found")
  | l => tableError name 0 (to_string (len l) ++ b_ " columns not found:" ++ columnList [] l)
  end.

(** what there is at the path of a file *)
Inductive place := Nothing | NotFile | Contents (s : bytes).
(** ColumnFile.cpp:30-47 the constructor *)
Definition openFileE (reg : registry) (name : bytes) (at_path : place) (columns : list Column) (delim : N) : res ColumnFile :=
  match columns with
  | [] => tableError name 0 (b_ "must specify at least one column")
  | _ =>
    match at_path with
    | Nothing => tableError name 0 (b_ "doesn't exist")
    | NotFile => tableError name 0 (b_ "not regular file")
    | Contents contents =>
        match getlines 10 contents with
        | [] => tableError name 0 (b_ "missing header row")
        | headerRow :: rows =>
            colNames <~ emplaceColumnsE name columns [] ;;
            '(missing, ctp) <~ processHeaderE name (getlines delim headerRow) 0 [] colNames (repeat None (List.length reg)) ;;
            _ <~ verifyHeaderColumns name missing ;;
            Got {| file := rows; delimiter := delim; currentRow := 0;
                   rowValues := repeat [] (List.length columns); columnToPosition := ctp |}
        end
    end
  end.

(** ColumnFile.cpp:76-96 nextRow *)
Definition nextRowE (name : bytes) (f : ColumnFile) : res (bool * ColumnFile) :=
  match file f with
  | [] => Got (false, f)
  | line :: rest =>
      let row := currentRow f + 1 in
      let set vals := {| file := rest; delimiter := delimiter f; currentRow := row;
                         rowValues := vals; columnToPosition := columnToPosition f |} in
      match storeFields (getlines (delimiter f) line) 0 (rowValues f) with
      | None => tableError name row (b_ "too many columns")
      | Some (i, vals) =>
          let n := List.length (rowValues f) in
          if (i =? n - 1)%nat &&
             (if (i =? 0)%nat then match line with [] => true | _ => false end
              else ends_with line (delimiter f))
          then Got (true, set (update vals (n - 1) []))
          else if (i <? n)%nat then tableError name row (b_ "not enough columns")
          else Got (true, set vals)
      end
  end.
(** the object after [n] calls of nextRow *)
Fixpoint readRowsE (name : bytes) (n : nat) (f : ColumnFile) : res ColumnFile :=
  match n with
  | O => Got f
  | S n' => '(_, f') <~ nextRowE name f ;; readRowsE name n' f'
  end.

(** ColumnFile.cpp:98-105 get *)
Definition getFieldE (name : bytes) (f : ColumnFile) (c : Column) : res bytes :=
  if currentRow f =? 0 then tableError name (currentRow f) (b_ "'nextRow' must be called before calling 'get'")
  else match nth_error (columnToPosition f) (cnumber c) with
       | None => tableError name (currentRow f) (b_ "unrecognized column '" ++ cname c ++ b_ "'")
       | Some None => tableError name (currentRow f) (b_ "invalid column '" ++ cname c ++ b_ "'")
       | Some (Some pos) => match nth_error (rowValues f) pos with Some v => Got v | None => Undefined end
       end.
(** ColumnFile.cpp:119-130 processU64 *)
Definition processU64E (name : bytes) (row : N) (s : bytes) (c : Column) (max : N) : res N :=
  match stoul s with
  | Val i => if negb (max =? 0) && (max <? i) then valueError name row (b_ "exceeded max value of " ++ to_string max) c s else Got i
  | Throw _ => valueError name row (b_ "failed to convert to unsigned number") c s
  | Ub => Undefined
  | Fuel => Unfinished
  end.
(** ColumnFile.cpp:109-117 getU64 and getOptU64 *)
Definition getU64E (name : bytes) (f : ColumnFile) (c : Column) (max : N) : res N :=
  s <~ getFieldE name f c ;; processU64E name (currentRow f) s c max.
Definition getOptU64E (name : bytes) (f : ColumnFile) (c : Column) (max : N) : res (option N) :=
  s <~ getFieldE name f c ;;
  match s with [] => Got None | _ => v <~ processU64E name (currentRow f) s c max ;; Got (Some v) end.
(** ColumnFile.cpp:132-142 getBool *)
Definition getBoolE (name : bytes) (f : ColumnFile) (c : Column) : res bool :=
  s <~ getFieldE name f c ;;
  let wrong := valueError name (currentRow f) (b_ "failed to convert to bool") c s in
  match s with
  | [] => Got false
  | [b] => if (b =? 89) || (b =? 84) then Got true else if (b =? 78) || (b =? 70) then Got false else wrong
  | _ => wrong
  end.
(** ColumnFile.cpp:144-156 getChar32 *)
Definition getChar32E (name : bytes) (f : ColumnFile) (c : Column) : res N :=
  s <~ getFieldE name f c ;;
  if (len s <? 4) || (5 <? len s) then valueError name (currentRow f) (b_ "failed to convert to Code, size must be 4 or 5") c s
  else if existsb (fun i => (i <? 48) || (70 <? i) || ((i <? 65) && (57 <? i))) s
  then valueError name (currentRow f) (b_ "failed to convert to Code, invalid hex") c s
  else Got (fold_left (fun a b => a * 16 + hexVal b) s 0).
