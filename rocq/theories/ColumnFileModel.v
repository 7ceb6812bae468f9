(** Model of libs/utils/src/ColumnFile.cpp and libs/utils/include/kt_utils/ColumnFile.h. *)
From Verif Require Export Base.

(** Repeated [std::getline(stream, s, delim)] until it fails: each call takes the
    characters up to (and drops) the next delimiter or the end of input, and fails
    when there is nothing left to extract. *)
Fixpoint getlines_from (delim : N) (s cur : bytes) (pending : bool) : list bytes :=
  match s with
  | [] => if pending then [cur] else []
  | b :: r => if b =? delim then cur :: getlines_from delim r [] false
              else getlines_from delim r (cur ++ [b]) true
  end.
Definition getlines (delim : N) (s : bytes) : list bytes := getlines_from delim s [] false.

(** ColumnFile.h:163: the global map from column name to number; numbers are handed
    out in order of creation, so the map is the list of names. *)
Definition registry := list bytes.
Fixpoint index_of (name : bytes) (l : list bytes) : option nat :=
  match l with
  | [] => None
  | x :: r => if beq x name then Some O else option_map S (index_of name r)
  end.
(** ColumnFile.cpp:24-28 getColumnNumber (the right operand of the assignment is
    evaluated first, so the new number is the size before insertion) *)
Definition getColumnNumber (reg : registry) (name : bytes) : nat * registry :=
  match index_of name reg with
  | Some i => (i, reg)
  | None => (List.length reg, reg ++ [name])
  end.

(** ColumnFile.h:22-39 Column; ColumnFile.cpp:17-18 *)
Record Column := { cname : bytes; cnumber : nat }.
Definition newColumn (reg : registry) (name : bytes) : Column * registry :=
  let '(n, reg') := getColumnNumber reg name in
  ({| cname := name; cnumber := n |}, reg').

(** the column object obtained by asking for a name *)
Definition column (reg : registry) (name : bytes) : Column := fst (newColumn reg name).

(** creating several columns, in order *)
Fixpoint newColumns (reg : registry) (names : list bytes) : list Column * registry :=
  match names with
  | [] => ([], reg)
  | n :: r => let '(c, reg1) := newColumn reg n in
              let '(cs, reg2) := newColumns reg1 r in (c :: cs, reg2)
  end.

(** ColumnFile.h:140-158: the object.  [_file] is the list of lines not yet read. *)
Record ColumnFile := {
  file : list bytes;
  delimiter : N;
  currentRow : N;
  rowValues : list bytes;
  columnToPosition : list (option nat)   (** [None] is ColNotFound *)
}.

(** ColumnFile.cpp:40-42: colNames.emplace; [None] for a duplicate column *)
Fixpoint emplaceColumns (cs colNames : list Column) : option (list Column) :=
  match cs with
  | [] => Some colNames
  | c :: r =>
      if existsb (fun d => beq (cname d) (cname c)) colNames then None
      else emplaceColumns r (colNames ++ [c])
  end.

Fixpoint update {A} (l : list A) (i : nat) (x : A) : list A :=
  match l, i with
  | [], _ => []
  | _ :: r, O => x :: r
  | y :: r, S i' => y :: update r i' x
  end.

Definition findCol (name : bytes) (cs : list Column) : option Column :=
  find (fun c => beq (cname c) name) cs.
Definition eraseCol (name : bytes) (cs : list Column) : list Column :=
  filter (fun c => negb (beq (cname c) name)) cs.

(** ColumnFile.cpp:49-61 processHeaderRow, over the header fields still to come;
    writing past the end of [_columnToPosition] is undefined behaviour *)
Fixpoint processHeader (headers : list bytes) (pos : nat) (found : list bytes)
    (colNames : list Column) (ctp : list (option nat)) : out (list Column * list (option nat)) :=
  match headers with
  | [] => Val (colNames, ctp)
  | h :: r =>
      if existsb (beq h) found then Throw DomainError
      else match findCol h colNames with
           | None => Throw DomainError
           | Some c =>
               if (cnumber c <? List.length ctp)%nat then
                 processHeader r (S pos) (h :: found) (eraseCol h colNames)
                   (update ctp (cnumber c) (Some pos))
               else Ub
           end
  end.

(** ColumnFile.cpp:30-47 the constructor, for an existing regular file with the
    given contents.  [reg] is the registry at the time of the call. *)
Definition openFile (reg : registry) (contents : bytes) (columns : list Column) (delim : N)
  : out ColumnFile :=
  match columns with
  | [] => Throw DomainError
  | _ =>
    match getlines 10 contents with
    | [] => Throw DomainError
    | headerRow :: rows =>
      match emplaceColumns columns [] with
      | None => Throw DomainError
      | Some colNames =>
        '(missing, ctp) <- processHeader (getlines delim headerRow) 0 [] colNames
                             (repeat None (List.length reg)) ;;
        match missing with
        | [] => Val {| file := rows; delimiter := delim; currentRow := 0;
                       rowValues := repeat [] (List.length columns);
                       columnToPosition := ctp |}
        | _ => Throw DomainError   (* 63-74 verifyHeaderColumns *)
        end
      end
    end
  end.

(** ColumnFile.cpp:79-84: storing the fields of a row; [None]: too many columns *)
Fixpoint storeFields (fields : list bytes) (i : nat) (vals : list bytes) : option (nat * list bytes) :=
  match fields with
  | [] => Some (i, vals)
  | f :: r =>
      if (i =? List.length vals)%nat then None
      else storeFields r (S i) (update vals i f)
  end.

Fixpoint last_byte (s : bytes) : option N :=
  match s with [] => None | [b] => Some b | _ :: r => last_byte r end.
Definition ends_with (s : bytes) (d : N) : bool :=
  match last_byte s with Some b => b =? d | None => false end.

(** ColumnFile.cpp:76-96 nextRow *)
Definition nextRow (f : ColumnFile) : out (bool * ColumnFile) :=
  match file f with
  | [] => Val (false, f)
  | line :: rest =>
      let set vals := {| file := rest; delimiter := delimiter f; currentRow := currentRow f + 1;
                         rowValues := vals; columnToPosition := columnToPosition f |} in
      match storeFields (getlines (delimiter f) line) 0 (rowValues f) with
      | None => Throw DomainError
      | Some (i, vals) =>
          let n := List.length (rowValues f) in
          if (i =? n - 1)%nat &&
             (if (i =? 0)%nat then match line with [] => true | _ => false end
              else ends_with line (delimiter f))
          then Val (true, set (update vals (n - 1) []))
          else if (i <? n)%nat then Throw DomainError
          else Val (true, set vals)
      end
  end.

(** the object after [n] calls of nextRow *)
Fixpoint readRows (n : nat) (f : ColumnFile) : out ColumnFile :=
  match n with
  | O => Val f
  | S n' => '(_, f') <- nextRow f ;; readRows n' f'
  end.

(** ColumnFile.cpp:98-105 get *)
Definition getField (f : ColumnFile) (c : Column) : out bytes :=
  if currentRow f =? 0 then Throw DomainError
  else match nth_error (columnToPosition f) (cnumber c) with
       | None => Throw DomainError
       | Some None => Throw DomainError
       | Some (Some pos) =>
           match nth_error (rowValues f) pos with Some v => Val v | None => Ub end
       end.

(** ** Conversions *)

(** [std::stoul(s)] with base 10 (C locale): optional white space, optional sign,
    at least one digit; whatever follows the digits is ignored; a value above
    2^64-1 is out_of_range; a minus sign negates modulo 2^64. *)
Definition isspace (b : N) : bool := (b =? 32) || ((9 <=? b) && (b <=? 13)).
Fixpoint skipSpace (s : bytes) : bytes :=
  match s with b :: r => if isspace b then skipSpace r else s | [] => [] end.
Definition isdigit (b : N) : bool := (48 <=? b) && (b <=? 57).
Fixpoint takeDigits (s : bytes) : bytes :=
  match s with b :: r => if isdigit b then b :: takeDigits r else [] | [] => [] end.
Definition digitsValue (s : bytes) : N := fold_left (fun a b => a * 10 + (b - 48)) s 0.
Definition stoul (s : bytes) : out N :=
  let s1 := skipSpace s in
  let '(neg, s2) := match s1 with
                    | 43 :: r => (false, r)
                    | 45 :: r => (true, r)
                    | _ => (false, s1)
                    end in
  let ds := takeDigits s2 in
  match ds with
  | [] => Throw StdInvalidArgument
  | _ => let v := digitsValue ds in
         if 2^64 - 1 <? v then Throw StdOutOfRange
         else Val (if neg then (2^64 - v) mod 2^64 else v)
  end.

(** ColumnFile.cpp:119-130 processU64 (the catch-all turns every exception of stoul
    into a DomainError) *)
Definition processU64 (s : bytes) (max : N) : out N :=
  match stoul s with
  | Val i => if negb (max =? 0) && (max <? i) then Throw DomainError else Val i
  | Throw _ => Throw DomainError
  | Ub => Ub
  | Fuel => Fuel
  end.
(** ColumnFile.cpp:109-111 getU64; ColumnFile.h:77-80 getUInt *)
Definition getU64 (f : ColumnFile) (c : Column) (max : N) : out N :=
  s <- getField f c ;; processU64 s max.
(** ColumnFile.cpp:113-117 getOptU64 *)
Definition getOptU64 (f : ColumnFile) (c : Column) (max : N) : out (option N) :=
  s <- getField f c ;;
  match s with [] => Val None | _ => v <- processU64 s max ;; Val (Some v) end.
(** ColumnFile.h:91-94, with the static_cast to the narrow type written out *)
Definition getU8 (f : ColumnFile) (c : Column) : out N := i <- getU64 f c (2^8 - 1) ;; Val (u8 i).
Definition getU16 (f : ColumnFile) (c : Column) : out N := i <- getU64 f c (2^16 - 1) ;; Val (u16 i).

(** ColumnFile.cpp:132-142 getBool, on the field *)
Definition convBool (s : bytes) : out bool :=
  match s with
  | [] => Val false
  | [b] => if (b =? 89) || (b =? 84) then Val true          (* Y T *)
           else if (b =? 78) || (b =? 70) then Val false    (* N F *)
           else Throw DomainError
  | _ => Throw DomainError
  end.
Definition getBool (f : ColumnFile) (c : Column) : out bool := s <- getField f c ;; convBool s.

(** value of an upper case hex digit, as used by std::stoi(s, nullptr, 16) *)
Definition hexVal (b : N) : N := if b <=? 57 then b - 48 else b - 55.
(** ColumnFile.cpp:148-156 getChar32(const Column&, const String&) *)
Definition convChar32 (s : bytes) : out N :=
  if (len s <? 4) || (5 <? len s) then Throw DomainError
  else if existsb (fun i => (i <? 48) || (70 <? i) || ((i <? 65) && (57 <? i))) s
  then Throw DomainError
  else Val (fold_left (fun a b => a * 16 + hexVal b) s 0).
(** ColumnFile.cpp:144-146 *)
Definition getChar32 (f : ColumnFile) (c : Column) : out N := s <- getField f c ;; convChar32 s.
