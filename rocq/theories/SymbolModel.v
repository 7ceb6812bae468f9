(** Model of libs/utils/src/Symbol.cpp and libs/utils/include/kt_utils/Symbol.h. *)
From Verif Require Export Base.

(** Symbol.h:30-31, 101-102: the two static members of one symbol type.  The list
    of pointers into the map's keys is the list of the names pointed to. *)
Record Symbols := { symMap : list (bytes * N); symList : list bytes }.
Definition noSymbols : Symbols := {| symMap := []; symList := [] |}.
(** Symbol.h:19: numeric_limits<uint16_t>::max() - 1 *)
Definition SymbolMax : N := 65534.

(** std::map::find *)
Fixpoint lookup (name : bytes) (m : list (bytes * N)) : option N :=
  match m with
  | [] => None
  | (k, v) :: r => if beq k name then Some v else lookup name r
  end.

(** Symbol.cpp:9-20 getId.  emplace(name, l.size() + 1): converted to uint16_t. *)
Definition symGetId (st : Symbols) (name : bytes) : out N * Symbols :=
  if len (symList st) <? SymbolMax then
    match lookup name (symMap st) with
    | Some i => (Val i, st)
    | None => let i := u16 (len (symList st) + 1) in
              (Val i, {| symMap := (name, i) :: symMap st; symList := symList st ++ [name] |})
    end
  else match lookup name (symMap st) with
       | Some i => (Val i, st)
       | None => (Throw DomainError, st)
       end.
(** Symbol.cpp:6-7, Symbol.h:83: constructing a Symbol; the result is its id *)
Definition newSymbol (st : Symbols) (name : bytes) : out N * Symbols :=
  match name with [] => (Val 0, st) | _ => symGetId st name end.
(** Symbol.h:86-88 name(); vector::at throws std::out_of_range *)
Definition symName (st : Symbols) (id : N) : out bytes :=
  if id =? 0 then Val []
  else match nth_error (symList st) (N.to_nat (id - 1)) with
       | Some s => Val s
       | None => Throw StdOutOfRange
       end.
(** Symbol.h:73-75 exists *)
Definition symExists (st : Symbols) (name : bytes) : bool :=
  match name with
  | [] => false
  | _ => match lookup name (symMap st) with Some _ => true | None => false end
  end.
(** Symbol.h:70 size *)
Definition symSize (st : Symbols) : N := len (symList st).

(** Constructing symbols for each of the names in turn: the state after all of
    them and what each construction gave. *)
Fixpoint newSymbols (st : Symbols) (names : list bytes) : list (out N) * Symbols :=
  match names with
  | [] => ([], st)
  | n :: r => let '(o, st1) := newSymbol st n in
              let '(os, st2) := newSymbols st1 r in (o :: os, st2)
  end.
