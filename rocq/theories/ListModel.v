(** Model of libs/kanji/include/kt_kanji/ListFile.h and libs/kanji/src/ListFile.cpp.
    Not modelled: finding the file (ListFile.cpp:11-23 and 49-53) and the text of the
    error messages; the content of the file is a parameter. *)
From Verif Require Export ColumnFileModel Utf8Model MapModel.
Open Scope N_scope.

(** ListFile.h:51-54: FileType *)
Inductive FileType := MultiplePerLine | OnePerLine.

(** std::set<String> is only inserted into, searched and cleared here, so the order of its
    elements cannot be observed: the list of the elements. *)
Definition sset := list bytes.
Definition sset_has (t : bytes) (s : sset) : bool := existsb (beq t) s.
(** [s.insert(t)]: the new set and [.second] *)
Definition sset_insert (t : bytes) (s : sset) : sset * bool :=
  if sset_has t s then (s, false) else (t :: s, true).

(** ListFile.h:27: MaxEntries *)
Definition MaxEntries : N := 65534.

(** The DomainErrors of load(), with the line number or token that the message shows. *)
Inductive list_error :=
| MultipleTokens (line : N)               (* ListFile.cpp:71 *)
| InvalidToken (line : N) (token : bytes) (* :89 *)
| DuplicateToken (line : N) (token : bytes) (* :91 *)
| NonUnique (line : N) (token : bytes)    (* :95 *)
| TooManyEntries                          (* :75 *)
| Duplicates (tokens : list bytes).       (* :78-81 *)

(** ListFile.h:122-123: the members filled by load(): [_list] and [_map] (name to index) *)
Record ListFile := MkList { listOf : list bytes; indexOf : smap N }.
Definition emptyList : ListFile := MkList [] [].

(** ListFile.cpp:99-105: addEntry; the index is a uint16_t, so [_list.size()] is truncated *)
Definition addEntry (token : bytes) (l : ListFile) : option ListFile :=
  if len (listOf l) =? MaxEntries then None
  else let l' := listOf l ++ [token] in
       Some (MkList l' (match mfind token (indexOf l) with
                        | Some _ => indexOf l  (* emplace leaves an existing entry alone *)
                        | None => mupdate (fun _ => u16 (len l')) token (indexOf l)
                        end)).

(** What one step of load() does to the set of unique names it was given: the set is
    changed even when the step ends in an exception. *)
Inductive step (A : Type) := Done (s : sset) (a : A) | Failed (s : sset) (e : list_error).
Arguments Done {A}. Arguments Failed {A}.

(** ListFile.cpp:85-97: validate.  [own]: a set was passed (typed lists); the result says
    whether the token is new. *)
Definition validate (own : bool) (line : N) (token : bytes) (l : ListFile) (s : sset) : out (step bool) :=
  valid <- isValidMBUtf8 token true ;;
  if negb valid then Val (Failed s (InvalidToken line token))
  else match mfind token (indexOf l) with
       | Some _ => Val (Failed s (DuplicateToken line token))
       | None =>
           let (s', fresh) := sset_insert token s in
           if own then Val (Done s' fresh)
           else if negb fresh then Val (Failed s' (NonUnique line token))
           else Val (Done s' true)
       end.

(** ListFile.cpp:69-75: the tokens of one line; [dups] is the list of lines 66 and 73 *)
Fixpoint loadTokens (ft : FileType) (own : bool) (num : N) (line : bytes) (tokens : list bytes)
    (l : ListFile) (dups : list bytes) (s : sset) : out (step (ListFile * list bytes)) :=
  match tokens with
  | [] => Val (Done s (l, dups))
  | token :: r =>
      if match ft with OnePerLine => negb (beq token line) | MultiplePerLine => false end
      then Val (Failed s (MultipleTokens num))
      else
        v <- validate own num token l s ;;
        match v with
        | Failed s' e => Val (Failed s' e)
        | Done s' false => loadTokens ft own num line r l (dups ++ [token]) s'
        | Done s' true =>
            match addEntry token l with
            | None => Val (Failed s' TooManyEntries)
            | Some l' => loadTokens ft own num line r l' dups s'
            end
        end
  end.

(** ListFile.cpp:67-76: the lines, numbered from 1 *)
Fixpoint loadLines (ft : FileType) (own : bool) (num : N) (lines : list bytes)
    (l : ListFile) (dups : list bytes) (s : sset) : out (step (ListFile * list bytes)) :=
  match lines with
  | [] => Val (Done s (l, dups))
  | line :: r =>
      v <- loadTokens ft own num line (getlines 32 line) l dups s ;;
      match v with
      | Failed s' e => Val (Failed s' e)
      | Done s' (l', dups') => loadLines ft own (num + 1) r l' dups' s'
      end
  end.

(** ListFile.cpp:58-83: load *)
Definition load (ft : FileType) (own : bool) (content : bytes) (s : sset) : out (step ListFile) :=
  v <- loadLines ft own 1 (getlines 10 content) emptyList [] s ;;
  match v with
  | Failed s' e => Val (Failed s' e)
  | Done s' (l, dups) =>
      match dups with
      | [] => Val (Done s' l)
      | _ => Val (Failed s' (Duplicates dups))
      end
  end.

(** ListFile.cpp:107-109: exists *)
Definition list_exists (l : ListFile) (s : bytes) : bool :=
  match mfind s (indexOf l) with Some _ => true | None => false end.
(** ListFile.cpp:111-114: getIndex *)
Definition getIndex (l : ListFile) (name : bytes) : N :=
  match mfind name (indexOf l) with Some i => i | None => 0 end.
(** ListFile.cpp:116-123: toString *)
Definition list_toString (l : ListFile) : bytes := concat (listOf l).

(** ** The static sets *)

(** Which constructor is used: ListFile (ListFile.cpp:43-44), LevelListFile or KyuListFile
    (ListFile.h:143-156). *)
Inductive list_kind := PlainList | LevelList | KyuList.
Definition kind_eqb (a b : list_kind) : bool :=
  match a, b with
  | PlainList, PlainList | LevelList, LevelList | KyuList, KyuList => true
  | _, _ => false
  end.

(** ListFile.h:95 ([_uniqueNames]), ListFile.h:139 (one [_uniqueTypeNames] for each type)
    and ListFile.h:99 ([_otherUniqueNames], which of them were registered) *)
Record list_static := MkStatic { uniqueOf : list_kind -> sset; registered : list_kind -> bool }.
Definition initStatic : list_static := MkStatic (fun _ => []) (fun _ => false).
Definition setUnique (st : list_static) (k : list_kind) (s : sset) : list_static :=
  MkStatic (fun k' => if kind_eqb k' k then s else uniqueOf st k')
           (fun k' => match k with
                      | PlainList => registered st k'
                      | _ => kind_eqb k' k || registered st k'
                      end).

(** ListFile.cpp:43-56 and ListFile.h:129-132: construct a list from a file with this
    content; typed lists have several entries per line *)
Definition construct (k : list_kind) (ft : FileType) (content : bytes) (st : list_static)
  : out (list_static * (ListFile + list_error)) :=
  let own := negb (kind_eqb k PlainList) in
  v <- load (if own then MultiplePerLine else ft) own content (uniqueOf st k) ;;
  match v with
  | Done s l => Val (setUnique st k s, inl l)
  | Failed s e => Val (setUnique st k s, inr e)
  end.

(** ListFile.cpp:38-41: clearUniqueCheckData *)
Definition clearUnique (st : list_static) : list_static :=
  MkStatic (fun k => match k with
                     | PlainList => []
                     | _ => if registered st k then [] else uniqueOf st k
                     end) (registered st).

(** A program using the class: constructions and clears, in order; the results of the
    constructions are collected in order. *)
Inductive list_op := Construct (k : list_kind) (ft : FileType) (content : bytes) | ClearUnique.
Fixpoint list_run (ops : list list_op) (st : list_static) : out (list_static * list (list_kind * (ListFile + list_error))) :=
  match ops with
  | [] => Val (st, [])
  | ClearUnique :: r => list_run r (clearUnique st)
  | Construct k ft content :: r =>
      '(st', x) <- construct k ft content st ;;
      '(st'', xs) <- list_run r st' ;;
      Val (st'', (k, x) :: xs)
  end.
