(** Model of the messages about files and lists, libs/kanji/src/ListFile.cpp: getFile, the constructor and load with what() of what they
    throw (ErrListProofs shows that they are getFile and listFile of DirModel and construct of ListModel otherwise).  The line number of
    the code is an int; here it has no bound. *)
From Verif Require Export DirModel.
From Verif Require Export ListModel.
From Verif Require Export ErrBase.
Open Scope N_scope.

(** [stem()] *)
Definition stem (p : bytes) : bytes := let f := fileName p in firstn (N.to_nat (len f - len (extension p))) f.

Section Files.
Variable fs : bytes -> option CountModel.node.
(** ListFile.cpp:11-23 getFile *)
Definition getFileT (dir file : bytes) : res bytes :=
  if negb (isDirectory fs dir) then Says DomainError (dir ++ b_ " is not a directory")
  else
    let p := joinPath dir file in
    let p := if negb (isRegular fs p) && negb (hasExtension file) then p ++ TextFileExtension else p in
    if negb (isThere fs p) then
      let msg := dir ++ b_ " must contain '" ++ file in
      Says DomainError (if hasExtension file then msg ++ b_ "'"
                        else msg ++ b_ "' (also tried '" ++ TextFileExtension ++ b_ "' extension)")
    else if negb (isRegular fs p) then Says DomainError (file ++ b_ " must be a regular file")
    else Got p.

(** ListFile.cpp:61-64: error *)
Definition atLine (msg : bytes) (line : N) (file : bytes) : bytes := msg ++ b_ " - line: " ++ to_string line ++ b_ ", file: " ++ file.
Definition inFile (msg file : bytes) : bytes := msg ++ b_ ", file: " ++ file.
(** ListFile.cpp:71-95: the texts *)
Definition errorText (name file : bytes) (e : list_error) : bytes :=
  match e with
  | MultipleTokens n => atLine (b_ "got multiple tokens") n file
  | InvalidToken n t => atLine (b_ "invalid multi-byte token '" ++ t ++ b_ "'") n file
  | DuplicateToken n t => atLine (b_ "got duplicate token '" ++ t) n file
  | NonUnique n t => atLine (b_ "found globally non-unique entry '" ++ t ++ b_ "'") n file
  | TooManyEntries => inFile (b_ "exceeded '" ++ to_string MaxEntries ++ b_ "' entries") file
  | Duplicates ts => inFile (b_ "found " ++ to_string (len ts) ++ b_ " duplicates in " ++ name ++ b_ ":" ++ flat_map (fun t => 32 :: t) ts) file
  end.
(** ListFile.cpp:43-56: the constructor with the static sets as they are left; [given] is the name for a typed list and empty otherwise *)
Definition newListT (k : list_kind) (ft : FileType) (p given : bytes) (st : list_static) : out (list_static * (ListFile + bytes)) :=
  let name := match given with [] => firstUpper (stem p) | _ => given end in
  let file := if negb (isRegular fs p) && negb (hasExtension p) then p ++ TextFileExtension else p in
  if negb (isRegular fs file) then Val (st, inr (b_ "can't open " ++ file))
  else
    '(st', r) <- construct k ft (contentsOf fs file) st ;;
    Val (st', match r with inl l => inl l | inr e => inr (errorText name file e) end).
End Files.
