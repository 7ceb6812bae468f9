(** Model of the messages about the data directory, libs/kanji/src/KanjiData.cpp:173-208: getDataDir of DirModel with what() of what
    it throws (ErrDirProofs shows that it is the same otherwise). *)
From Verif Require Export DirModel.
From Verif Require Export ErrArgsModel.
Open Scope N_scope.

(** ** The data directory *)
Section Dir.
Variable fs : bytes -> option CountModel.node.
Variable cwd : bytes.
(** KanjiData.cpp:174-176 *)
Definition ExpectedTextFiles : bytes := to_string TextFilesInDataDir ++ b_ " expected '" ++ TextFileExtension ++ b_ "' files".
(** KanjiData.cpp:177-187 *)
Fixpoint dataArgT (n : nat) (a : Args) (i : N) : res (option bytes) :=
  match n with
  | O => Got None
  | S n' =>
      arg <~ argAtT a i ;;
      if beq arg DataArg then
        if i + 1 =? argc a then Says DomainError (b_ "'-data' must be followed by a directory name")
        else
          data <~ argAtT a (i + 1) ;;
          if negb (isDirectory fs data) then Says DomainError (b_ "'" ++ data ++ b_ "' is not a valid directory")
          else if negb (isValidDataDir fs data) then Says DomainError (b_ "'" ++ data ++ b_ "' does not contain " ++ ExpectedTextFiles)
          else Got (Some data)
      else dataArgT n' a (i + 1)
  end.
(** KanjiData.cpp:190-194 *)
Definition NotFound : bytes := b_ "couldn't find 'data' directory with " ++ ExpectedTextFiles ++ b_ ":
- searched up from current: ".
Definition NotFoundEnd : bytes := b_ "
run in a directory where 'data' can be found or use '-data <dir>'".
Definition Arg0Msg : bytes := b_ "
- searched up from arg0: ".
(** searchUpForDataDir does not throw *)
Definition searchT (p : bytes) : res (option bytes) :=
  match searchUpForDataDir fs p with Val x => Got x | Throw e => Says e [] | Ub => Undefined | Fuel => Unfinished end.
(** KanjiData.cpp:173-208 *)
Definition getDataDirT (a : Args) : res bytes :=
  given <~ dataArgT (N.to_nat (argc a) - 1) a 1 ;;
  match given with
  | Some d => Got d
  | None =>
      found <~ searchT cwd ;;
      found <~ match found with
               | Some _ => Got found
               | None =>
                   if argc a =? 0 then Got None
                   else
                     arg0 <~ argAtT a 0 ;;
                     let p := parentPath arg0 in
                     if isDirectory fs p then
                       up <~ searchT (parentPath p) ;;
                       match up with
                       | Some _ => Got up
                       | None => Says DomainError (NotFound ++ cwd ++ Arg0Msg ++ arg0 ++ NotFoundEnd)
                       end
                     else Got None
               end ;;
      match found with Some d => Got d | None => Says DomainError (NotFound ++ cwd ++ NotFoundEnd) end
  end.
End Dir.
