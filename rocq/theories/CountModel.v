(** Model of libs/stats/src/Utf8Count.cpp and libs/stats/include/kt_stats/Utf8Count.h.

    The regular expression is any function on wide strings (what [std::regex_replace] does
    with it), the predicate of [Utf8CountIf] any function on strings.  Counters are
    unbounded numbers (size_t in the code).  The [debug] stream (34-44) is left out. *)
From Verif Require Export Utf8CharModel ColumnFileModel MapModel.
Open Scope N_scope.

(** Utf8Count.cpp:12 *)
Definition OpenWideBracket : bytes := Eval vm_compute in b_ "（".
Definition CloseWideBracket : bytes := Eval vm_compute in b_ "）".

(** [std::string::find] and [rfind]; [None] is npos *)
Fixpoint sfind (p s : bytes) : option nat :=
  if startsWith s p then Some O
  else match s with [] => None | _ :: r => option_map S (sfind p r) end.
Fixpoint srfind (p s : bytes) : option nat :=
  match s with
  | [] => if startsWith s p then Some O else None
  | _ :: r => match srfind p r with
              | Some i => Some (S i)
              | None => if startsWith s p then Some O else None
              end
  end.
(** [a < b] on results of find, npos being the largest number *)
Definition pos_lt (a b : option nat) : bool :=
  match a, b with
  | None, _ => false
  | Some _, None => true
  | Some i, Some j => (i <? j)%nat
  end.

(** Utf8Count.cpp:101-107 hasUnclosedBrackets *)
Definition hasUnclosedBrackets (line : bytes) : bool :=
  match srfind OpenWideBracket line with
  | Some open =>
      match srfind CloseWideBracket line with
      | None => true
      | Some close => (close <? open)%nat
      end
  | None => false
  end.

Section RegexFile.
  (** what [add(s, tag)] does to the object: the number it returns and the new state *)
  Context {S : Type} (add : bytes -> S -> out (N * S)).

  (** Utf8Count.cpp:109-116 processJoinedLine: the count, the new [prevLine], the state *)
  Definition processJoinedLine (prevLine line : bytes) (pos : nat) (st : S) : out (N * bytes * S) :=
    let end_ := (pos + List.length CloseWideBracket)%nat in
    let joinedLine := prevLine ++ firstn end_ line in
    if (List.length line <? end_)%nat then Throw StdOutOfRange
    else '(n, st') <- add joinedLine st ;; Val (n, skipn end_ line, st').

  (** Utf8Count.cpp:137-138, 142-144: where to cut the current line, if it has to be joined *)
  Definition joinAt (prevUnclosed : bool) (line : bytes) : option nat :=
    if prevUnclosed then
      let close := sfind CloseWideBracket line in
      if pos_lt close (sfind OpenWideBracket line) then close else None
    else match sfind OpenWideBracket line with
         | Some O => sfind CloseWideBracket line
         | _ => None
         end.

  (** Utf8Count.cpp:131-153 the loop; the lines not yet read come first *)
  Fixpoint regexLoop (lines : list bytes) (prevLine : bytes) (prevUnclosed : bool)
      (added : N) (st : S) : out (N * bytes * S) :=
    match lines with
    | [] => Val (added, prevLine, st)
    | line :: r =>
        let keep (n : N) (st : S) := regexLoop r line (hasUnclosedBrackets line) (added + n) st in
        match prevLine with
        | [] => keep 0 st
        | _ =>
            match joinAt prevUnclosed line with
            | Some pos =>
                '(n, prev', st') <- processJoinedLine prevLine line pos st ;;
                regexLoop r prev' (hasUnclosedBrackets prev') (added + n) st'
            | None => '(n, st') <- add prevLine st ;; keep n st'
            end
        end
    end.
  (** Utf8Count.cpp:126-156 processFileWithRegex *)
  Definition processFileWithRegex (contents : bytes) (st : S) : out (N * S) :=
    '(added, prevLine, st1) <- regexLoop (getlines 10 contents) [] false 0 st ;;
    match prevLine with
    | [] => Val (added, st1)
    | _ => '(n, st2) <- add prevLine st1 ;; Val (added + n, st2)
    end.

  (** Utf8Count.cpp:121-123 the loop of processFile *)
  Fixpoint plainLoop (lines : list bytes) (added : N) (st : S) : out (N * S) :=
    match lines with
    | [] => Val (added, st)
    | line :: r => '(n, st') <- add line st ;; plainLoop r (added + n) st'
    end.
End RegexFile.

(** Utf8Count.h:120-128 the data members that change *)
Record Counter := {
  cMap : smap N;
  cTags : smap (smap N);
  cLastReplaceTag : bytes;
  cFiles : N; cDirectories : N;
  cErrors : N; cVariants : N; cMarks : N; cReplacements : N
}.
(** Utf8Count.cpp:24-26 constructor *)
Definition newCounter : Counter :=
  {| cMap := []; cTags := []; cLastReplaceTag := []; cFiles := 0; cDirectories := 0;
     cErrors := 0; cVariants := 0; cMarks := 0; cReplacements := 0 |}.

(** [++m[k]] *)
Definition plus1 (o : option N) : N := match o with Some n => n + 1 | None => 1 end.
Definition increment (k : bytes) (m : smap N) : smap N := mupdate plus1 k m.
(** [++_tags[token][tag]] *)
Definition incrementTag (k tag : bytes) (m : smap (smap N)) : smap (smap N) :=
  mupdate (fun o => increment tag (match o with Some t => t | None => [] end)) k m.

(** Utf8Count.cpp:33-36: a changed line *)
Definition addReplacement (tag : option bytes) (c : Counter) : Counter :=
  {| cMap := cMap c; cTags := cTags c;
     cLastReplaceTag := match tag with Some t => t | None => cLastReplaceTag c end;
     cFiles := cFiles c; cDirectories := cDirectories c; cErrors := cErrors c;
     cVariants := cVariants c; cMarks := cMarks c; cReplacements := cReplacements c + 1 |}.
(** Utf8Count.cpp:51, 53 *)
Definition addToken (token : bytes) (tag : option bytes) (c : Counter) : Counter :=
  {| cMap := increment token (cMap c);
     cTags := match tag with Some t => incrementTag token t (cTags c) | None => cTags c end;
     cLastReplaceTag := cLastReplaceTag c; cFiles := cFiles c; cDirectories := cDirectories c;
     cErrors := cErrors c; cVariants := cVariants c; cMarks := cMarks c; cReplacements := cReplacements c |}.
(** Utf8Count.cpp:55-57 *)
Definition addEvents (u : Utf8Char) (c : Counter) : Counter :=
  {| cMap := cMap c; cTags := cTags c; cLastReplaceTag := cLastReplaceTag c;
     cFiles := cFiles c; cDirectories := cDirectories c; cErrors := cErrors c + uErrors u;
     cVariants := cVariants c + uVariants u; cMarks := cMarks c + uMarks u;
     cReplacements := cReplacements c |}.
(** Utf8Count.cpp:84, 87 *)
Definition addPath (files dirs : N) (c : Counter) : Counter :=
  {| cMap := cMap c; cTags := cTags c; cLastReplaceTag := cLastReplaceTag c;
     cFiles := cFiles c + files; cDirectories := cDirectories c + dirs; cErrors := cErrors c;
     cVariants := cVariants c; cMarks := cMarks c; cReplacements := cReplacements c |}.

(** A file system entry.  The entries of a directory are in the order in which
    [directory_iterator] visits them (unspecified, so any order).  [Link None] is a dangling
    symbolic link. *)
Inductive node :=
| File (contents : bytes)
| Dir (entries : list (bytes * node))
| Link (target : option node)
| Other.
(** what [is_regular_file(path)] and [is_directory(path)] see through symbolic links;
    [None] when [exists(path)] is false *)
Fixpoint resolve (n : node) : option node :=
  match n with
  | Link (Some t) => resolve t
  | Link None => None
  | _ => Some n
  end.

Section Count.
  (** [_find] together with [_replace], and [allowAdd] *)
  Variable find : option (list N -> list N).
  Variable allow : bytes -> out bool.

  (** Utf8Count.cpp:47-54 the loop over the characters *)
  Fixpoint tokenLoop (fuel : nat) (u : Utf8Char) (tag : option bytes) (added : N) (c : Counter)
    : out (N * Utf8Char * Counter) :=
    match fuel with
    | O => Fuel
    | S fuel' =>
        '(r, u') <- next u true ;;
        match r with
        | None => Val (added, u', c)
        | Some token =>
            ok <- allow token ;;
            if ok : bool then tokenLoop fuel' u' tag (added + 1) (addToken token tag c)
            else tokenLoop fuel' u' tag added c
        end
    end.
  (** Utf8Count.cpp:28-59 add *)
  Definition add (s : bytes) (tag : option bytes) (c : Counter) : out (N * Counter) :=
    '(n, c1) <- match find with
                | Some f =>
                    w <- fromUtf8 s 0 ;;
                    n <- toUtf8 (f w) ;;
                    Val (n, if beq n s then c else addReplacement tag c)
                | None => Val (s, c)
                end ;;
    '(added, u, c2) <- tokenLoop (S (List.length n)) (newUtf8Char n) tag 0 c1 ;;
    Val (added, addEvents u c2).

  (** Utf8Count.cpp:118-124 processFile *)
  Definition processFile (contents : bytes) (tag : option bytes) (c : Counter) : out (N * Counter) :=
    match find with
    | Some _ => processFileWithRegex (fun s => add s tag) contents c
    | None => plainLoop (fun s => add s tag) (getlines 10 contents) 0 c
    end.

  (** Utf8Count.cpp:78-99 doAddFile on what the path resolves to *)
  Fixpoint doAddFile (n : node) (name : bytes) (addTag fileNames recurse : bool) (c : Counter)
    : out (N * Counter) :=
    let tag := if addTag then Some name else None in
    let finish (added : N) (c : Counter) :=
      if fileNames then '(k, c') <- add name tag c ;; Val (added + k, c') else Val (added, c) in
    match n with
    | File contents =>
        '(added, c1) <- processFile contents tag (addPath 1 0 c) ;; finish added c1
    | Dir entries =>
        '(added, c1) <-
          (fix children (es : list (bytes * node)) (added : N) (c : Counter) : out (N * Counter) :=
             match es with
             | [] => Val (added, c)
             | (nm, e) :: r =>
                 '(k, c') <- match e with
                             | Link _ => Val (0, c)
                             | File _ => doAddFile e nm addTag fileNames recurse c
                             | _ => if recurse then doAddFile e nm addTag fileNames true c
                                    else Val (0, c)
                             end ;;
                 children r (added + k) c'
             end) entries 0 (addPath 0 1 c) ;;
        finish added c1
    | Link _ | Other => Val (0, c)
    end.
  (** Utf8Count.cpp:61-66 addFile; [None] is a path that does not exist *)
  Definition addFile (n : option node) (name : bytes) (addTag fileNames recurse : bool) (c : Counter)
    : out (N * Counter) :=
    match n with
    | None => Throw DomainError
    | Some n =>
        match resolve n with
        | None => Throw DomainError
        | Some t => doAddFile t name addTag fileNames recurse c
        end
    end.

  (** A client of an object: any sequence of calls.  A call that throws does so before it
      changes anything. *)
  Inductive request :=
  | RAdd (s : bytes) (tag : option bytes)
  | RFile (n : option node) (name : bytes) (addTag fileNames recurse : bool).
  Definition serve (r : request) (c : Counter) : out (N * Counter) :=
    match r with
    | RAdd s tag => add s tag c
    | RFile n name t f rec => addFile n name t f rec c
    end.
  Fixpoint serveAll (rs : list request) (c : Counter) : out (list (option N) * Counter) :=
    match rs with
    | [] => Val ([], c)
    | r :: rest =>
        match serve r c with
        | Val (n, c1) => '(ns, c2) <- serveAll rest c1 ;; Val (Some n :: ns, c2)
        | Throw DomainError => '(ns, c2) <- serveAll rest c ;; Val (None :: ns, c2)
        | Throw e => Throw e
        | Ub => Ub
        | Fuel => Fuel
        end
    end.
End Count.

(** Utf8Count.cpp:68-71 count, 73-76 tags, Utf8Count.h:66 uniqueEntries *)
Definition countOf (s : bytes) (c : Counter) : N :=
  match mfind s (cMap c) with Some n => n | None => 0 end.
Definition tagsOf (s : bytes) (c : Counter) : option (smap N) := mfind s (cTags c).
Definition uniqueEntries (c : Counter) : N := len (cMap c).

(** the strings [processFileWithRegex] passes to [add], in order *)
Definition logAdd (s : bytes) (log : list bytes) : out (N * list bytes) := Val (1, log ++ [s]).
Definition searched (contents : bytes) : out (list bytes) :=
  '(_, log) <- processFileWithRegex logAdd contents [] ;; Val log.
