(** Model of how libs/quiz/src/GroupData.cpp:21-104 loads groups.  A file is given by its rows (fields as
    ColumnFile::get returns them).  Not modelled: finding the files, printed messages and debug output. *)
From Verif Require Export GroupModel Utf8CharModel ColumnFileModel MapModel.
Open Scope N_scope.

(** the fields of a row: GroupData.cpp:46-48 *)
Record GroupRow := MkGroupRow { grNumber : bytes; grName : bytes; grMembers : bytes }.
(** GroupData.h:77-84.  Of the multimap only the groups of a key, in the order of insertion, are seen *)
Record GroupData := MkGroupData {
  meaningMap : smap (list Group); meaningGroups : list Group;
  patternMap : smap Group; patternGroups : list Group
}.

(** "：", GroupData.cpp:83 *)
Definition Colon : bytes := b_ "：".
(** GroupData.cpp:80-96 getKanjiNames: the pattern type and the names *)
Definition getKanjiNames (t : GroupType) (name members : bytes) : out (PatternType * list bytes) :=
  match t with
  | MeaningType => Val (NoPattern, getlines 44 members)
  | PatternGroupType =>
      if GroupModel.startsWith Colon name then Val (Peer, getlines 44 members)
      else if contains Colon name then f <- getFirst name ;; Val (Family, f :: getlines 44 members)
      else Val (Reading, getlines 44 members)
  end.
(** [s.ends_with(",")] *)
Definition endsWithComma (s : bytes) : bool := match rev s with c :: _ => c =? 44 | [] => false end.

Section Groups.
(** KanjiData::findByName, with the reading and meaning of the Kanji *)
Variable findMember : bytes -> option QKanji.

(** GroupData.cpp:60-68: the members, if all are found *)
Fixpoint findMembers (names : list bytes) : option (list QKanji) :=
  match names with
  | [] => Some []
  | n :: r => match findMember n, findMembers r with Some k, Some ks => Some (k :: ks) | _, _ => None end
  end.
(** GroupData.cpp:98-104 createGroup *)
Definition createGroup (number : N) (name : bytes) (members : list QKanji) (p : PatternType) : out Group :=
  match p with NoPattern => meaningGroup number name members | _ => patternGroup number name members p end.
(** GroupData.cpp:50-77: the group of one row; line 75 makes every exception a DomainError *)
Definition rowGroup (t : GroupType) (r : GroupRow) : out Group :=
  if beq (grName r) [] then Throw DomainError
  else if isAnySingleByte (grName r) then Throw DomainError
  else if endsWithComma (grMembers r) then Throw DomainError
  else
    '(p, names) <- getKanjiNames t (grName r) (grMembers r) ;;
    match findMembers names with
    | None => Throw DomainError
    | Some ms =>
        match (n <- processU64 (grNumber r) 65535 ;; createGroup n (grName r) ms p) with
        | Throw _ => Throw DomainError
        | x => x
        end
    end.
(** GroupData.cpp:33-41 add, for all members *)
Definition addMeaning (g : Group) (m : smap (list Group)) : smap (list Group) :=
  fold_left (fun m k => mupdate (fun o => match o with Some l => l ++ [g] | None => [g] end) (qName k) m) (gMembers g) m.
Definition addPattern (g : Group) (m : smap Group) : smap Group :=
  fold_left (fun m k => mupdate (fun o => match o with Some h => h | None => g end) (qName k) m) (gMembers g) m.
(** GroupData.cpp:43-78 loadGroup: the loop over the rows *)
Fixpoint loadMeaning (rows : list GroupRow) (m : smap (list Group)) (l : list Group) : out (smap (list Group) * list Group) :=
  match rows with
  | [] => Val (m, l)
  | r :: rest => g <- rowGroup MeaningType r ;; loadMeaning rest (addMeaning g m) (l ++ [g])
  end.
Fixpoint loadPattern (rows : list GroupRow) (m : smap Group) (l : list Group) : out (smap Group * list Group) :=
  match rows with
  | [] => Val (m, l)
  | r :: rest => g <- rowGroup PatternGroupType r ;; loadPattern rest (addPattern g m) (l ++ [g])
  end.
(** GroupData.cpp:21-31: the constructor *)
Definition loadGroups (meaning pattern : list GroupRow) : out GroupData :=
  '(mm, ml) <- loadMeaning meaning [] [] ;;
  '(pm, pl) <- loadPattern pattern [] [] ;;
  Val (MkGroupData mm ml pm pl).

(** the groups of a Kanji: GroupData.h:31, equal_range *)
Definition categories (d : GroupData) (name : bytes) : list Group := match mfind name (meaningMap d) with Some l => l | None => [] end.
(** GroupQuiz.cpp:95-107 uses the number of a group of the other type; which one multimap::find gives of several
    is unspecified, here (and in common libraries) the first *)
Definition groupNumber (d : GroupData) (t : GroupType) (name : bytes) : option N :=
  match t with
  | MeaningType => match mfind name (patternMap d) with Some g => Some (gNumber g) | None => None end
  | PatternGroupType => match categories d name with g :: _ => Some (gNumber g) | [] => None end
  end.
End Groups.
