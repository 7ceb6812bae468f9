(** Model of the messages about groups: the constructors of libs/quiz/src/Group.cpp and libs/quiz/src/GroupData.cpp:21-78 with what() of
    what they throw (ErrGroupProofs shows that they are those of GroupModel, GroupLoadModel and QuizDataModel otherwise). *)
From Verif Require Export QuizDataModel ErrRowsModel.
From Verif Require Export ErrBase.
Open Scope N_scope.

(** Group.cpp:35-37 error, with toString *)
Definition groupErrorT {A} (number : N) (name msg : bytes) : res A :=
  Says DomainError (b_ "group " ++ (b_ "[" ++ (to_string number ++ b_ " " ++ name) ++ b_ "]") ++ b_ " has " ++ msg).
(** Group.cpp:17-19: dups, [seen] is the set names *)
Fixpoint dupNames (seen dups : list bytes) (l : list QKanji) : list bytes :=
  match l with
  | [] => dups
  | k :: r =>
      if existsb (beq (qName k)) seen then dupNames seen (if existsb (beq (qName k)) dups then dups else qName k :: dups) r
      else dupNames (qName k :: seen) dups r
  end.
(** Group.cpp:24-25 *)
Fixpoint dupText (dups : list bytes) (l : list QKanji) : bytes :=
  match l with
  | [] => []
  | k :: r =>
      if existsb (beq (qName k)) dups then b_ " " ++ qName k ++ dupText (filter (fun d => negb (beq (qName k) d)) dups) r else dupText dups r
  end.
(** Group.cpp:9-28 *)
Definition checkMembersT (number : N) (name : bytes) (members : list QKanji) : res unit :=
  if len members =? 0 then groupErrorT number name (b_ "no members")
  else if len members =? 1 then groupErrorT number name (b_ "only one member")
  else if MaxGroupSize <? len members then groupErrorT number name (b_ "more than " ++ to_string MaxGroupSize ++ b_ " members")
  else
    match dupNames [] [] members with
    | [] => Got tt
    | dups => groupErrorT number name (to_string (len dups) ++ b_ " duplicate member" ++ (if 1 <? len dups then b_ "s:" else b_ ":") ++ dupText dups members)
    end.
(** Group.cpp:39-49 *)
Definition meaningGroupT (number : N) (name : bytes) (members : list QKanji) : res Group :=
  _ <~ checkMembersT number name members ;; Got (MkGroup MeaningType number name members NoPattern).
Definition patternGroupT (number : N) (name : bytes) (members : list QKanji) (p : PatternType) : res Group :=
  _ <~ checkMembersT number name members ;;
  match p with NoPattern => groupErrorT number name (b_ "invalid pattern type") | _ => Got (MkGroup PatternGroupType number name members p) end.

Section Groups.
Variable findMember : bytes -> option QKanji.
(** GroupData.cpp:98-104 *)
Definition createGroupT (number : N) (name : bytes) (members : list QKanji) (p : PatternType) : res Group :=
  match p with NoPattern => meaningGroupT number name members | _ => patternGroupT number name members p end.
(** GroupData.cpp:45: only the name of the column is in messages *)
Definition NumberColumn : Column := {| cname := b_ "Number"; cnumber := 0 |}.
(** getKanjiNames does not throw *)
Definition namesT (t : GroupType) (name members : bytes) : res (PatternType * list bytes) :=
  match getKanjiNames t name members with Val x => Got x | Throw e => Says e [] | Ub => Undefined | Fuel => Unfinished end.
(** GroupData.cpp:49-76: the group of one row *)
Definition rowGroupT (t : GroupType) (file : bytes) (row : N) (r : GroupRow) : res Group :=
  if beq (grName r) [] then tableError file row (b_ "group must have a name")
  else if isAnySingleByte (grName r) then tableError file row (b_ "group name must be all MB characters")
  else if endsWithComma (grMembers r) then tableError file row (b_ "members ends with ,")
  else
    '(p, names) <~ namesT t (grName r) (grMembers r) ;;
    match findMembers findMember names with
    | None => tableError file row (b_ "group failed to load all members")
    | Some ms =>
        match (n <~ processU64E file row (grNumber r) NumberColumn 65535 ;; createGroupT n (grName r) ms p) with
        | Says _ w => tableError file row w
        | x => x
        end
    end.
(** GroupData.cpp:47-77: the body of the loop for each kind *)
Definition meaningBody (file : bytes) (row : N) (l : list bytes) (a : smap (list Group) * list Group) : res (smap (list Group) * list Group) :=
  g <~ rowGroupT MeaningType file row (groupRow l) ;; Got (addMeaning g (fst a), snd a ++ [g]).
Definition patternBody (file : bytes) (row : N) (l : list bytes) (a : smap Group * list Group) : res (smap Group * list Group) :=
  g <~ rowGroupT PatternGroupType file row (groupRow l) ;; Got (addPattern g (fst a), snd a ++ [g]).
(** GroupData.cpp:21-26: the constructor up to its reports *)
Definition newGroupDataT (fs : bytes -> option CountModel.node) (writable : bytes -> bool) (reg : bytes -> registry) (dir : bytes) : res GroupData :=
  '(mm, ml) <~ tableLoadT meaningBody fs writable reg dir (b_ "meaning-groups") GroupColumns ([], []) ;;
  '(pm, pl) <~ tableLoadT patternBody fs writable reg dir (b_ "pattern-groups") GroupColumns ([], []) ;;
  Got (MkGroupData mm ml pm pl).
End Groups.
