(** Model of the constructors of libs/quiz/src/GroupData.cpp:17-78 and libs/quiz/src/JukugoData.cpp:18-80 with the files they
    read and all that they write.  Each function here is the one of the same name in GroupLoadModel or JukugoModel, with its
    messages.  Not modelled: what is written of a report that an exception ends. *)
From Verif Require Export DirModel GroupReportModel JukugoModel.
Open Scope N_scope.

(** a debug mode is set: KanjiData.h:100 *)
Definition isDebug (mode : ReportModel.DebugMode) : bool := match mode with DebugNone => false | _ => true end.

(** ** Groups *)

Section Groups.
(** KanjiData::findByName, with the reading and meaning of the Kanji *)
Variable findMember : bytes -> option QKanji.

(** GroupData.cpp:65-67 *)
Definition missingMember (r : GroupRow) (n : bytes) : Msg :=
  ToErr (b_ "failed to find member " ++ n ++ b_ " in group: '" ++ grName r ++ b_ "', number: " ++ grNumber r).
(** GroupData.cpp:61-67: the messages of the loop *)
Fixpoint missingMembers (r : GroupRow) (names : list bytes) : list Msg :=
  match names with
  | [] => []
  | n :: ns => match findMember n with Some _ => missingMembers r ns | None => missingMember r n :: missingMembers r ns end
  end.
(** GroupData.cpp:50-77: the group of one row *)
Definition rowGroupL (t : GroupType) (r : GroupRow) : L Group :=
  if beq (grName r) [] then llift (Throw DomainError)
  else if isAnySingleByte (grName r) then llift (Throw DomainError)
  else if endsWithComma (grMembers r) then llift (Throw DomainError)
  else
    let* (p, names) := llift (getKanjiNames t (grName r) (grMembers r)) in
    let* _ := lsay (missingMembers r names) in
    match findMembers findMember names with
    | None => llift (Throw DomainError)
    | Some ms =>
        llift (match (n <- processU64 (grNumber r) 65535 ;; createGroup n (grName r) ms p) with
               | Throw _ => Throw DomainError
               | x => x
               end)
    end.
(** Group.cpp:30-33 toString *)
Definition groupString (g : Group) : bytes := b_ "[" ++ (to_string (gNumber g) ++ b_ " " ++ gName g) ++ b_ "]".
(** GroupData.cpp:37-41 add, for all members *)
Fixpoint addPatternL (g : Group) (ks : list QKanji) (m : smap Group) : L (smap Group) :=
  match ks with
  | [] => llift (Val m)
  | k :: r =>
      let* _ := lsay (match mfind (qName k) m with
                      | Some h => [ToErr (qName k ++ b_ " from " ++ groupString g ++ b_ " already in " ++ groupString h)]
                      | None => []
                      end) in
      addPatternL g r (mupdate (fun o => match o with Some h => h | None => g end) (qName k) m)
  end.
(** GroupData.cpp:43-78 loadGroup: the loop over the rows *)
Fixpoint loadMeaningL (rows : list GroupRow) (m : smap (list Group)) (l : list Group) : L (smap (list Group) * list Group) :=
  match rows with
  | [] => llift (Val (m, l))
  | r :: rest => let* g := rowGroupL MeaningType r in loadMeaningL rest (addMeaning g m) (l ++ [g])
  end.
Fixpoint loadPatternL (rows : list GroupRow) (m : smap Group) (l : list Group) : L (smap Group * list Group) :=
  match rows with
  | [] => llift (Val (m, l))
  | r :: rest =>
      let* g := rowGroupL PatternGroupType r in
      let* m := addPatternL g (gMembers g) m in
      loadPatternL rest m (l ++ [g])
  end.
End Groups.
(** KanjiData.cpp:101-107 findByName, with the values of the Kanji that a quiz shows *)
Definition findMember (d : Data) (n : bytes) : option QKanji :=
  match findByName d n with Some k => Some (MkQ k (dReading (kDetails k)) (dMeaning (kDetails k))) | None => None end.
(** GroupData.cpp:46-48 *)
Definition GroupColumns : list bytes := [b_ "Number"; b_ "Name"; b_ "Members"].
Definition groupRow (l : list bytes) : GroupRow := MkGroupRow (field 0 l) (field 1 l) (field 2 l).
(** GroupData.cpp:27-30: the reports of the constructor; full is KanjiData::fullDebug *)
Definition reportGroups (full : bool) (f : Stream) (d : Data) (gd : GroupData) : out (bytes * Stream) :=
  '(a, f) <- printGroups full f d (meaningKeys gd) (meaningGroups gd) ;;
  '(b, f) <- printGroups full f d (patternKeys gd) (patternGroups gd) ;;
  Val (a ++ b, f).

(** ** Jukugo *)

(** KanjiEnums.h: the text of the grade *)
Definition gradeText (g : N) : bytes := if g =? GradeS then b_ "S" else b_ "G" ++ to_string g.
(** JukugoData.cpp:12 *)
Definition JukugoSetW : Z := 14.
Definition JukugoMaxExamples : nat := 12.
(** JukugoData.cpp:42-43: the examples, [first] for the first one *)
Fixpoint jukugoExamples (n : nat) (first : bool) (l : list bytes) : bytes :=
  match n, l with
  | S n, s :: r => (if first then b_ "(" else b_ " ") ++ s ++ jukugoExamples n false r
  | _, _ => []
  end.
(** KanjiData.cpp:96-99 *)
Definition getType (d : Data) (name : bytes) : KanjiTypes := match findByName d name with Some k => kType k | None => NoType end.
(** JukugoData.cpp:36-38 *)
Definition jukugoTypes (d : Data) (jd : JukugoData) : TypeMap :=
  fold_left (fun m e => addType (kanjiTypeNumber (getType d (fst e))) (fst e) m) (jMap jd) [].
(** JukugoData.cpp:34-46 *)
Definition jukugoTotals (f : Stream) (d : Data) (jd : JukugoData) : bytes :=
  logText false ++ b_ "Total Kanji with Jukugo: " ++ to_string (len (jMap jd)) ++ b_ ", unique jukugo: " ++ to_string (len (jUnique jd)) ++ [10]
  ++ flat_map (fun t => match findType (kanjiTypeNumber t) (jukugoTypes d jd) with
                        | Some l => putSetw false (sFill f) JukugoSetW (typeToString t) ++ b_ ": " ++ to_string (len l) ++ b_ " "
                                      ++ jukugoExamples JukugoMaxExamples true l ++ b_ ")" ++ [10]
                        | None => []
                        end) AllKanjiTypes.

(** ** The constructors *)

Section Files.
Variable fs : bytes -> option CountModel.node.
Variable writable : bytes -> bool.
Variable reg : bytes -> registry.

(** the rows are processed before the line that is not a row throws *)
Definition loadFromL {R A} (t : out (list (list bytes) * bool)) (mk : list bytes -> R) (load : list R -> L A) : L A :=
  let* (rows, ended) := llift t in
  let* x := load (map mk rows) in
  if ended : bool then llift (Val x) else llift (Throw DomainError).
(** GroupData.cpp:21-31; [f] is what is set in the stream *)
Definition newGroupData (mode : ReportModel.DebugMode) (f : Stream) (dir : bytes) (d : Data) : L (GroupData * Stream) :=
  let* (mm, ml) := loadFromL (fileRows fs writable reg dir (b_ "meaning-groups") GroupColumns) groupRow
                     (fun rows => loadMeaningL (findMember d) rows [] []) in
  let* (pm, pl) := loadFromL (fileRows fs writable reg dir (b_ "pattern-groups") GroupColumns) groupRow
                     (fun rows => loadPatternL (findMember d) rows [] []) in
  let gd := MkGroupData mm ml pm pl in
  if isDebug mode then
    let* (t, f) := llift (reportGroups (isFull mode) f d gd) in
    let* _ := lsay [ToOut t] in
    llift (Val (gd, f))
  else llift (Val (gd, f)).
(** JukugoData.cpp:20-24 *)
Definition jukugoFile (debug : bool) (dir file : bytes) (grade : N) (jd : JukugoData) : L JukugoData :=
  let* p := llift (getFile fs dir file) in
  let* jd' := llift (loadJukugoFile (contentsOf fs p) grade jd) in
  let* _ := lsay (if debug then [ToOut (logText false ++ b_ "Loaded " ++ to_string (len (jUnique jd') - len (jUnique jd))
                                          ++ b_ " for Grade: " ++ gradeText grade ++ [10])] else []) in
  llift (Val jd').
(** JukugoData.cpp:26-32 *)
Definition GradeFiles : list (bytes * N) :=
  [(b_ "g1", 1); (b_ "g2", 2); (b_ "g3", 3); (b_ "g4", 4); (b_ "g5", 5); (b_ "g6", 6); (b_ "other", GradeS)].
Fixpoint jukugoFiles (debug : bool) (dir : bytes) (l : list (bytes * N)) (jd : JukugoData) : L JukugoData :=
  match l with
  | [] => llift (Val jd)
  | (file, grade) :: r => let* jd := jukugoFile debug dir file grade jd in jukugoFiles debug dir r jd
  end.
(** JukugoData.cpp:18-47 *)
Definition newJukugoData (mode : ReportModel.DebugMode) (f : Stream) (dir : bytes) (d : Data) : L JukugoData :=
  let debug := isDebug mode in
  let* _ := lsay (if debug then [ToOut (logText true ++ b_ "Begin Loading Jukugo" ++ [10] ++ b_ ">>>" ++ [10])] else []) in
  let* jd := jukugoFiles debug (joinPath dir (b_ "jukugo")) GradeFiles emptyJukugo in
  let* _ := lsay (if debug then [ToOut (jukugoTotals f d jd)] else []) in
  llift (Val jd).
End Files.
