(** Model of what loading writes: the errors of libs/kanji/src/KanjiData.cpp:136-140, 226-250, 297-318 and the output
    of libs/kanji/src/KanjiData.cpp:146-156 and libs/kanji/src/TextKanjiData.cpp:134-200.  Each function here is the one
    of the same name in LoadModel or DataModel, with its messages. *)
From Verif Require Export LoadModel ReportModel.
Open Scope N_scope.

(** a text written to [_out], or the argument of a call of printError *)
Inductive Msg := ToOut (s : bytes) | ToErr (s : bytes).
(** what a function writes, and how it ends *)
Definition L (A : Type) : Type := (list Msg * out A)%type.
Definition lsay (ms : list Msg) : L unit := (ms, Val tt).
Definition llift {A} (x : out A) : L A := ([], x).
Definition lbind {A B} (m : L A) (f : A -> L B) : L B :=
  let '(w, r) := m in
  match r with
  | Val x => let '(w', r') := f x in (w ++ w', r')
  | Throw e => (w, Throw e)
  | Ub => (w, Ub)
  | Fuel => (w, Fuel)
  end.
Notation "'let*' x ':=' e 'in' k" := (lbind e (fun x => k)) (at level 200, x pattern, e at level 100, k at level 200).

(** KanjiData.cpp:136-140 printError: the number has at least four digits; [n] is the static count *)
Fixpoint errorText (n : N) (ms : list Msg) : bytes :=
  match ms with
  | [] => []
  | ToOut _ :: r => errorText n r
  | ToErr s :: r => b_ "ERROR[" ++ putSetw false 48 4 (to_string (n + 1)) ++ b_ "] --- " ++ s ++ [10] ++ errorText (n + 1) r
  end.
(** all that is written to [_out] *)
Fixpoint outputText (ms : list Msg) : bytes :=
  match ms with [] => [] | ToOut s :: r => s ++ outputText r | ToErr _ :: r => outputText r end.

(** ** Checks *)

(** a text that is only made for messages *)
Definition shownOr (x : out bytes) : bytes := match x with Val s => s | _ => [] end.
(** KanjiData.cpp:298-304 *)
Definition sanityError (k : Kanji) (s : bytes) : list Msg :=
  [ToErr (kName k ++ b_ " " ++ shownOr (toUnicode_string (kName k) Square)
          ++ (match variant k with
              | Val true => b_ " (non-variant: " ++ shownOr (nonVariantName k) ++ b_ ")"
              | _ => []
              end) ++ b_ " " ++ s ++ b_ " in _ucd")].
(** KanjiData.cpp:306-316 insertSanityChecks; the lookup has succeeded before (Kanji.cpp:106-117) *)
Definition sanityChecks (e : Env) (k : Kanji) : list Msg :=
  match ucdFind (envUcd e) (kName k) with
  | Val None => sanityError k (b_ "not found")
  | Val (Some u) =>
      match kType k with
      | Jouyou => if joyo u then [] else sanityError k (b_ "not marked as 'Joyo'")
      | Jinmei => if jinmei u then [] else sanityError k (b_ "not marked as 'Jinmei'")
      | LinkedJinmei =>
          if negb (jinmei u) then sanityError k (b_ "with link not marked as 'Jinmei'")
          else if hasLinks u then [] else sanityError k (b_ "missing 'JinmeiLink' for " ++ shownOr (entryCodeAndName (ucdName u)))
      | _ => []
      end
  | _ => []
  end.
(** KanjiData.cpp:226-244 checkInsert *)
Definition insertMsgs (e : Env) (d : Data) (k : Kanji) : list Msg :=
  match mfind (kName k) (dNames d) with
  | Some _ => [ToErr (b_ "failed to insert '" ++ kName k ++ b_ "' into map")]
  | None =>
      sanityChecks e k
      ++ match variant k with
         | Val true => match mfind (compatibilityName k) (dCompat d) with
                       | Some _ => [ToErr (b_ "failed to insert variant '" ++ kName k ++ b_ "' into map")]
                       | None => []
                       end
         | _ => []
         end
  end.
Definition checkInsertL (e : Env) (d : Data) (k : Kanji) : L (Data * bool) := (insertMsgs e d k, checkInsert d k).
Definition checkInsertTypeL (e : Env) (d : Data) (t : KanjiTypes) (k : Kanji) : L (Data * bool) :=
  (insertMsgs e d k, checkInsertType d t k).

(** ** Official lists *)

Fixpoint insertAllL (e : Env) (d : Data) (ks : list Kanji) : L Data :=
  match ks with
  | [] => llift (Val d)
  | k :: r => let* (d, _) := checkInsertL e d k in insertAllL e d r
  end.
(** TextKanjiData.cpp:78-87 and 127-132 *)
Definition loadPlainL (e : Env) (make : KanjiRow -> out Kanji) (t : KanjiTypes) (rows : list KanjiRow) (d : Data) : L Data :=
  let* ks := llift (fromRows make rows) in
  let* d := insertAllL e d ks in
  llift (Val (setType d t ks)).
(** TextKanjiData.cpp:94-105 *)
Fixpoint loadLinkedLinesL (e : Env) (lines : list bytes) (d : Data) : L Data :=
  match lines with
  | [] => llift (Val d)
  | line :: r =>
      match getlines 9 line with
      | jouyou :: linked :: _ =>
          match mfind jouyou (dNames d) with
          | None => llift (Throw DomainError)
          | Some i =>
              let* k := llift (makeLinked e false linked i) in
              let* (d, _) := checkInsertTypeL e d LinkedJinmei k in
              loadLinkedLinesL e r d
          end
      | _ => llift (Throw DomainError)
      end
  end.
(** TextKanjiData.cpp:108-111 *)
Fixpoint loadOldNamesL (e : Env) (link : Kanji) (names : list bytes) (d : Data) : L Data :=
  match names with
  | [] => llift (Val d)
  | j :: r =>
      match findByName d j with
      | Some _ => loadOldNamesL e link r d
      | None =>
          let* k := llift (makeLinked e true j link) in
          let* (d, _) := checkInsertTypeL e d LinkedOld k in
          loadOldNamesL e link r d
      end
  end.
Fixpoint loadOldL (e : Env) (l : list (bytes * Kanji)) (d : Data) : L Data :=
  match l with
  | [] => llift (Val d)
  | (_, k) :: r => let* d := loadOldNamesL e k (kOldNames k) d in loadOldL e r d
  end.
(** TextKanjiData.cpp:114-125 *)
Fixpoint loadLinkedNamesL (e : Env) (link : Kanji) (names : list bytes) (d : Data) : L Data :=
  match names with
  | [] => llift (Val d)
  | j :: r =>
      let* k := llift (makeLinked e false j link) in
      let* (d, _) := checkInsertTypeL e d LinkedJinmei k in
      loadLinkedNamesL e link r d
  end.
Fixpoint insertJinmeiL (e : Env) (ks : list Kanji) (d : Data) : L Data :=
  match ks with
  | [] => llift (Val d)
  | k :: r =>
      let* (d, _) := checkInsertL e d k in
      let* d := loadLinkedNamesL e k (kOldNames k) d in
      insertJinmeiL e r d
  end.
Definition loadJinmeiL (e : Env) (rows : list KanjiRow) (d : Data) : L Data :=
  let* ks := llift (fromRows (makeJinmei e) rows) in
  let* d := insertJinmeiL e ks d in
  llift (Val (setType d Jinmei ks)).

(** ** Other lists *)

(** TextKanjiData.cpp:136-137: the new names, and the names that were found with the type of their Kanji *)
Record Seen := MkSeen { sCreated : list bytes; sFound : list (KanjiTypes * bytes) }.
Definition nothingSeen : Seen := MkSeen [] [].
Definition isKyu (kind : ListKind) : bool := match kind with DataModel.KyuList _ => true | _ => false end.
(** TextKanjiData.cpp:143-146: [found] is only filled in debug modes; here always, but it is only printed then *)
Definition addFound (kind : ListKind) (k : Kanji) (name : bytes) (s : Seen) : Seen :=
  if isKyu kind then s
  else match kType k with Jouyou => s | t => MkSeen (sCreated s) (sFound s ++ [(t, name)]) end.
(** TextKanjiData.cpp:163 *)
Definition addCreated (kind : ListKind) (name : bytes) (s : Seen) : Seen :=
  if isKyu kind then s else MkSeen (sCreated s ++ [name]) (sFound s).
(** TextKanjiData.cpp:140-172 *)
Fixpoint processLoopL (e : Env) (kind : ListKind) (make : N -> bytes -> out Kanji) (i : N) (l : list bytes) (d : Data) (s : Seen)
    : L (Data * Seen) :=
  match l with
  | [] => llift (Val (d, s))
  | name :: r =>
      let* (d, kanji, s) :=
        match findByName d name with
        | Some k => llift (Val (d, k, addFound kind k name s))
        | None =>
            let* k := llift (make (i + 1) name) in
            let* (d, _) := checkInsertTypeL e d (match kind with DataModel.KyuList _ => Kentei | _ => FrequencyType end) k in
            llift (Val (d, k, addCreated kind name s))
        end in
      let* d := llift (match kind with
                       | DataModel.KyuList _ => addToKyus d kanji
                       | DataModel.LevelList => addToLevels d kanji
                       | FrequencyList => Val (addToFrequencies d kanji)
                       end) in
      processLoopL e kind make (i + 1) r d s
  end.
(** [found[t]] *)
Definition foundOf (s : Seen) (t : KanjiTypes) : list bytes :=
  map snd (filter (fun p => kanjiTypeNumber (fst p) =? kanjiTypeNumber t) (sFound s)).
(** TextKanjiData.cpp:186-195: the loop over the Jinmei and linked Jinmei Kanji of the frequency list *)
Definition jinmeiText (e : Env) (names : list bytes) (linked name : bytes) : bytes :=
  printNames (filter (fun j => negb (levelNumber (level e j) =? levelNumber NoLevel)) names) (b_ "JLPT " ++ linked ++ b_ "Jinmei") name
  ++ printNames (filter (fun j => levelNumber (level e j) =? levelNumber NoLevel) names) (b_ "non-JLPT " ++ linked ++ b_ "Jinmei") name.
(** TextKanjiData.cpp:176-200 printListData for a list with this name *)
Definition printListData (full : bool) (e : Env) (kind : ListKind) (name : bytes) (s : Seen) : list Msg :=
  if full then
    [ToOut (printNames (foundOf s LinkedOld) (b_ "Linked Old") name
            ++ printNames (sCreated s) (b_ "non-Jouyou/Jinmei" ++ match kind with DataModel.LevelList => [] | _ => b_ "/JLPT" end) name
            ++ match kind with
               | FrequencyList => jinmeiText e (foundOf s Jinmei) [] name ++ jinmeiText e (foundOf s LinkedJinmei) (b_ "Linked ") name
               | _ => printNames (foundOf s Jinmei) (b_ "Jinmei") name ++ printNames (foundOf s LinkedJinmei) (b_ "Linked Jinmei") name
               end)]
  else [].
Definition processListL (full : bool) (e : Env) (kind : ListKind) (name : bytes) (make : N -> bytes -> out Kanji) (l : list bytes)
    (d : Data) : L Data :=
  let* (d, s) := processLoopL e kind make 0 l d nothingSeen in
  let* _ := lsay (printListData full e kind name s) in
  llift (Val d).
(** ListFile.h:130-132: the name of a level or kyu list is that of the level or kyu *)
Fixpoint processLevelsL (full : bool) (e : Env) (l : list (JlptLevels * ListFile)) (d : Data) : L Data :=
  match l with
  | [] => llift (Val d)
  | (v, f) :: r =>
      let* d := processListL full e DataModel.LevelList (levelToString v) (fun i s => makeFrequency e i s) (listOf f) d in
      processLevelsL full e r d
  end.
Fixpoint processKyusL (full : bool) (e : Env) (l : list (KenteiKyus * ListFile)) (d : Data) : L Data :=
  match l with
  | [] => llift (Val d)
  | (k, f) :: r =>
      let* d := processListL full e (DataModel.KyuList k) (kyuToString k) (fun _ s => makeKentei e k s) (listOf f) d in
      processKyusL full e r d
  end.
(** KanjiData.cpp:319-327 processUcd without checkStrokes, which is in finishedLoadingData *)
Fixpoint processUcdL (e : Env) (l : list (bytes * Ucd)) (d : Data) : L Data :=
  match l with
  | [] => llift (Val d)
  | (_, u) :: r =>
      match findByName d (ucdName u) with
      | Some _ => processUcdL e r d
      | None =>
          let* k := llift (makeUcdKanji e u) in
          let* (d, _) := checkInsertTypeL e d UcdType k in
          processUcdL e r d
      end
  end.

(** ** Everything *)

(** TextKanjiData.cpp:40-52 *)
Definition loadKanjiL (full : bool) (e : Env) (f : Files) (d : Data) : L Data :=
  let* d := loadPlainL e (makeJouyou e) Jouyou (jouyouRows f) d in
  let* d := loadLinkedLinesL e (getlines 10 (linkedFile f)) d in
  let* d := loadOldL e (dNames d) d in
  let* d := loadJinmeiL e (jinmeiRows f) d in
  let* d := loadPlainL e (makeExtra e) Extra (extraRows f) d in
  let* d := processLevelsL full e (envLevels e) d in
  let* d := processListL full e FrequencyList (b_ "Frequency") (fun i s => makeFrequency e i s) (listOf (envFrequency e)) d in
  let* d := processKyusL full e (envKyus e) d in
  processUcdL e (ucdMap (envUcd e)) d.
Definition isFull (m : ReportModel.DebugMode) : bool := match m with DebugFull => true | _ => false end.
(** TextKanjiData.cpp:21-53 with KanjiData.cpp:148-157: the constructor *)
Definition loadDataL (sort : list Kanji -> list Kanji) (mode : ReportModel.DebugMode) (ltr : bool) (f : Files) (st : list_static) (max : N) : L (Env * Data) :=
  let* _ := lsay (if isFull mode then [ToOut (logText true ++ b_ "Begin Loading Data" ++ [10] ++ b_ ">>>" ++ [10])] else []) in
  let* e := llift (loadEnv ltr f st) in
  let* d := loadKanjiL (isFull mode) e f (newData max) in
  let* t := llift (finishedLoadingData sort mode e d) in
  let* _ := lsay [ToOut t] in
  llift (Val (e, d)).
