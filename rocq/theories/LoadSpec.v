(** Specification of the loaded data. *)
From Verif Require Export ListSpec DataSpec LoadModel.
Open Scope N_scope.

(** the words of a list file *)
Definition words (content : bytes) (ws : list bytes) : Prop :=
  exists ls, file_words content ls /\ ws = flat_map snd ls.
(** the file of a level, kyu or other key has this word *)
Definition listed {A} (files : list (A * bytes)) (a : A) (s : bytes) : Prop :=
  exists c ws, In (a, c) files /\ words c ws /\ In s ws.
(** a directory with one list for each level and kyu *)
Definition files_ok (f : Files) : Prop :=
  map fst (levelFiles f) = AllLevels /\ map fst (kyuFiles f) = AllKyus
  /\ Forall (fun p => bytes_ok (snd p)) (levelFiles f) /\ Forall (fun p => bytes_ok (snd p)) (kyuFiles f)
  /\ bytes_ok (frequencyFile f).

(** [k] is a Kanji of the loaded data *)
Definition loaded_kanji (d : Data) (k : Kanji) : Prop := In (kName k, k) (dNames d).
(** the name leads to the Kanji of that name and not to one with a variation selector *)
Definition own_name (d : Data) (s : bytes) : Prop := forall k, findByName d s = Some k -> kName k = s.
(** the types whose Kanji are made one by one *)
Definition made_singly (t : KanjiTypes) : Prop :=
  t = LinkedJinmei \/ t = LinkedOld \/ t = FrequencyType \/ t = Kentei \/ t = UcdType.
(** the list of a type, level or kyu *)
Definition type_list (d : Data) (t : KanjiTypes) : list Kanji := alist N.eqb (kanjiTypeNumber t) (dTypes d).
Definition level_list (d : Data) (l : JlptLevels) : list Kanji := alist N.eqb (levelNumber l) (dLevels d).
Definition kyu_list (d : Data) (k : KenteiKyus) : list Kanji := alist N.eqb (kyuNumber k) (dKyus d).

(** ** The rows of the files *)
(** what all Kanji made from a row have *)
Definition row_common (r : KanjiRow) (k : Kanji) (t : KanjiTypes) : Prop :=
  kName k = krName r /\ kType k = t /\ kRadicalName k = krRadical r.
Definition row_stroke_count (r : KanjiRow) (k : Kanji) : Prop :=
  exists n, loose_number (krStrokes r) n /\ 1 <= n <= 64 /\ kStrokes k = (n, 0).
Definition grade_text (s : bytes) : bytes := if match s with 83 :: _ => true | _ => false end then s else b_ "G" ++ s.
Definition jouyou_row (r : KanjiRow) (k : Kanji) : Prop :=
  row_common r k Jouyou /\ row_stroke_count r k
  /\ kGrade k <> NoGrade /\ gradeToString (kGrade k) = grade_text (krGrade r)
  /\ cut 44 (krOldNames r) (kOldNames k) /\ kNewName k = None.
Definition jinmei_row (r : KanjiRow) (k : Kanji) : Prop :=
  row_common r k Jinmei /\ kGrade k = NoGrade /\ cut 44 (krOldNames r) (kOldNames k) /\ kNewName k = None.
Definition extra_row (r : KanjiRow) (k : Kanji) : Prop :=
  row_common r k Extra /\ row_stroke_count r k /\ kGrade k = NoGrade.

(** ** Linked Kanji *)
Definition linked_to (k link : Kanji) : Prop :=
  kNewName k = Some (kName link) /\ kOldNames k = [] /\ kLinkedReadings k = true
  /\ dMeaning (kDetails k) = dMeaning (kDetails link) /\ dReading (kDetails k) = dReading (kDetails link).
(** line of the linked Jinmei file: names with a tab between them *)
Definition linked_names (content jouyou name : bytes) : Prop :=
  exists ls line rest, cut 10 content ls /\ In line ls /\ cut 9 line (jouyou :: name :: rest).

(** ** The Unicode data *)
Definition own_strokes (t : KanjiTypes) : Prop := t = Jouyou \/ t = Extra.
Definition own_radical (t : KanjiTypes) : Prop := t = Jouyou \/ t = Jinmei \/ t = Extra.
Record from_unicode (u : Ucd) (k : Kanji) : Prop := {
  fu_pinyin : kPinyin k = ucdPinyin u; fu_morohashi : kMorohashi k = ucdMorohashi u;
  fu_nelson : kNelson k = getNelsonIds (ucdNelson u); fu_compat : kCompatibility k = None;
  fu_strokes : ~ own_strokes (kType k) -> kStrokes k = ucdStrokes u;
  fu_radical : ~ own_radical (kType k) -> kRadicalNumber k = ucdRadical u
}.
