(** Specification of the groups and the Jukugo of a data directory, and of what is written when they are loaded. *)
From Verif Require Export DirSpec GroupReportSpec JukugoSpec LoadLogSpec.
Open Scope N_scope.

(** ** Groups *)

Definition group_columns : list (bytes * (GroupRow -> bytes)) :=
  [(b_ "Number", grNumber); (b_ "Name", grName); (b_ "Members", grMembers)].
(** the two tables of groups of a directory *)
Definition groups_in (fs : bytes -> option CountModel.node) (writable : bytes -> bool) (dir : bytes) (mr pr : list GroupRow) : Prop :=
  is_dir fs dir /\ table_in fs writable dir (b_ "meaning-groups") group_columns mr
  /\ table_in fs writable dir (b_ "pattern-groups") group_columns pr.

(** a group in messages *)
Definition in_message (g : Group) : bytes := b_ "[" ++ to_string (gNumber g) ++ b_ " " ++ gName g ++ b_ "]".
(** the members of a pattern group that are in an earlier one *)
Definition repeated_in (before : list Group) (g : Group) : list bytes :=
  flat_map (fun k => match List.find (has_member (qName k)) before with
                     | Some h => [qName k ++ b_ " from " ++ in_message g ++ b_ " already in " ++ in_message h]
                     | None => []
                     end) (gMembers g).
Fixpoint repeats (before gs : list Group) : list bytes :=
  match gs with [] => [] | g :: r => repeated_in before g ++ repeats (before ++ [g]) r end.
(** a row with names of members that can be looked for *)
Definition readable_row (r : GroupRow) : Prop :=
  grName r <> [] /\ Forall (fun b => 128 <= b) (grName r) /\ forall s, grMembers r <> s ++ [44].
(** the members of a row that are not found *)
Definition not_found (findMember : bytes -> option QKanji) (r : GroupRow) (names : list bytes) : list bytes :=
  map (fun n => b_ "failed to find member " ++ n ++ b_ " in group: '" ++ grName r ++ b_ "', number: " ++ grNumber r)
      (filter (fun n => match findMember n with None => true | Some _ => false end) names).
Definition row_errors (findMember : bytes -> option QKanji) (t : GroupType) (r : GroupRow) (es : list bytes) : Prop :=
  (readable_row r /\ exists p names, pattern_of t (grName r) p /\ member_names p (grName r) (grMembers r) names /\ es = not_found findMember r names)
  \/ (~ readable_row r /\ es = []).
(** [rows] are groups up to [r], which is none *)
Definition stops_at (findMember : bytes -> option QKanji) (t : GroupType) (rows : list GroupRow) (gs : list Group) (r : GroupRow) : Prop :=
  exists a b, rows = a ++ r :: b /\ Forall2 (group_of findMember t) a gs /\ forall g, ~ group_of findMember t r g.

(** ** Jukugo *)

(** the seven files *)
Definition jukugo_in (fs : bytes -> option CountModel.node) (dir : bytes) (f : JukugoFiles) : Prop :=
  exists j, child dir (b_ "jukugo") j /\ is_dir fs j
    /\ Forall2 (fun n c => exists p, child j n p /\ text_at fs p c) [b_ "g1"; b_ "g2"; b_ "g3"; b_ "g4"; b_ "g5"; b_ "g6"; b_ "other"]
         [fG1 f; fG2 f; fG3 f; fG4 f; fG5 f; fG6 f; fOther f].

(** the Kanji of words in order, each once *)
Definition kanji_in (js : list Jukugo) (ks : list bytes) : Prop :=
  StronglySorted (fun a b => blt a b = true) ks
  /\ forall k, In k ks <-> exists j w, In j js /\ word_kanji (jName j) w /\ In k w.
Definition type_in (d : Data) (t : KanjiTypes) (k : bytes) : bool :=
  match findByName d k with Some x => type_is t x | None => match t with NoType => true | _ => false end end.
(** how many Kanji with words are of a type, and the first twelve *)
Definition jukugo_line (fill : N) (d : Data) (ks : list bytes) (t : KanjiTypes) : bytes :=
  match filter (type_in d t) ks with
  | [] => []
  | l => repeat fill (14 - List.length (typeToString t)) ++ typeToString t ++ b_ ": " ++ to_string (len l) ++ b_ " ("
         ++ separated (b_ " ") (firstn 12 l) ++ b_ ")" ++ [10]
  end.
Definition grades : list (N * bytes) := [(1, b_ "G1"); (2, b_ "G2"); (3, b_ "G3"); (4, b_ "G4"); (5, b_ "G5"); (6, b_ "G6"); (7, b_ "S")].
(** [js] are the words, each once, [ks] their Kanji *)
Definition jukugo_report (fill : N) (d : Data) (js : list Jukugo) (ks : list bytes) : bytes :=
  b_ ">>>" ++ [10] ++ line (b_ "Begin Loading Jukugo") ++ b_ ">>>" ++ [10]
  ++ flat_map (fun g => line (b_ "Loaded " ++ to_string (count (fun j => jGrade j =? fst g) js) ++ b_ " for Grade: " ++ snd g)) grades
  ++ line (b_ "Total Kanji with Jukugo: " ++ to_string (len ks) ++ b_ ", unique jukugo: " ++ to_string (len js))
  ++ flat_map (jukugo_line fill d ks) (real_types ++ [NoType]).
