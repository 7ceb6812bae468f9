(** Specification of what is written while the data is loaded. *)
From Coq Require Import Permutation.
From Verif Require Export ReportSpec LoadLogModel.
Open Scope N_scope.

(** * Errors *)

Fixpoint errors (ms : list Msg) : list bytes :=
  match ms with [] => [] | ToErr s :: r => s :: errors r | ToOut _ :: r => errors r end.
(** the [n]-th error *)
Definition error_line (n : N) (s : bytes) : bytes :=
  b_ "ERROR[" ++ repeat 48 (4 - List.length (to_string n)) ++ to_string n ++ b_ "] --- " ++ s ++ [10].

(** [n] is there more than once *)
Definition repeated (n : bytes) (l : list bytes) : Prop := exists a b c, l = a ++ n :: b ++ n :: c.
(** the second names of the lines of the linked Jinmei file *)
Definition line_names (content : bytes) (ns : list bytes) : Prop :=
  exists ls, cut 10 content ls /\ Forall2 (fun l n => exists j rest, cut 9 l (j :: n :: rest)) ls ns.
(** the names in the official files, with the old names that got a Kanji *)
Definition official_names (d : Data) (ns : list bytes) : list bytes :=
  map kName (type_list d Jouyou) ++ ns ++ map kName (type_list d LinkedOld)
  ++ flat_map (fun k => kName k :: kOldNames k) (type_list d Jinmei) ++ map kName (type_list d Extra).

(** what is said about the Unicode entry of [k]: its codes, and its name without a variation selector *)
Definition about (k : Kanji) (what s : bytes) : Prop :=
  exists cs us, fromUtf8 (kName k) 0 = Val cs /\ Forall2 shown_code us cs
    /\ s = kName k ++ b_ " [" ++ join 32 us ++ b_ "]"
           ++ (if selected_name k then b_ " (non-variant: " ++ firstn (List.length (kName k) - 3) (kName k) ++ b_ ")" else [])
           ++ b_ " " ++ what ++ b_ " in _ucd".
(** [s] says what is wrong with the Unicode entry of [k] *)
Inductive wrong_entry (ucd : UcdData) (k : Kanji) (s : bytes) : Prop :=
| NoEntry : ucdFind ucd (kName k) = Val None -> about k (b_ "not found") s -> wrong_entry ucd k s
| NotJoyo u : ucdFind ucd (kName k) = Val (Some u) -> kType k = Jouyou -> joyo u = false ->
    about k (b_ "not marked as 'Joyo'") s -> wrong_entry ucd k s
| NotJinmei u : ucdFind ucd (kName k) = Val (Some u) -> kType k = Jinmei -> jinmei u = false ->
    about k (b_ "not marked as 'Jinmei'") s -> wrong_entry ucd k s
| LinkNotJinmei u : ucdFind ucd (kName k) = Val (Some u) -> kType k = LinkedJinmei -> jinmei u = false ->
    about k (b_ "with link not marked as 'Jinmei'") s -> wrong_entry ucd k s
| NoLink u t : ucdFind ucd (kName k) = Val (Some u) -> kType k = LinkedJinmei -> jinmei u = true -> ucdLinks u = [] ->
    entryCodeAndName (ucdName u) = Val t -> about k (b_ "missing 'JinmeiLink' for " ++ t) s -> wrong_entry ucd k s.
(** the name of [k] without a variation selector leads to another Kanji *)
Definition hidden_variant (d : Data) (k : Kanji) : Prop :=
  selected_name k = true /\ exists k', findByName d (compatibilityName k) = Some k' /\ kName k' <> kName k.

(** something is wrong with the files or the loaded data *)
Inductive complaint (ucd : UcdData) (d : Data) (ns : list bytes) (s : bytes) : Prop :=
| NameTwice n : repeated n (official_names d ns) -> s = b_ "failed to insert '" ++ n ++ b_ "' into map" -> complaint ucd d ns s
| WrongEntry k : loaded_kanji d k -> wrong_entry ucd k s -> complaint ucd d ns s
| HiddenVariant k : loaded_kanji d k -> hidden_variant d k -> s = b_ "failed to insert variant '" ++ kName k ++ b_ "' into map" ->
    complaint ucd d ns s.

Definition name_dec : forall a b : bytes, {a = b} + {a <> b} := list_eq_dec N.eq_dec.
(** the errors are these: one for each time a name comes again, one for each wrong entry and one for each hidden variant *)
Definition all_complaints (ucd : UcdData) (d : Data) (ns : list bytes) (ss : list bytes) : Prop :=
  exists twice wrong hidden,
    Permutation ss (map (fun n => b_ "failed to insert '" ++ n ++ b_ "' into map") twice ++ map fst wrong
                    ++ map (fun k => b_ "failed to insert variant '" ++ kName k ++ b_ "' into map") hidden)
    /\ (forall n, count_occ name_dec twice n = pred (count_occ name_dec (official_names d ns) n))
    /\ NoDup wrong /\ (forall s k, In (s, k) wrong <-> loaded_kanji d k /\ wrong_entry ucd k s)
    /\ NoDup hidden /\ (forall k, In k hidden <-> loaded_kanji d k /\ hidden_variant d k).

(** * Output *)

(** a line with Kanji of a list, none if there are none *)
Definition found_line (ws : list bytes) (what list : bytes) : bytes :=
  match ws with
  | [] => []
  | _ => line (b_ "Found " ++ to_string (len ws) ++ b_ " " ++ what ++ b_ " in " ++ list ++ b_ ":" ++ names_of ws)
  end.
(** the type of the Kanji found for [s] *)
Definition finds_type (d : Data) (t : KanjiTypes) (s : bytes) : bool :=
  match findByName d s with Some k => type_is t k | None => false end.
Definition finds_level (d : Data) (s : bytes) : bool := match findByName d s with Some k => hasLevel k | None => false end.
(** the lines for the list of a level and for the frequency list *)
Definition level_text (d : Data) (v : JlptLevels) (ws : list bytes) : bytes :=
  found_line (filter (finds_type d Jinmei) ws) (b_ "Jinmei") (levelToString v).
Definition frequency_text (d : Data) (ws : list bytes) : bytes :=
  found_line (filter (finds_type d LinkedOld) ws) (b_ "Linked Old") (b_ "Frequency")
  ++ found_line (filter (finds_type d FrequencyType) ws) (b_ "non-Jouyou/Jinmei/JLPT") (b_ "Frequency")
  ++ found_line (filter (fun s => finds_type d Jinmei s && finds_level d s) ws) (b_ "JLPT Jinmei") (b_ "Frequency")
  ++ found_line (filter (fun s => finds_type d Jinmei s && negb (finds_level d s)) ws) (b_ "non-JLPT Jinmei") (b_ "Frequency")
  ++ found_line (filter (finds_type d LinkedJinmei) ws) (b_ "non-JLPT Linked Jinmei") (b_ "Frequency").
(** what is printed before the report: the level lists with their words, and the words of the frequency list *)
Definition begin_text (mode : ReportModel.DebugMode) (d : Data) (levels : list (JlptLevels * list bytes)) (ws : list bytes) : bytes :=
  match mode with
  | DebugFull => b_ ">>>
>>> Begin Loading Data
>>>
" ++ flat_map (fun q => level_text d (fst q) (snd q)) levels ++ frequency_text d ws
  | _ => []
  end.
(** numbered lines *)
Fixpoint error_lines (n : N) (ss : list bytes) : bytes :=
  match ss with [] => [] | s :: r => error_line n s ++ error_lines (n + 1) r end.
