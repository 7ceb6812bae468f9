(** Specification of the reports about the loaded data. *)
From Verif Require Export LoadSpec DetailsSpec UcdLinkSpec TextSpec.
Open Scope N_scope.

Definition real_types : list KanjiTypes := [Jouyou; Jinmei; LinkedJinmei; LinkedOld; FrequencyType; Extra; Kentei; UcdType].
(** one line of a report *)
Definition line (s : bytes) : bytes := b_ ">>> " ++ s ++ [10].
(** a name and a number *)
Definition entry (name : bytes) (n : N) : bytes := name ++ b_ " " ++ to_string n.
(** how many have the property *)
Definition count {A} (p : A -> bool) (l : list A) : N := len (filter p l).
(** the Kanji in the lists of all types *)
Definition all_kanji (d : Data) : list Kanji := flat_map (type_list d) real_types.

(** * Counts *)

(** a line with the number of Kanji that have a property, the number for each type that has some and the first of them *)
Definition count_line (d : Data) (p : Kanji -> bool) (name : bytes) (examples : nat) : bytes :=
  match filter p (all_kanji d) with
  | [] => []
  | l => line (entry name (len l) ++ b_ " ("
           ++ separated (b_ ", ")
                (map (fun t => entry (typeToString t) (count p (type_list d t))
                               ++ flat_map (fun k => b_ " " ++ kName k) (firstn examples (filter p (type_list d t))))
                     (filter (fun t => existsb p (type_list d t)) real_types))
           ++ b_ ")")
  end.
(** the line with the number of Kanji and the size of each list *)
Definition loaded_line (d : Data) : bytes :=
  line (b_ "Loaded " ++ to_string (len (dNames d)) ++ b_ " Kanji ("
        ++ separated (b_ " ") (map (fun t => entry (typeToString t) (len (type_list d t))) real_types) ++ b_ ")").
Definition is_in_jouyou (k : Kanji) : bool := match kType k with Jouyou => true | _ => false end.
Definition is_in_jinmei (k : Kanji) : bool := match kType k with Jinmei => true | _ => false end.
Definition frequent (k : Kanji) : bool := 0 <? kFrequency k.
Definition counts_text (d : Data) : bytes :=
  count_line d hasLevel (b_ "  Has JLPT level") 0
  ++ count_line d (fun k => frequent k && negb (is_in_jouyou k || hasLevel k)) (b_ "  Has frequency and not in Jouyou or JLPT") 0
  ++ count_line d (fun k => is_in_jinmei k && negb (frequent k || hasLevel k)) (b_ "  Jinmei with no frequency and not JLPT") 0
  ++ count_line d (fun k => negb (frequent k)) (b_ "  NF (no-frequency)") 0
  ++ count_line d (fun k => 0 <? snd (kStrokes k)) (b_ "  Has Variant Strokes") 0
  ++ count_line d selected_name (b_ "  Has Variation Selectors") 5
  ++ count_line d (fun k => match kOldNames k with [] => false | _ => true end) (b_ "Old Forms") 0.

(** * Grades, levels and kyus *)

Definition grade_is (g : KanjiGrades) (k : Kanji) : bool := gradeNumber (kGrade k) =? gradeNumber g.
Definition level_is (v : JlptLevels) (k : Kanji) : bool := levelNumber (kLevel k) =? levelNumber v.
Definition kyu_is (q : KenteiKyus) (k : Kanji) : bool := kyuNumber (kKyu k) =? kyuNumber q.
(** the Jouyou Kanji of a grade: their number, how many have no frequency and how many there are of each level *)
Definition grade_line (jouyou : list Kanji) (g : KanjiGrades) : bytes :=
  let l := filter (grade_is g) jouyou in
  let nf := count (fun k => negb (frequent k)) l in
  match l with
  | [] => []
  | _ => line (b_ "  Total for grade " ++ gradeToString g ++ b_ ": " ++ to_string (len l)
               ++ (if 0 <? nf then b_ " (nf " ++ to_string nf ++ b_ ")" else [])
               ++ b_ " (" ++ separated (b_ ", ") (map (fun v => entry (levelToString v) (count (level_is v) l))
                                                 (filter (fun v => existsb (level_is v) l) (AllLevels ++ [NoLevel]))) ++ b_ ")")
  end.
Definition grades_text (d : Data) : bytes :=
  line (b_ "Grade breakdown:") ++ flat_map (grade_line (type_list d Jouyou)) (AllGrades ++ [NoGrade])
  ++ line (b_ "  Total for all grades: " ++ to_string (len (type_list d Jouyou))).
(** the Kanji with a property: their number and the number of each type, with how many have no frequency *)
Definition stat_line (d : Data) (name value : bytes) (p : Kanji -> bool) (showNoFreq : bool) : bytes :=
  match filter p (all_kanji d) with
  | [] => []
  | l => line (b_ "  Total for " ++ name ++ b_ " " ++ value ++ b_ ": " ++ to_string (len l) ++ b_ " ("
           ++ separated (b_ ", ")
                (map (fun t => let nf := count (fun k => negb (frequent k)) (filter p (type_list d t)) in
                               entry (typeToString t) (count p (type_list d t))
                               ++ (if showNoFreq && (0 <? nf) then b_ " nf " ++ to_string nf else []))
                     (filter (fun t => existsb p (type_list d t)) real_types))
           ++ b_ ")")
  end.
Definition stats_text {A} (d : Data) (name : bytes) (values : list A) (text : A -> bytes) (is : A -> Kanji -> bool) (showNoFreq : bool)
  : bytes :=
  line (name ++ b_ " breakdown:") ++ flat_map (fun v => stat_line d name (text v) (is v) showNoFreq) values
  ++ line (b_ "  Total for all " ++ name ++ b_ "s: " ++ to_string (len (all_kanji d))).

(** * Strokes *)

(** the number of strokes is not the one of the Unicode data *)
Definition differs (ucd : UcdData) (k : Kanji) : bool :=
  match ucdFind ucd (kName k) with
  | Val (Some u) => negb (fst (kStrokes k) =? fst (ucdStrokes u))
  | _ => false
  end.
Definition names_of (l : list bytes) : bytes := flat_map (fun n => b_ " " ++ n) l.
Definition strokes_text (d : Data) (ucd : UcdData) : bytes :=
  flat_map (fun t => match filter (differs ucd) (type_list d t) with
                     | [] => []
                     | l => line (b_ "Found " ++ to_string (len l) ++ b_ " " ++ typeToString t
                                  ++ b_ " Kanji with different strokes in _ucd:" ++ names_of (map kName l))
                     end) real_types.

(** * Radicals *)

(** a number at the right of four columns *)
Definition column (n : N) : bytes := repeat 32 (4 - List.length (to_string n)) ++ to_string n.
(** the number and name of a radical *)
Definition radical_title (r : Radical) : bytes :=
  b_ "[" ++ repeat 48 (3 - List.length (to_string (radNumber r))) ++ to_string (radNumber r) ++ b_ "] " ++ radName r.
Definition type_is (t : KanjiTypes) (k : Kanji) : bool := kanjiTypeNumber (kType k) =? kanjiTypeNumber t.
(** a Kanji in a common block (see one_of in BlockSpec) *)
Definition in_common_block (s : bytes) : bool := match isCommonKanji s true with Val b => b | _ => false end.
Definition common_loaded (d : Data) : list Kanji := filter (fun k => in_common_block (kName k)) (map snd (dNames d)).
Definition with_radical (d : Data) (r : Radical) : list Kanji := filter (fun k => kRadicalNumber k =? radNumber r) (common_loaded d).
(** the line of a radical: [l] has its Kanji *)
Definition radical_line (r : Radical) (l : list Kanji) : bytes :=
  radical_title r ++ b_ ":" ++ column (len l) ++ b_ " (" ++ flat_map (fun t => column (count (type_is t) l)) real_types ++ b_ ") :"
  ++ names_of (map kName (firstn 12 l)) ++ (if 12 <? len l then b_ " ..." else []) ++ [10].
Definition used (d : Data) (r : Radical) : bool := existsb (fun k => kRadicalNumber k =? radNumber r) (common_loaded d).
(** the report: a line for each radical that has common Kanji, with these in the order of strokes, and the radicals without *)
Definition radicals_report (rd : RadicalData) (d : Data) (t : bytes) : Prop :=
  exists ls,
    Forall2 (fun r l => Permutation l (with_radical d r) /\ in_order orderByStrokes l) (filter (used d) (radList rd)) ls
    /\ t = line (b_ "Common Kanji Radicals (" ++ separated (b_ " ") (map typeToString real_types) ++ b_ "):")
           ++ flat_map (fun '(r, l) => radical_line r l) (combine (filter (used d) (radList rd)) ls)
           ++ line (b_ "  Total for " ++ to_string (len (filter (used d) (radList rd))) ++ b_ " radicals: "
                    ++ column (len (common_loaded d)) ++ b_ " ("
                    ++ separated (b_ " ") (map (fun t => to_string (count (type_is t) (common_loaded d))) real_types) ++ b_ ")")
           ++ match filter (fun r => negb (used d r)) (radList rd) with
              | [] => []
              | m => line (b_ "  Found " ++ to_string (len m) ++ (if len m =? 1 then b_ " radical" else b_ " radicals")
                           ++ b_ " with no Kanji:" ++ names_of (map radical_title m))
              end.

(** * Unicode data *)

Inductive ucd_class := IsJouyou | IsJinmei | IsOther.
Definition class_of (u : Ucd) : ucd_class :=
  if N.testbit (ucdBits u) 6 then IsJouyou else if N.testbit (ucdBits u) 7 then IsJinmei else IsOther.
Definition in_class (c : ucd_class) (u : Ucd) : bool :=
  match c, class_of u with IsJouyou, IsJouyou => true | IsJinmei, IsJinmei => true | IsOther, IsOther => true | _, _ => false end.
Definition has_text (s : bytes) : bool := match s with [] => false | _ => true end.
(** a line with the number of entries that have a property, of all entries and of those in each class *)
Definition ucd_line (us : list Ucd) (label : bytes) (p : Ucd -> bool) : bytes :=
  line (b_ "  " ++ label ++ b_ ": " ++ to_string (count p us)
        ++ b_ " (Jouyou " ++ to_string (count (fun u => in_class IsJouyou u && p u) us)
        ++ b_ ", Jinmei " ++ to_string (count (fun u => in_class IsJinmei u && p u) us)
        ++ b_ ", Other " ++ to_string (count (fun u => in_class IsOther u && p u) us) ++ b_ ")").
Definition ucd_counts (us : list Ucd) : bytes :=
  ucd_line us (b_ "Total") (fun _ => true)
  ++ ucd_line us (b_ "Links") (fun u => match ucdLinks u with [] => false | _ => true end)
  ++ ucd_line us (b_ "VStrokes") (fun u => 0 <? snd (ucdStrokes u))
  ++ ucd_line us (b_ "Meanings") (fun u => has_text (ucdMeaning u))
  ++ ucd_line us (b_ "On Readings") (fun u => has_text (ucdOn u))
  ++ ucd_line us (b_ "Kun Readings") (fun u => has_text (ucdKun u))
  ++ ucd_line us (b_ "Morohashi Ids") (fun u => 0 <? fst (ucdMorohashi u))
  ++ ucd_line us (b_ "Nelson Ids") (fun u => has_text (ucdNelson u)).
(** the Unicode entry with the name of the Kanji, when it has links *)
Definition linked_entry (ucd : UcdData) (k : Kanji) : option Ucd :=
  match mfind (kName k) (ucdMap ucd) with
  | Some u => match ucdLinks u with [] => None | _ => Some u end
  | None => None
  end.
(** the line of a Kanji in a list of links *)
Definition link_line (ucd : UcdData) (k : Kanji) (t : bytes) : Prop :=
  match mfind (kName k) (ucdMap ucd) with
  | None => t = b_ "  ERROR: " ++ kName k ++ b_ " not found in UCD" ++ [10]
  | Some u =>
      match ucdLinks u with
      | [] => t = []
      | ls => exists a ts, code_and_name (ucdName u) a /\ Forall2 code_and_name ls ts
                /\ t = b_ "  " ++ a ++ b_ " -> " ++ separated (b_ ", ") ts ++ b_ " " ++ nth (N.to_nat (ucdLinkType u)) LinkTypeNames [] ++ [10]
      end
  end.
Definition links_report (ucd : UcdData) (name : bytes) (l : list Kanji) (t : bytes) : Prop :=
  exists ts, Forall2 (link_line ucd) l ts
    /\ t = line (entry (name ++ b_ " Kanji with links") (count (fun k => match linked_entry ucd k with Some _ => true | None => false end) l) ++ b_ ":")
           ++ concat ts.
(** the line of a loaded Kanji with a variation selector and the Unicode entry found for it *)
Definition selector_line (ucd : UcdData) (i : N) (k : Kanji) (t : bytes) : Prop :=
  exists cs us u a bs, fromUtf8 (kName k) 0 = Val cs /\ Forall2 shown_code us cs /\ ucdFind ucd (kName k) = Val (Some u)
    /\ code_and_name (ucdName u) a /\ Forall2 code_and_name (ucdLinks u) bs
    /\ t = line (b_ "    " ++ to_string i ++ repeat 32 (3 - List.length (to_string i)) ++ b_ "    [" ++ join 32 us ++ b_ "] " ++ kName k
                 ++ b_ " variant of " ++ firstn (List.length (kName k) - 3) (kName k) ++ b_ "    " ++ a
                 ++ match bs with [] => [] | _ => b_ " variant of " ++ separated (b_ ", ") bs end).
(** the loaded Kanji with variation selectors, in order of name *)
Definition selected_kanji (d : Data) : list Kanji := filter selected_name (map snd (dNames d)).
Definition selectors_report (ucd : UcdData) (d : Data) (t : bytes) : Prop :=
  exists ts, Forall2 (fun p t => selector_line ucd (N.of_nat (fst p)) (snd p) t)
                     (combine (seq 1 (List.length (selected_kanji d))) (selected_kanji d)) ts
    /\ t = line (b_ "  Standard Kanji with 'Variation Selectors' vs UCD Variants:")
           ++ line (b_ "    #      Standard Kanji with Selector    UCD Compatibility Kanji")
           ++ line (b_ "    -      ----------------------------    -----------------------") ++ concat ts.
Definition ucd_report (ucd : UcdData) (d : Data) (t : bytes) : Prop :=
  exists a b c, links_report ucd (b_ "Frequency") (type_list d FrequencyType) a /\ links_report ucd (b_ "Extra") (type_list d Extra) b
    /\ selectors_report ucd d c
    /\ t = line (b_ "Kanji Loaded from Unicode 'ucd' file:") ++ ucd_counts (map snd (ucdMap ucd)) ++ a ++ b ++ c.
(** every loaded Kanji with a variation selector has a Unicode entry *)
Definition selectors_found (ucd : UcdData) (d : Data) : Prop :=
  Forall (fun k => exists u, ucdFind ucd (kName k) = Val (Some u)) (selected_kanji d).

(** * All reports *)

Definition info_report (d : Data) : bytes := loaded_line d ++ grades_text d.
Definition full_report (e : Env) (d : Data) (t : bytes) : Prop :=
  exists r u, radicals_report (envRadicals e) d r /\ ucd_report (envUcd e) d u
    /\ t = strokes_text d (envUcd e) ++ b_ ">>>" ++ [10] ++ line (b_ "Finished Loading Data") ++ b_ ">>>" ++ [10]
           ++ loaded_line d ++ counts_text d ++ grades_text d
           ++ stats_text d (b_ "Level") (AllLevels ++ [NoLevel]) levelToString level_is true
           ++ stats_text d (b_ "Kyu") (AllKyus ++ [NoKyu]) kyuToString kyu_is false ++ r ++ u.
