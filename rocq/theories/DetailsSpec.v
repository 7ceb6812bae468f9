(** Specification of the argument that names a Kanji and of what is shown about a Kanji. *)
From Coq Require Export Permutation.
From Verif Require Export DetailsModel DisplaySpec LaunchSpec StringSpec KanjiSpec.
From Verif Require Export Utf8Spec BlockSpec IdsSpec GroupLoadSpec.
Open Scope N_scope.

(** * The argument *)

(** what is shown: one Kanji, or the Kanji found for an id *)
Inductive shown := One (name : bytes) | Several (what id : bytes) (ks : list Kanji).
(** the documented forms of the argument (see the help text) *)
Inductive stands_for (d : Data) : bytes -> shown -> Prop :=
| sf_frequency : forall a k, numeral a -> decimal a <= 65535 -> findByFrequency d (decimal a) = Val (Some k) ->
    stands_for d a (One (kName k))
| sf_morohashi : forall r i t, morohashi r i t ->
    stands_for d (b_ "m" ++ r) (Several (b_ "Morohashi") (morohashiToString (i, t)) (findByMorohashiId d (i, t)))
| sf_nelson : forall r, numeral r -> decimal r <= 65535 ->
    stands_for d (b_ "n" ++ r) (Several (b_ "Nelson") r (findByNelsonId d (decimal r)))
| sf_unicode : forall r c, denotes 16 r c -> len r = 4 \/ (len r = 5 /\ 0x10000 <= c < 0x30000) -> scalar c ->
    stands_for d (b_ "u" ++ r) (One (enc c))
| sf_surrogate : forall r c, denotes 16 r c -> len r = 4 -> ~ scalar c -> stands_for d (b_ "u" ++ r) (One (enc 0xFFFD))
| sf_kanji : forall cs, one_of kanji cs -> stands_for d (text cs) (One (text cs)).

(** * Lines about a Kanji *)

(** values that come one after the other are never in the wrong order *)
Definition in_order {A} (lt : A -> A -> out bool) (l : list A) : Prop :=
  ForallOrdPairs (fun a b => lt b a <> Val true) l.
(** std::sort: for a strict weak order the result is in order and has the same values *)
Definition sorts {A} (lt : A -> A -> out bool) (sort : list A -> list A) : Prop :=
  forall l, strict_weak (fun x => In x l) lt -> Permutation (sort l) l /\ in_order lt (sort l).

(** the suffix of a Kanji *)
Definition with_suffix (k : Kanji) : bytes := kName k ++ match KanjiSpec.group k with Some c => [c] | None => [] end.
(** the line of similar Kanji: the other members of the first pattern group the Kanji is in *)
Definition similar_line (k : Kanji) (groups : list Group) (t : bytes) : Prop :=
  match find (has_member (kName k)) groups with
  | None => t = []
  | Some g =>
      (gPattern g = Reading /\ t = [])
      \/ (gPattern g <> Reading /\ exists s,
            t = b_ "    Similar:" ++ flat_map (fun j => b_ " " ++ with_suffix j) s ++ [10]
            /\ Permutation s (filter (fun j => negb (beq (kName j) (kName k))) (map qKanji (gMembers g)))
            /\ in_order orderByQualifiedName s)
  end.
(** the lines of ids *)
Definition ids_lines (k : Kanji) : bytes :=
  (if 0 <? fst (kMorohashi k) then b_ "  Morohashi: " ++ morohashiToString (kMorohashi k) ++ [10] else [])
  ++ match kNelson k with
     | [] => []
     | [i] => b_ "  Nelson ID: " ++ to_string i ++ [10]
     | l => b_ " Nelson IDs: " ++ sep_by (b_ " ") (map to_string l) ++ [10]
     end.
(** the line of categories: the meaning groups the Kanji is in *)
Definition category_line (k : Kanji) (groups : list Group) : bytes :=
  match filter (has_member (kName k)) groups with
  | [] => []
  | [g] => b_ "   Category: [" ++ gName g ++ b_ "]" ++ [10]
  | l => b_ " Categories: " ++ sep_by (b_ ", ") (map (fun g => b_ "[" ++ gName g ++ b_ "]") l) ++ [10]
  end.

(** * Jukugo *)

(** a list cut into lines of three *)
Inductive by_three {A} : list A -> list (list A) -> Prop :=
| bt_nil : by_three [] []
| bt_last : forall l, (1 <= length l <= 3)%nat -> by_three l [l]
| bt_cons : forall a b c r ls, r <> [] -> by_three r ls -> by_three (a :: b :: c :: r) ([a; b; c] :: ls).
(** the entries of one column *)
Definition column {A} (c : nat) (ls : list (list A)) : list A :=
  flat_map (fun l => match nth_error l c with Some x => [x] | None => [] end) ls.
(** the number of columns a terminal needs for a text *)
Definition size_of (s : bytes) : N := match displaySize s with Val n => n | _ => 0 end.
(** the width of a column: the longest entry and two spaces, but not more than 30 *)
Definition width (es : list bytes) : N := N.min 30 (fold_right N.max 0 (map (fun e => size_of e + 2) es)).
(** an entry with spaces up to a width *)
Definition padded (w : N) (e : bytes) : bytes := e ++ repeat 32 (N.to_nat (w - size_of e)).
(** one line of a table *)
Definition table_line (ls : list (list bytes)) (l : list bytes) : bytes :=
  [10] ++ concat (map (fun p => padded (width (column (fst p) ls)) (snd p)) (combine (seq 0 (length l)) l)).
(** what is shown for a list of Jukugo: on the same line, or as a table *)
Definition jukugo_lines (label : bytes) (es : list bytes) (t : bytes) : Prop :=
  if len es <=? 3 then t = label ++ flat_map (fun e => b_ " " ++ e) es ++ [10]
  else exists ls, by_three es ls /\ t = label ++ b_ " " ++ to_string (len es) ++ flat_map (table_line ls) ls ++ [10].
(** the grade of a Jukugo is the one of the Kanji *)
Definition same_grade (k : Kanji) (j : Jukugo) : bool :=
  match kGrade k with G1 => jGrade j =? 1 | G2 => jGrade j =? 2 | G3 => jGrade j =? 3 | G4 => jGrade j =? 4
                    | G5 => jGrade j =? 5 | G6 => jGrade j =? 6 | GS => jGrade j =? 7 | NoGrade => false end.
Definition jukugo_part (k : Kanji) (js : list Jukugo) (t : bytes) : Prop :=
  match js with
  | [] => t = [10]
  | _ =>
      if hasGrade k && (3 <? len js) && existsb (fun j => negb (same_grade k j)) js then
        exists a b, jukugo_lines (b_ "    Same Grade Jukugo:") (map nameAndReading (filter (same_grade k) js)) a
          /\ jukugo_lines (b_ "    Other Grade Jukugo:") (map nameAndReading (filter (fun j => negb (same_grade k j)) js)) b
          /\ t = a ++ b ++ [10]
      else exists a, jukugo_lines (b_ "     Jukugo:") (map nameAndReading js) a /\ t = a ++ [10]
  end.
(** a text that a terminal shows as it is counted *)
Definition entry_ok (j : Jukugo) : Prop :=
  bytes_ok (nameAndReading j) /\ no_nul (nameAndReading j) /\ boundary (nameAndReading j) /\ len (nameAndReading j) < 2 ^ 30.

(** * All of it *)

(** the legend *)
Definition legend : bytes := b_ ">>> Legend:
Fields: N[1-5]=JLPT Level, K[1-10]=Kentei Kyu, G[1-6]=Grade (S=Secondary School)
Suffix: .=常用 '=JLPT ""=Freq ^=人名用 ~=LinkJ %=LinkO +=Extra @=検定 #=1級 *=Ucd
".
Definition sources_legend : bytes := b_ "Sources: G=China / Singapore, H=Hong Kong, J=Japan, K=Korea, T=Taiwan, V=Vietnam

".
(** the type of a Kanji, for official and extra Kanji with the number, the year if there is one and the reason of a Jinmei Kanji *)
Definition year_text (x : Details) : bytes := if 0 <? dYear x then b_ " " ++ to_string (dYear x) else [].
Definition reason_text (r : option N) : bytes :=
  match r with
  | None => b_ "None"
  | Some r => if r =? 0 then b_ "Names" else if r =? 1 then b_ "Print" else if r =? 2 then b_ "Variant"
              else if r =? 3 then b_ "Moved" else if r =? 4 then b_ "Simple" else if r =? 5 then b_ "Other" else []
  end.
Definition type_text (k : Kanji) : bytes :=
  let x := kDetails k in
  match kType k with
  | Jouyou => b_ "Jouyou (#" ++ to_string (dNumber x) ++ year_text x ++ b_ ")"
  | Jinmei => b_ "Jinmei (#" ++ to_string (dNumber x) ++ year_text x ++ b_ " [" ++ reason_text (dReason x) ++ b_ "])"
  | Extra => b_ "Extra (#" ++ to_string (dNumber x) ++ b_ ")"
  | LinkedJinmei => b_ "LinkedJinmei" | LinkedOld => b_ "LinkedOld" | FrequencyType => b_ "Frequency"
  | Kentei => b_ "Kentei" | UcdType => b_ "Ucd" | NoType => b_ "None"
  end.
(** what is shown for an id, given the texts about each Kanji found, with and without the legend *)
Definition matches_text (what id : bytes) (ts : list (bytes * bytes)) : bytes :=
  match ts with
  | [] => b_ "Found 0 matches for " ++ what ++ b_ " ID " ++ id ++ [10]
  | [(withLegend, _)] => withLegend
  | _ => legend ++ [10] ++ b_ "Found " ++ to_string (len ts) ++ b_ " matches for " ++ what ++ b_ " ID " ++ id ++ b_ ":" ++ [10; 10]
         ++ concat (map snd ts)
  end.
Definition review_lines (reading : bytes) (k : Kanji) (ms ps : list Group) (js : list Jukugo) (t : bytes) : Prop :=
  exists s j, similar_line k ps s /\ jukugo_part k js j
    /\ t = b_ "    Reading: " ++ reading ++ [10] ++ s ++ ids_lines k ++ category_line k ms ++ j.
