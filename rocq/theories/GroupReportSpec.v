(** Specification of the reports about groups. *)
From Verif Require Export GroupLoadSpec ReportSpec DisplaySpec.
From Verif Require Utf8CharSpec.
From Coq Require Export Sorted.
Open Scope N_scope.

(** * Names and how often they occur *)

(** the names of the members of all groups, one after another *)
Definition memberships (gs : list Group) : list bytes := flat_map (fun g => map qName (gMembers g)) gs.
(** the number of groups a name is in *)
Definition belongs (gs : list Group) (n : bytes) : N := len (filter (has_member n) gs).
(** the names of the members in order, each once *)
Definition members_of (gs : list Group) (ns : list bytes) : Prop :=
  StronglySorted (fun a b => blt a b = true) ns /\ forall n, In n ns <-> In n (memberships gs).
Definition most (gs : list Group) (ns : list bytes) : N := fold_right N.max 0 (map (belongs gs) ns).
(** from [a] to [b] *)
Definition upto (a b : N) : list N := map N.of_nat (seq (N.to_nat a) (N.to_nat (b + 1 - a))).
(** how many Kanji are in one and in several groups, and which are in how many *)
Definition several_text (gs : list Group) (ns : list bytes) : bytes :=
  if existsb (fun n => 1 <? belongs gs n) ns then
    line (b_ "Unique kanji: " ++ to_string (len ns) ++ b_ " (once " ++ to_string (count (fun n => belongs gs n =? 1) ns)
          ++ b_ ", multi " ++ to_string (count (fun n => 1 <? belongs gs n) ns) ++ b_ ")")
    ++ flat_map (fun i => b_ "  Kanji in " ++ to_string i ++ b_ " groups:" ++ names_of (filter (fun n => belongs gs n =? i) ns) ++ [10])
                (upto 2 (most gs ns))
  else [].
Definition loaded_groups (n : N) (gs : list Group) : bytes :=
  line (b_ "Loaded " ++ to_string n ++ b_ " kanji into " ++ to_string (len gs) ++ b_ " groups").

(** * The types of the Kanji in groups *)

Definition in_group (gs : list Group) (k : Kanji) : bool := existsb (has_member (kName k)) gs.
(** the Kanji of a type: how many are in a group, how many there are, and the first of those that are in none *)
Definition breakdown_line (fill : N) (d : Data) (gs : list Group) (t : KanjiTypes) : bytes :=
  match filter (in_group gs) (type_list d t) with
  | [] => []
  | l => repeat fill (14 - List.length (typeToString t)) ++ typeToString t ++ b_ ": " ++ to_string (len l) ++ b_ " / "
         ++ to_string (len (type_list d t))
         ++ match filter (fun k => negb (in_group gs k)) (type_list d t) with
            | [] => []
            | m => b_ " (" ++ separated (b_ " ") (map kName (firstn 12 m)) ++ b_ ")"
            end ++ [10]
  end.
Definition breakdown (fill : N) (d : Data) (gs : list Group) : bytes :=
  b_ "Type Breakdown (showing up to 12 missing examples per type)" ++ [10] ++ flat_map (breakdown_line fill d gs) real_types.

(** * The lines of groups *)

(** [s] in a field of [w] bytes *)
Definition padded (left : bool) (fill : N) (w : nat) (s : bytes) : bytes :=
  if left then s ++ repeat fill (w - List.length s) else repeat fill (w - List.length s) ++ s.
Definition number_columns (gs : list Group) : nat := if len gs <? 100 then 2 else if len gs <? 1000 then 3 else 4.
Definition legend : bytes :=
  b_ ">>> .=常用 '=JLPT ""=Freq ^=人名用 ~=LinkJ %=LinkO +=Extra @=検定 #=1級 *=Ucd" ++ [10]
  ++ b_ "Name (number of entries)   Parent Member : Other Members" ++ [10].
(** the number of characters *)
Definition characters (s : bytes) (n : N) : Prop :=
  exists cs, chars cs /\ s = text cs /\ n = len (Utf8CharSpec.yields false (Utf8CharSpec.items (map Utf8CharSpec.Good cs))).
(** a name of one or two characters is made three wide with spaces *)
Definition meaning_line (left : bool) (g : Group) (t : bytes) : Prop :=
  exists n, characters (gName g) n
    /\ t = gName g ++ (if n =? 1 then b_ "　　" else if n =? 2 then b_ "　" else []) ++ b_ " ("
           ++ padded left 32 2 (to_string (len (gMembers g))) ++ b_ ")   :"
           ++ flat_map (fun k => b_ " " ++ with_suffix (qKanji k)) (gMembers g).
(** the first member is the parent of a family *)
Definition pattern_line (left : bool) (fill : N) (g : Group) (t : bytes) : Prop :=
  exists cs n, chars cs /\ gName g = text cs /\ total cs n
    /\ t = (let pad := repeat fill (N.to_nat (25 - n)) in if left then gName g ++ pad else pad ++ gName g)
           ++ b_ "(" ++ padded left fill 2 (to_string (len (gMembers g))) ++ b_ ")   "
           ++ match map (fun k => with_suffix (qKanji k)) (gMembers g) with
              | [] => []
              | f :: r => match gPattern g with Peer => b_ "　 : " ++ f | Reading => f | _ => f ++ b_ ":" end
                          ++ flat_map (fun m => b_ " " ++ m) r
              end.
Definition numbered (left : bool) (fill : N) (w : nat) (g : Group) (t : bytes) : bytes :=
  b_ "[" ++ padded left fill w (to_string (gNumber g)) ++ b_ "]  " ++ t ++ [10].
(** the lines of meaning groups: after the first the fill character is a space *)
Inductive meaning_lines (left : bool) (w : nat) : N -> list Group -> bytes -> Prop :=
| no_meanings : forall fill, meaning_lines left w fill [] []
| more_meanings : forall fill g gs t r, meaning_line left g t -> meaning_lines left w 32 gs r ->
    meaning_lines left w fill (g :: gs) (numbered left fill w g t ++ r).
Definition pattern_lines (left : bool) (fill : N) (w : nat) (gs : list Group) (t : bytes) : Prop :=
  exists ts, Forall2 (pattern_line left fill) gs ts /\ t = concat (map (fun '(g, t) => numbered left fill w g t) (combine gs ts)).

(** * The reports *)

(** [mt] and [pt] are the lines of groups, [mfill] and [pfill] the characters used for filling *)
Definition groups_report (header : bytes) (mfill pfill : N) (d : Data) (gd : GroupData) (mt pt t : bytes) : Prop :=
  exists ms ps, members_of (meaningGroups gd) ms /\ members_of (patternGroups gd) ps
    /\ t = (loaded_groups (len (memberships (meaningGroups gd))) (meaningGroups gd) ++ header ++ mt
            ++ several_text (meaningGroups gd) ms ++ breakdown mfill d (meaningGroups gd))
           ++ loaded_groups (len ps) (patternGroups gd) ++ header ++ pt ++ breakdown pfill d (patternGroups gd).
(** all Kanji of the groups are Kanji of the data *)
Definition finds_in (d : Data) (find : bytes -> option QKanji) : Prop := forall n k, find n = Some k -> findByName d n = Some (qKanji k).
(** no two Kanji in the lists of types have the same name (see C79 for when they may) *)
Definition no_same_name (d : Data) : Prop := NoDup (map kName (all_kanji d)).
(** no Kanji is in two groups *)
Definition in_one_group (gs : list Group) : Prop := forall n, belongs gs n <= 1.
(** the names of the groups are text *)
Definition names_are_text (gs : list Group) : Prop := Forall (fun g => exists cs, chars cs /\ gName g = text cs) gs.
