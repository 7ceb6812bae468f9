(** Specification of the messages about the Unicode data. *)
From Verif Require Export UcdSpec ErrRowsSpec ErrDetailsSpec TextSpec ErrUcdModel.
From Verif Require Export ErrBase.
Open Scope N_scope.

(** ** A list of checks *)
(** what has to hold, and what is said otherwise *)
Definition check : Type := Prop * (bytes -> Prop).
(** the message of the first check that fails *)
Fixpoint first_fault (cs : list check) (w : bytes) : Prop :=
  match cs with
  | [] => False
  | c :: r => (~ fst c /\ snd c w) \/ (fst c /\ first_fault r w)
  end.
Definition all_pass (cs : list check) : Prop := Forall (fun c => fst c) cs.

(** ** Parts of a row *)
(** the name of an entry is not the one for its code *)
Inductive entry_wrong (c : N) (n : bytes) : bytes -> Prop :=
| ew_name : (forall x, ~ kanji_name n x) -> entry_wrong c n (b_ "name " ++ quoted n ++ b_ " isn't a recognized Kanji")
| ew_code : forall x u v, kanji_name n x -> x <> c -> shown_code u c -> shown_code v x ->
    entry_wrong c n (b_ "code " ++ quoted u ++ b_ " doesn't match " ++ quoted v).
(** letters for sources *)
Inductive sources_wrong (s : bytes) : bytes -> Prop :=
| sw_long : 6 < len s -> sources_wrong s (b_ "exceeds max size")
| sw_twice : forall a c b, len s <= 6 -> s = a ++ c :: b -> NoDup a -> incl a source_letters -> In c a ->
    sources_wrong s (b_ "has duplicate value: " ++ [c])
| sw_unknown : forall a c b, len s <= 6 -> s = a ++ c :: b -> NoDup a -> incl a source_letters -> ~ In c source_letters ->
    sources_wrong s (b_ "has unrecognized value: " ++ [c]).
(** counts of strokes: one, or two if there is a variant *)
Definition out_of_range (what : bytes) (v : N) (w : bytes) : Prop :=
  exists n, written n v /\ w = what ++ b_ "strokes " ++ quoted n ++ b_ " out of range".
Inductive strokes_wrong (v : N) : option N -> bytes -> Prop :=
| kw_one : forall w, ~ (1 <= v <= 64) -> out_of_range [] v w -> strokes_wrong v None w
| kw_first : forall x w, ~ (2 <= v <= 64) -> out_of_range [] v w -> strokes_wrong v (Some x) w
| kw_second : forall x w, 2 <= v <= 64 -> ~ (3 <= x <= 33) -> out_of_range (b_ "variant ") x w -> strokes_wrong v (Some x) w
| kw_same : forall n, 2 <= v <= 64 -> 3 <= v <= 33 -> written n v ->
    strokes_wrong v (Some v) (b_ "strokes and variant strokes are the same " ++ quoted n).
(** the links: the first that has no code, a bad one or one of something else *)
Inductive links_wrong (at_row : bytes) (names codes : list bytes) : bytes -> Prop :=
| lw_more : forall n rest, names = n ++ rest -> rest <> [] -> Forall2 (fun n c => exists x, hex_code c x /\ kanji_name n x) n codes ->
    links_wrong at_row names codes (b_ "LinkNames has more values than LinkCodes" ++ at_row)
| lw_code : forall ns n ns' cs c cs' why, names = ns ++ n :: ns' -> codes = cs ++ c :: cs' ->
    Forall2 (fun n c => exists x, hex_code c x /\ kanji_name n x) ns cs -> code_wrong c why ->
    links_wrong at_row names codes (why ++ at_row ++ in_column (b_ "LinkCodes") c)
| lw_entry : forall ns n ns' cs c cs' x why, names = ns ++ n :: ns' -> codes = cs ++ c :: cs' ->
    Forall2 (fun n c => exists x, hex_code c x /\ kanji_name n x) ns cs -> hex_code c x -> entry_wrong x n why ->
    links_wrong at_row names codes why.
(** a Jinmei row with a link that some Jinmei row already has *)
Inductive link_taken (us : list Ucd) (name : bytes) (links : list bytes) : bytes -> Prop :=
| lt_taken : forall a l b n, links = a ++ l :: b -> NoDup a -> (forall x, In x a -> ~ In x (map fst (jinmei_links us))) ->
    (In l a /\ n = name) \/ In (l, n) (jinmei_links us) ->
    link_taken us name links
      (b_ "jinmei entry " ++ quoted name ++ b_ " with link " ++ quoted l ++ b_ " failed - link already points to " ++ quoted n).

(** ** A row *)
Section Checks.
Variable ltr : bool.
Variable at_row : bytes.
Variable us : list Ucd.
Variable r : UcdRow.
Definition just (t : bytes) : bytes -> Prop := fun w => w = t ++ at_row.
Definition number_said (col value : bytes) (max : N) (after : bytes) (w : bytes) : Prop :=
  exists why, number_wrong max value why /\ w = why ++ at_row ++ in_column col value ++ after.
Definition bool_said (col value : bytes) (w : bytes) : Prop := exists why, bool_wrong value why /\ w = why ++ at_row ++ in_column col value.
Definition is_number (s : bytes) (max : N) : Prop := exists v, loose_number s v /\ (max = 0 \/ v <= max).
(** the columns before the links *)
Definition first_checks : list check :=
  [ (rOn r <> [] \/ rKun r <> [] \/ rMorohashi r <> [] \/ rJSource r <> [], just (b_ "one of 'On', 'Kun', 'Morohashi' or 'JSource' must be populated"));
    (len (rName r) <= 4, just (b_ "name more than 4 bytes"));
    (is_number (rRadical r) 0, number_said (b_ "Radical") (rRadical r) 0 []);
    (exists v, loose_number (rRadical r) v /\ 1 <= v <= 214,
       fun w => exists v n, loose_number (rRadical r) v /\ written n v /\ just (b_ "radical " ++ quoted n ++ b_ " out of range") w);
    (exists b, flag (rJoyo r) b, bool_said (b_ "Joyo") (rJoyo r));
    (exists b, flag (rJinmei r) b, bool_said (b_ "Jinmei") (rJinmei r));
    (~ (flag (rJoyo r) true /\ flag (rJinmei r) true), just (b_ "can't be both joyo and jinmei"));
    (flag (rJoyo r) true -> rMeaning r <> [], just (b_ "meaning is empty for Jōyō Kanji")) ].
(** the columns of the links *)
Definition link_checks : list check :=
  [ (exists links, row_links r links, fun w => exists ns cs, cut 44 (rLinkNames r) ns /\ cut 44 (rLinkCodes r) cs /\ links_wrong at_row ns cs w);
    (rLinkNames r <> [] -> ~ flag (rJoyo r) true, just (b_ "joyo shouldn't have links"));
    (rLinkNames r <> [] -> rLinkType r <> [], just (b_ "LinkNames has a value, but LinkType is empty"));
    (rLinkNames r = [] -> rLinkType r = [], just (b_ "LinkType has a value, but LinkNames is empty"));
    (rLinkNames r = [] -> rLinkCodes r = [], just (b_ "LinkCodes has a value, but LinkNames is empty"));
    (flag (rJinmei r) true -> forall ls, cut 44 (rLinkNames r) ls -> NoDup ls /\ (forall l, In l ls -> ~ In l (map fst (jinmei_links us))),
       fun w => exists ls why, cut 44 (rLinkNames r) ls /\ link_taken us (rName r) ls why /\ just why w) ].
(** the entry; faults of numbers and codes name the row twice *)
Definition stroke_checks : list check :=
  [ (is_number (rStrokes r) 255, number_said (b_ "Strokes") (rStrokes r) 255 at_row);
    (rVStrokes r <> [] -> is_number (rVStrokes r) 255, number_said (b_ "VStrokes") (rVStrokes r) 255 at_row);
    (exists s, row_strokes r s,
       fun w => exists v x why, loose_number (rStrokes r) v
         /\ match x with None => rVStrokes r = [] | Some x => rVStrokes r <> [] /\ loose_number (rVStrokes r) x end
         /\ strokes_wrong v x why /\ just why w) ].
Definition code_checks : list check :=
  [ (exists c, hex_code (rCode r) c, fun w => exists why, code_wrong (rCode r) why /\ w = why ++ at_row ++ in_column (b_ "Code") (rCode r) ++ at_row);
    (exists c, hex_code (rCode r) c /\ kanji_name (rName r) c, fun w => exists c why, hex_code (rCode r) c /\ entry_wrong c (rName r) why /\ just why w) ].
Definition type_checks : list check :=
  [ (rLinkType r = [] \/ In (rLinkType r) LinkTypeNames, just (b_ "name " ++ quoted (rLinkType r) ++ b_ " not found")) ].
Definition last_checks : list check :=
  [ (good_sources (rSources r), fun w => exists why, sources_wrong (rSources r) why /\ just (b_ "sources " ++ quoted (rSources r) ++ b_ " " ++ why) w);
    (exists i t, morohashi (rMorohashi r) i t, fun w => exists why, id_wrong (rMorohashi r) why /\ just (id_message (rMorohashi r) why) w);
    (~ In (rName r) (map ucdName us), just (b_ "duplicate entry " ++ quoted (rName r))) ].
Definition row_checks : list check :=
  first_checks ++ link_checks ++ stroke_checks ++ (if ltr then code_checks ++ type_checks else type_checks ++ code_checks) ++ last_checks.
End Checks.

(** ** The table *)
Definition ucd_names : list bytes :=
  [b_ "Code"; b_ "Name"; b_ "Block"; b_ "Version"; b_ "Radical"; b_ "Strokes"; b_ "VStrokes"; b_ "Pinyin"; b_ "MorohashiId";
   b_ "NelsonIds"; b_ "Sources"; b_ "JSource"; b_ "Joyo"; b_ "Jinmei"; b_ "LinkCodes"; b_ "LinkNames"; b_ "LinkType"; b_ "Meaning";
   b_ "On"; b_ "Kun"; b_ "Japanese"].
Definition ucd_fields (l : list bytes) (r : UcdRow) : Prop :=
  l = [rCode r; rName r; rBlock r; rVersion r; rRadical r; rStrokes r; rVStrokes r; rPinyin r; rMorohashi r; rNelson r; rSources r; rJSource r;
       rJoyo r; rJinmei r; rLinkCodes r; rLinkNames r; rLinkType r; rMeaning r; rOn r; rKun r; rJapanese r].
(** a good row adds its data to the list, a bad one has a first fault *)
Definition ucd_step (name : bytes) (k : N) (l : list bytes) (us vs : list Ucd) : Prop :=
  exists r u, ucd_fields l r /\ row_is r u /\ vs = us ++ [u] /\ NoDup (map ucdName vs) /\ NoDup (map fst (jinmei_links vs)).
Definition ucd_fault (ltr : bool) (name : bytes) (k : N) (l : list bytes) (us : list Ucd) (e : exn) (w : bytes) : Prop :=
  e = DomainError /\ exists r, ucd_fields l r /\ first_fault (row_checks ltr (in_row name k) us r) w.
Definition ucd_table fs writable (dir : bytes) (us : list Ucd) : Prop := table_loads fs writable ucd_step dir (b_ "ucd") ucd_names [] us.
Definition ucd_says fs writable (ltr : bool) (dir : bytes) (e : exn) (w : bytes) : Prop :=
  table_says fs writable ucd_step (ucd_fault ltr) dir (b_ "ucd") ucd_names [] e w.
