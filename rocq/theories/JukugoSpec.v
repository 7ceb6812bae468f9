(** What the Jukugo files mean. *)
From Verif Require Export Utf8CharSpec ListSpec JukugoModel.
Open Scope N_scope.

(** the Kanji of a word: one for every occurrence, with its variation selector *)
Definition in_range (c : N) (r : N * N) : bool := (fst r <=? c) && (c <=? snd r).
Definition kanji_ranges : list (N * N) :=
  [(0x3400, 0x4DBF); (0x4E00, 0x9FFF); (0xF900, 0xFAFF); (0x20000, 0x2A6DF);
   (0x2E80, 0x2EFF); (0x2A700, 0x2EBEF); (0x2F800, 0x2FA1F); (0x30000, 0x3134F)].
Definition is_kanji (c : N) : bool := existsb (in_range c) kanji_ranges.
Definition kanji_of (i : Utf8CharSpec.item) : list bytes :=
  match i with
  | Plain c | DroppedMark c _ => if is_kanji c then [enc c] else []
  | WithSelector c v => if is_kanji c then [enc c ++ enc v] else []
  | _ => []
  end.
Definition word_kanji (name : bytes) (ks : list bytes) : Prop :=
  exists es, parse (upto_nul name) es /\ ks = flat_map kanji_of (Utf8CharSpec.items es).

(** a reading: only its multi-byte characters count *)
Definition is_hiragana (c : N) : bool := in_range c (0x3040, 0x309F).
Definition readable (i : Utf8CharSpec.item) : bool :=
  match i with
  | Plain c | DroppedMark c _ => is_hiragana c || (c =? 0x30FC)
  | WithSelector c _ => is_hiragana c
  | Folded _ _ d => is_hiragana d
  | Utf8CharSpec.Ascii _ | Stray _ | Malformed _ => true
  end.
Definition good_reading (r : bytes) : Prop :=
  exists es, parse (upto_nul r) es /\ Forall (fun i => readable i = true) (Utf8CharSpec.items es).

(** a word that may be stored: two or more Kanji *)
Definition good_word (j : Jukugo) : Prop :=
  (exists ks, word_kanji (jName j) ks /\ 2 <= len ks) /\ good_reading (jReading j).

(** a line of a grade file: word, space, reading in brackets *)
Definition grade_line (line name reading : bytes) : Prop :=
  line = name ++ b_ " (" ++ reading ++ b_ ")" /\ name <> [] /\ ~ In 40 name
  /\ ~ In 41 name /\ ~ In 41 reading.
(** an entry of the other file: word and reading in brackets; what follows is ignored, and a
    closing bracket inside the word makes everything after the opening one the reading *)
Definition other_entry (e name reading : bytes) : Prop :=
  ~ In 40 name
  /\ ((exists rest, e = name ++ [40] ++ reading ++ [41] ++ rest /\ ~ In 41 name /\ ~ In 41 reading)
      \/ (e = name ++ [40] ++ reading /\ In 41 name)).
(** a line of the other file: everything after the first "..." and one more character,
    separated by spaces *)
Definition other_line (line : bytes) (es : list bytes) : Prop :=
  exists a x rest, line = a ++ b_ "..." ++ x :: rest
    /\ (forall a' r', line = a' ++ b_ "..." ++ r' -> len a <= len a')
    /\ cut 32 rest es.

(** the words listed in a file of grade [g] *)
Definition file_words_of (g : N) (content : bytes) (js : list Jukugo) : Prop :=
  exists ls, cut 10 content ls /\
  if g =? GradeS then
    exists ess, Forall2 other_line ls ess
      /\ Forall2 (fun e j => other_entry e (jName j) (jReading j) /\ jGrade j = g) (concat ess) js
  else Forall2 (fun l j => grade_line l (jName j) (jReading j) /\ jGrade j = g) ls js.
(** all words of all files in order *)
Definition all_words (f : JukugoFiles) (js : list Jukugo) : Prop :=
  exists w1 w2 w3 w4 w5 w6 w7,
    file_words_of 1 (fG1 f) w1 /\ file_words_of 2 (fG2 f) w2 /\ file_words_of 3 (fG3 f) w3
    /\ file_words_of 4 (fG4 f) w4 /\ file_words_of 5 (fG5 f) w5 /\ file_words_of 6 (fG6 f) w6
    /\ file_words_of GradeS (fOther f) w7
    /\ js = w1 ++ w2 ++ w3 ++ w4 ++ w5 ++ w6 ++ w7.

(** the files can be loaded: good words only, and no word with the same reading in two files *)
Definition loadable (js : list Jukugo) : Prop :=
  Forall good_word js
  /\ forall j k, In j js -> In k js -> jName j = jName k -> jReading j = jReading k -> jGrade j = jGrade k.

(** the words without repetitions, in the order of their first lines *)
Definition same_word (j k : Jukugo) : bool := beq (jName j) (jName k) && beq (jReading j) (jReading k).
Fixpoint distinct (js : list Jukugo) : list Jukugo :=
  match js with [] => [] | j :: r => j :: filter (fun k => negb (same_word j k)) (distinct r) end.
Definition occurs (k : bytes) (ks : list bytes) : nat := length (filter (beq k) ks).
