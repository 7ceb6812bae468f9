(** What the program kanjiStats should print. *)
From Verif Require Export BaseFacts LaunchSpec StringSpec JoinSpec StatsSpec StatsReportModel.
Open Scope N_scope.

(** * Numbers *)

(** [v] is a nearest number with [d] decimals (as an integer of units 10^-d) to the percentage
    of [a] in [t] *)
Definition nearest_percent (d : nat) (a t v : N) : Prop :=
  (2 * Z.abs (100 * 10 ^ Z.of_nat d * Z.of_N a - Z.of_N v * Z.of_N t) <= Z.of_N t)%Z.
(** [s] is the text of [v] units 10^-d: the whole part, a point and [d] digits *)
Definition shows (d : nat) (v : N) (s : bytes) : Prop :=
  exists f, s = to_string (v / 10 ^ N.of_nat d) ++ b_ "." ++ f /\ List.length f = d /\ denotes 10 f (v mod 10 ^ N.of_nat d).
(** the percentage as it is printed (C104 says what it shows) *)
Definition percent (d : nat) (a t : N) : bytes := putFixed d (asPercent a t).

(** spaces before (after) a text that is shorter than the column *)
Definition to_right (n : nat) (s : bytes) : bytes := repeat 32 (n - List.length s) ++ s.
Definition to_left (n : nat) (s : bytes) : bytes := s ++ repeat 32 (n - List.length s).

(** * The command line *)

Definition option_like (s : bytes) : bool := match s with c :: _ => c =? 45 | [] => false end.
(** the arguments before and after the first "--" *)
Fixpoint before_end (l : list bytes) : list bytes :=
  match l with [] => [] | a :: r => if beq a (b_ "--") then [] else a :: before_end r end.
Fixpoint after_end (l : list bytes) : list bytes :=
  match l with [] => [] | a :: r => if beq a (b_ "--") then r else after_end r end.
Definition switches (l : list bytes) : list bytes := filter option_like (before_end l).
Definition file_names (l : list bytes) : list bytes := filter (fun a => negb (option_like a)) (before_end l) ++ after_end l.
Definition has (x : bytes) (l : list bytes) : bool := existsb (beq x) l.
(** the first switch that is neither -b nor -v decides, if there is one *)
Definition other_switch (l : list bytes) : option bytes :=
  List.find (fun a => negb (has a [b_ "-b"; b_ "-v"])) (switches l).

(** * Counting *)

Definition regex (removes : bool) : option (list N -> list N) := if removes then Some removeFurigana else None.
(** rows about Kana and letters do not count Furigana *)
Definition without_furigana (name : bytes) : bool := has name [b_ "Hiragana"; b_ "Katakana"; b_ "MB-Letter"].
Definition about_kanji (name : bytes) : bool := has name [b_ "Common Kanji"; b_ "Rare Kanji"; b_ "Non-UCD Kanji"].

(** the last name in a path *)
Definition no_slash (s : bytes) : Prop := ~ In 47 s.
(** each different character with its number *)
Definition tally (cs : list bytes) : list (bytes * N) := map (fun k => (k, occurs k cs)) (nodup bytes_eq_dec cs).

(** the changed lines, numbered from [i + 1], each as it was and as it is now, after a line with
    the tag when it is not that of the last changed line *)
Fixpoint replacements_text (find : option (list N -> list N)) (last : bytes) (i : N) (ts : list (bytes * option bytes)) : bytes :=
  match ts with
  | [] => []
  | (s, tag) :: r =>
      let n := counted_text find s in
      if beq n s then replacements_text find last i r
      else (match tag with
            | Some t => if beq t last then [] else b_ "Tag '" ++ t ++ b_ "'" ++ [10]
            | None => []
            end)
           ++ b_ "  " ++ to_string (i + 1) ++ b_ " : " ++ s ++ [10]
           ++ b_ "  " ++ repeat 32 (List.length (to_string (i + 1))) ++ b_ " : " ++ n ++ [10]
           ++ replacements_text find (match tag with Some t => t | None => last end) (i + 1) r
  end.

(** * The report about one file or directory *)

Section Report.
  Variable maxFrequency : N.
  Variable findUcd : bytes -> bool.
  Variable findByName : bytes -> option Entry.
  (** how strings are read (see [reader] in CountSpec.v) *)
  Variable I : bytes -> list item.

  (** the file or directory, its name as it is counted and as it is shown *)
  Variable top : node.
  Variable name shown : bytes.
  Variables breakdown verbose : bool.

  Definition row_name (row : bytes * (bytes -> out bool)) : bytes := fst row.
  Definition is_row (x : bytes) (row : bytes * (bytes -> out bool)) : bool := beq (row_name row) x.
  Definition tags_row (row : bytes * (bytes -> out bool)) : bool :=
    about_kanji (row_name row) || is_row (b_ "Unrecognized") row || (is_row (b_ "Hiragana") row && verbose).
  (** the strings counted for a row, and the characters that it takes *)
  Definition row_texts (row : bytes * (bytes -> out bool)) : list (bytes * option bytes) :=
    node_texts (file_strings (regex (without_furigana (row_name row)))) top name (tags_row row) true true.
  Definition row_chars (row : bytes * (bytes -> out bool)) : list bytes :=
    flat_map (counted (regex (without_furigana (row_name row))) (takes row) I) (row_texts row).

  (** [l] lists the different characters of a row with their numbers and, for Kanji, what is known
      about them; in order if characters of equal rank have the same type (see C36) *)
  Definition listing (row : bytes * (bytes -> out bool)) (l : list SCount) : Prop :=
    Permutation (map (fun c => (kName c, kCount c)) l) (tally (row_chars row))
    /\ Forall (fun c => kEntry c = if about_kanji (row_name row) then findByName (kName c) else None) l
    /\ (one_type_per_rank maxFrequency l -> StronglySorted (before maxFrequency) l).

  Definition events_of (row : bytes * (bytes -> out bool)) (f : item -> bool) : N :=
    total (map (fun t => count f (I (counted_text (regex (without_furigana (row_name row))) (fst t)))) (row_texts row)).
  Definition changed_in (row : bytes * (bytes -> out bool)) : N :=
    count (fun t => negb (beq (counted_text (regex (without_furigana (row_name row))) (fst t)) (fst t))) (row_texts row).
  (** the header: what was read, and what happened while reading it *)
  Definition header (row : bytes * (bytes -> out bool)) : bytes :=
    let files := node_files top true in
    let dirs := node_dirs top true in
    let nums := [changed_in row; events_of row is_combined; events_of row is_variant] in
    b_ ">>> Stats for: '" ++ shown ++ b_ "'"
    ++ (if files <=? 1 then []
        else b_ " (" ++ to_string files ++ b_ " files" ++ (if dirs <=? 1 then [] else b_ " from " ++ to_string dirs ++ b_ " directories") ++ b_ ")")
    ++ b_ " - showing top 5 Kanji per type"
    ++ (if forallb (N.eqb 0) nums then []
        else [10] ++ b_ ">>> Furigana Removed: " ++ to_string (changed_in row)
             ++ b_ ", Combining Marks Replaced: " ++ to_string (events_of row is_combined)
             ++ b_ ", Variation Selectors: " ++ to_string (events_of row is_variant))
    ++ (if events_of row is_error =? 0 then [] else b_ ", Errors: " ++ to_string (events_of row is_error))
    ++ [10].

  Definition row_line (title : bytes) (total unique : N) : bytes :=
    b_ ">>> " ++ to_right 16 title ++ b_ ": " ++ to_right 6 (to_string total) ++ b_ ", unique: " ++ to_right 4 (to_string unique).
  Definition examples (l : list SCount) : bytes :=
    separated (b_ ", ") (map (fun c => kName c ++ b_ " " ++ to_string (kCount c)) (firstn 5 l)).
  Definition of_type (t : N) (l : list SCount) : list SCount := filter (fun c => type c =? t) l.
  (** the types in their order; None is for Kanji that are not loaded *)
  Definition type_titles : list (N * bytes) :=
    [(0, b_ "Jouyou"); (1, b_ "Jinmei"); (2, b_ "LinkedJinmei"); (3, b_ "LinkedOld"); (4, b_ "Frequency"); (5, b_ "Extra");
     (6, b_ "Kentei"); (7, b_ "Ucd"); (8, b_ "None")].
  Definition type_text (all : N) (l : list SCount) (t : N * bytes) : bytes :=
    match of_type (fst t) l with
    | [] => []
    | ks => row_line (b_ "[" ++ snd t ++ b_ "] ") (total (map kCount ks)) (len ks)
            ++ b_ ", " ++ to_right 6 (percent 2 (total (map kCount ks)) all) ++ b_ "%  (" ++ examples ks ++ b_ ")" ++ [10]
    end.

  (** the file with the most of a character: the first by name of those *)
  Definition number_in (row : bytes * (bytes -> out bool)) (k file : bytes) : N :=
    occurs k (flat_map (counted (regex (without_furigana (row_name row))) (takes row) I) (filter (has_tag file) (row_texts row))).
  Definition most_in (row : bytes * (bytes -> out bool)) (k file : bytes) : Prop :=
    0 < number_in row k file
    /\ forall g, number_in row k g <= number_in row k file
                 /\ (blt g file = true -> number_in row k g < number_in row k file).
  Definition level_title (v : N) : bytes :=
    nth (N.to_nat v) [b_ "N5"; b_ "N4"; b_ "N3"; b_ "N2"; b_ "N1"] (b_ "--").
  (** [s] is the line of a character, the one with this number *)
  Definition breakdown_line (row : bytes * (bytes -> out bool)) (i : N) (c : SCount) (s : bytes) : Prop :=
    exists info,
      s = b_ "  " ++ (if breakdown then to_left 5 (to_string i) ++ b_ " " else [])
          ++ b_ "[" ++ kName c ++ b_ " " ++ to_right 4 (to_string (kCount c)) ++ b_ "]" ++ info ++ [10]
      /\ match kEntry c with
         | Some e => info = to_right 5 (to_string (eFrequency e)) ++ b_ ", " ++ level_title (eLevel e) ++ b_ ", "
                            ++ nth (N.to_nat (eType e)) (map snd type_titles) []
         | None => exists cs hex file,
             kName c = text cs /\ Forall2 (fun x h => denotes 16 h x /\ Forall is_upper_hex h /\ min_size h 4) cs hex
             /\ most_in row (kName c) file
             /\ info = b_ ", " ++ to_right 7 (b_ "U+" ++ separated (b_ " ") hex) ++ b_ ", " ++ file
         end.
  Inductive breakdown_lines (row : bytes * (bytes -> out bool)) : N -> list SCount -> bytes -> Prop :=
  | no_lines : forall i, breakdown_lines row i [] []
  | more_lines : forall i c l s r, breakdown_line row i c s -> breakdown_lines row (i + 1) l r ->
      breakdown_lines row i (c :: l) (s ++ r).
  (** [s] is the breakdown of a row *)
  Definition breakdown_text (row : bytes * (bytes -> out bool)) (l : list SCount) (s : bytes) : Prop :=
    exists lines, breakdown_lines row 1 l lines
      /\ s = b_ ">>> Showing Breakdown for '" ++ row_name row ++ b_ "':" ++ [10] ++ b_ "  Rank  [Val Num]"
             ++ (if is_row (b_ "Common Kanji") row || is_row (b_ "Rare Kanji") row then b_ " Freq, LV, Type"
                 else b_ ", Unicode, Highest Count File") ++ [10] ++ lines.

  (** [s] is the text of a row after the header *)
  Definition row_text (row : bytes * (bytes -> out bool)) (s : bytes) : Prop :=
    let n := len (row_chars row) in
    if n =? 0 then s = []
    else exists l b, listing row l
      /\ (if is_row (b_ "Unrecognized") row || (about_kanji (row_name row) && breakdown) then breakdown_text row l b else b = [])
      /\ s = row_line (row_name row) n (len (nodup bytes_eq_dec (row_chars row)))
             ++ (if is_row (b_ "Common Kanji") row then b_ ", 100.00%" ++ [10] ++ flat_map (type_text n l) type_titles
                 else if about_kanji (row_name row) then to_right 12 (b_ "(") ++ examples l ++ b_ ")" ++ [10]
                 else [10])
             ++ b.

  (** the last line: the total of Kana and Kanji and their shares *)
  Definition chars_of (x : bytes) : N :=
    total (map (fun row => if is_row x row then len (row_chars row) else 0) (rows findUcd)).
  Definition kana_kanji : N :=
    chars_of (b_ "Hiragana") + chars_of (b_ "Katakana") + chars_of (b_ "Common Kanji") + chars_of (b_ "Rare Kanji") + chars_of (b_ "Non-UCD Kanji").
  Definition share (x : bytes) : bytes :=
    if chars_of x =? 0 then [] else x ++ b_ ": " ++ percent 1 (chars_of x) kana_kanji ++ b_ "%, ".
  Definition last_line : bytes :=
    b_ ">>> Total Kana+Kanji: " ++ to_string kana_kanji
    ++ (if kana_kanji =? 0 then []
        else b_ " (" ++ share (b_ "Hiragana") ++ share (b_ "Katakana") ++ b_ "Kanji: "
             ++ percent 1 (chars_of (b_ "Common Kanji") + chars_of (b_ "Rare Kanji") + chars_of (b_ "Non-UCD Kanji")) kana_kanji ++ b_ "%)")
    ++ [10].

  (** [s] is the whole report *)
  Definition report (s : bytes) : Prop :=
    exists hiragana others texts, rows findUcd = hiragana :: others
      /\ Forall2 row_text (hiragana :: others) texts
      /\ s = (if verbose then b_ ">>> Showing all Furigana replacements:" ++ [10]
                              ++ replacements_text (regex (without_furigana (row_name hiragana))) [] 0 (row_texts hiragana)
              else [])
             ++ header hiragana ++ concat texts ++ last_line.
End Report.

(** [n] is the last name in the path [p]; slashes at the end do not count *)
Definition shown_name (p n : bytes) : Prop :=
  no_slash n /\ exists a z, p = a ++ n ++ z /\ Forall (eq 47) z /\ (a = [] \/ exists a', a = a' ++ [47]) /\ (n = [] -> Forall (eq 47) p).
(** [n] is what follows the last slash of [p] *)
Definition counted_name (p n : bytes) : Prop := no_slash n /\ (p = n \/ exists a, p = a ++ [47] ++ n).

Section Program.
  Variable maxFrequency : N.
  Variable findUcd : bytes -> bool.
  Variable findByName : bytes -> option Entry.
  Variable I : bytes -> list item.
  Variable fs : bytes -> option node.
  (** a path that leads to a file or directory, perhaps through links *)
  Definition leads_to (p : bytes) (t : node) : Prop := exists n, fs p = Some n /\ resolve n = Some t.
  Definition missing (p : bytes) : Prop := forall t, ~ leads_to p t.
  (** [s] is the report about the path [p] *)
  Definition report_about (breakdown verbose : bool) (p s : bytes) : Prop :=
    exists t name shown, leads_to p t /\ counted_name p name /\ shown_name p shown
      /\ report maxFrequency findUcd findByName I t name shown breakdown verbose s.
  (** what the arguments [l] (without the options about the data) make the program print, and how it
      ends; [debug] if one of the options about the data was given *)
  Inductive session (debug : bool) (l : list bytes) : bytes -> out unit -> Prop :=
  | session_help : other_switch l = Some (b_ "-h") -> session debug l HelpText (Val tt)
  | session_illegal : forall a, other_switch l = Some a -> a <> b_ "-h" -> session debug l [] (Throw DomainError)
  | session_nothing : other_switch l = None -> file_names l = [] ->
      session debug l [] (if debug then Val tt else Throw DomainError)
  | session_reports : forall texts, other_switch l = None -> file_names l <> [] ->
      Forall2 (report_about (has (b_ "-b") (switches l)) (has (b_ "-v") (switches l))) (file_names l) texts ->
      session debug l (concat texts) (Val tt)
  | session_missing : forall done p rest texts, other_switch l = None -> file_names l = done ++ p :: rest -> missing p ->
      Forall2 (report_about (has (b_ "-b") (switches l)) (has (b_ "-v") (switches l))) done texts ->
      session debug l (concat texts) (Throw DomainError).
End Program.
