(** Specification of the messages about the Jukugo files. *)
From Verif Require Export ErrListSpec.
From Verif Require Export JukugoSpec ErrJukugoModel.
From Verif Require Export ErrBase.
Open Scope N_scope.

(** ** Entries *)
(** what is wrong with a word, after the words [js] *)
Definition earlier (js : list Jukugo) (name reading : bytes) (j : Jukugo) : Prop := In j js /\ jName j = name /\ jReading j = reading.
Inductive word_says (js : list Jukugo) (g : N) (name reading : bytes) : bytes -> Prop :=
| ws_files : forall j, earlier js name reading j -> jGrade j <> g -> word_says js g name reading (b_ "found in more than one file")
| ws_none : (forall j, ~ earlier js name reading j) -> word_kanji name [] -> word_says js g name reading (b_ "contains no Kanji")
| ws_one : forall k, (forall j, ~ earlier js name reading j) -> word_kanji name [k] -> word_says js g name reading (b_ "must contain two or more Kanji")
| ws_reading : forall ks, (forall j, ~ earlier js name reading j) -> word_kanji name ks -> 2 <= len ks -> ~ good_reading reading ->
    word_says js g name reading (b_ "reading must be all Hiragana").
(** a line of a grade file ([whole]) or an entry of the other file *)
Definition entry (whole : bool) (e name reading : bytes) : Prop := if whole then grade_line e name reading else other_entry e name reading.
Inductive entry_says (whole : bool) (js : list Jukugo) (g : N) : bytes -> bytes -> Prop :=
| es_no_open : forall e, ~ In 40 e -> entry_says whole js g e (b_ "failed to find open bracket")
| es_no_space : forall a r, whole = true -> ~ In 40 a -> (forall n, a = n ++ b_ " " -> n = []) ->
    entry_says whole js g (a ++ b_ "(" ++ r) (b_ "open bracket should follow a space")
| es_no_close : forall a r, ~ In 40 a -> (whole = true -> exists n, n <> [] /\ a = n ++ b_ " ") -> ~ In 41 (a ++ b_ "(" ++ r) ->
    entry_says whole js g (a ++ b_ "(" ++ r) (b_ "failed to find close bracket")
| es_not_last : forall e n r b t, whole = true -> n <> [] -> ~ In 40 n -> e = n ++ b_ " (" ++ r -> e = b ++ b_ ")" ++ t -> ~ In 41 b -> t <> [] ->
    entry_says whole js g e (b_ "close bracket should be the last character")
| es_word : forall e name reading why, entry whole e name reading -> word_says js g name reading why ->
    entry_says whole js g e (b_ "jukugo " ++ quoted name ++ b_ " " ++ why).
(** the words of entries and of lines *)
Definition entries (whole : bool) (g : N) (es : list bytes) (ws : list Jukugo) : Prop :=
  Forall2 (fun e j => entry whole e (jName j) (jReading j) /\ jGrade j = g) es ws.
Definition lines_words (g : N) (ls : list bytes) (ws : list Jukugo) : Prop :=
  if g =? GradeS then exists ess, Forall2 other_line ls ess /\ entries false g (concat ess) ws else entries true g ls ws.

(** ** Lines and files *)
Section Std.
Variable std : exn -> bytes.
Inductive line_says (js : list Jukugo) (g : N) (l : bytes) : bytes -> Prop :=
| ls_grade : forall w, g <> GradeS -> entry_says true js g l w -> line_says js g l w
| ls_dots : g = GradeS -> (forall a r, l <> a ++ b_ "..." ++ r) -> line_says js g l (b_ "line is missing '...'")
| ls_end : forall a, g = GradeS -> l = a ++ b_ "..." -> (forall a' r, l = a' ++ b_ "..." ++ r -> len a <= len a') -> line_says js g l (std StdOutOfRange)
| ls_other : forall es e rest ws w, g = GradeS -> other_line l (es ++ e :: rest) -> entries false g es ws -> loadable (js ++ ws) ->
    entry_says false (js ++ ws) g e w -> line_says js g l w.
(** the first line that is wrong, with its number and the name of the file *)
Definition jukugo_says (js : list Jukugo) (g : N) (name content w : bytes) : Prop :=
  exists ls l rest ws why n, cut 10 content (ls ++ l :: rest) /\ lines_words g ls ws /\ loadable (js ++ ws) /\ line_says (js ++ ws) g l why
    /\ written n (1 + len ls) /\ w = why ++ b_ " - line: " ++ n ++ b_ ", file: " ++ name.

Section Fs.
Variable fs : bytes -> option CountModel.node.
(** [found_as dir file name c]: the file for [file], which may lack .txt, is [name] with contents [c] *)
Definition found_as (dir file name c : bytes) : Prop :=
  is_dir fs dir /\ exists p, child dir file p
  /\ ((name = file /\ is_file fs p c) \/ (no_file fs p /\ ~ has_ext file /\ name = file ++ b_ ".txt" /\ is_file fs (p ++ b_ ".txt") c)).
(** the words of files *)
Inductive files_words (dir : bytes) : list (bytes * N) -> list Jukugo -> Prop :=
| fw_nil : files_words dir [] []
| fw_cons : forall file g name c r ws ws', found_as dir file name c -> file_words_of g c ws -> files_words dir r ws' ->
    files_words dir ((file, g) :: r) (ws ++ ws').
(** the first file that is wrong *)
Inductive files_say (dir : bytes) (files : list (bytes * N)) : bytes -> Prop :=
| fs_file : forall before file g rest ws w, files = before ++ (file, g) :: rest -> files_words dir before ws -> loadable ws ->
    file_says fs dir file w -> files_say dir files w
| fs_line : forall before file g rest ws name c w, files = before ++ (file, g) :: rest -> files_words dir before ws -> loadable ws ->
    found_as dir file name c -> jukugo_says ws g name c w -> files_say dir files w.
End Fs.
End Std.
