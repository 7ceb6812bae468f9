(** Specification of the messages about files and lists. *)
From Verif Require Export DirSpec.
From Verif Require Export ListSpec ErrArgsSpec ErrListModel.
Open Scope N_scope.

(** ** Names of files *)
(** the directories of a path: nothing, or something that ends in a slash *)
Definition leading (d : bytes) : Prop := d = [] \/ exists d', d = d' ++ b_ "/".
Definition no_slash (s : bytes) : Prop := ~ In 47 s.
(** [file_name p base ext]: the file name of a path is [base ++ ext] *)
Inductive file_name : bytes -> bytes -> bytes -> Prop :=
| fn_ext : forall d base e, leading d -> no_slash (base ++ b_ "." ++ e) -> base <> [] -> ~ In 46 e -> base ++ b_ "." ++ e <> b_ ".." ->
    file_name (d ++ base ++ b_ "." ++ e) base (b_ "." ++ e)
| fn_none : forall d base, leading d -> no_slash base ->
    (forall a e, base = a ++ b_ "." ++ e -> a = [] \/ In 46 e \/ base = b_ "..") -> file_name (d ++ base) base [].
Definition has_ext (p : bytes) : Prop := exists base e, file_name p base e /\ e <> [].

Section Fs.
Variable fs : bytes -> option CountModel.node.
Definition there (p : bytes) : Prop := exists x, is_at fs p x.
Definition no_file (p : bytes) : Prop := forall c, ~ is_file fs p c.
(** [found p name q]: a regular file for the path [p], whose name may lack .txt *)
Definition found (p q contents : bytes) : Prop :=
  (q = p /\ is_file fs p contents) \/ (no_file p /\ ~ has_ext p /\ q = p ++ b_ ".txt" /\ is_file fs q contents).

(** ** getFile *)
Inductive file_says (dir name : bytes) : bytes -> Prop :=
| fs_no_dir : ~ is_dir fs dir -> file_says dir name (dir ++ b_ " is not a directory")
| fs_missing : forall p, is_dir fs dir -> child dir name p -> has_ext name -> ~ there p ->
    file_says dir name (dir ++ b_ " must contain " ++ quoted name)
| fs_missing_both : forall p, is_dir fs dir -> child dir name p -> ~ has_ext name -> no_file p -> ~ there (p ++ b_ ".txt") ->
    file_says dir name (dir ++ b_ " must contain " ++ quoted name ++ b_ " (also tried '.txt' extension)")
| fs_other : forall p q, is_dir fs dir -> child dir name p -> no_file p ->
    (has_ext name /\ q = p \/ ~ has_ext name /\ q = p ++ b_ ".txt") -> there q -> no_file q ->
    file_says dir name (name ++ b_ " must be a regular file").

(** ** Lists *)
Section List.
Variables (ft : FileType) (typed : bool) (taken : list bytes).
Definition new_words (l : list item) : list bytes := filter (fun w => negb (existsb (beq w) taken)) (map word_of l).
(** words that are accepted (a typed list keeps those of other lists apart) *)
Definition accepted (l : list item) : Prop :=
  Forall (tok_ok ft) l /\ NoDup (new_words l) /\ (typed = false -> forall w, In w (map word_of l) -> ~ In w taken) /\ len (new_words l) <= 65534.
(** what is said about a word after the words [before] *)
Inductive fault (before : list item) : item -> bytes -> Prop :=
| ft_several : forall num line t n, ft = OnePerLine -> t <> line -> written n num ->
    fault before (num, line, t) (b_ "got multiple tokens - line: " ++ n)
| ft_invalid : forall num line t n, (ft = OnePerLine -> t = line) -> ~ mb_char t -> written n num ->
    fault before (num, line, t) (b_ "invalid multi-byte token " ++ quoted t ++ b_ " - line: " ++ n)
| ft_again : forall num line t n, tok_ok ft (num, line, t) -> In t (map word_of before) -> ~ In t taken -> written n num ->
    fault before (num, line, t) (b_ "got duplicate token '" ++ t ++ b_ " - line: " ++ n)
| ft_taken : forall num line t n, tok_ok ft (num, line, t) -> In t taken -> typed = false -> written n num ->
    fault before (num, line, t) (b_ "found globally non-unique entry " ++ quoted t ++ b_ " - line: " ++ n)
| ft_full : forall num line t, tok_ok ft (num, line, t) -> ~ In t taken -> ~ In t (map word_of before) -> len (new_words before) = 65534 ->
    fault before (num, line, t) (b_ "exceeded '65534' entries").
End List.
(** the name of a list: as given, or the name of its file with a capital letter *)
Definition capital (c : N) : N := if (97 <=? c) && (c <=? 122) then c - 32 else c.
Definition list_name (p given n : bytes) : Prop :=
  (given <> [] /\ n = given) \/ (given = [] /\ exists base e, file_name p base e /\ ((base = [] /\ n = []) \/ exists c r, base = c :: r /\ n = capital c :: r)).
Inductive list_says (ft : FileType) (typed : bool) (taken : list bytes) (p given : bytes) : bytes -> Prop :=
| ls_missing : no_file p -> has_ext p -> list_says ft typed taken p given (b_ "can't open " ++ p)
| ls_missing_both : no_file p -> ~ has_ext p -> no_file (p ++ b_ ".txt") -> list_says ft typed taken p given (b_ "can't open " ++ p ++ b_ ".txt")
| ls_word : forall q c ls before x rest w, found p q c -> file_words c ls -> numbered 1 ls = before ++ x :: rest ->
    accepted ft typed taken before -> fault ft typed taken before x w -> list_says ft typed taken p given (w ++ b_ ", file: " ++ q)
| ls_duplicates : forall q c ls n d, found p q c -> file_words c ls -> typed = true -> accepted ft typed taken (numbered 1 ls) ->
    let ds := filter (fun w => existsb (beq w) taken) (flat_map snd ls) in
    ds <> [] -> list_name p given n -> written d (len ds) ->
    list_says ft typed taken p given (b_ "found " ++ d ++ b_ " duplicates in " ++ n ++ b_ ":" ++ flat_map (fun t => b_ " " ++ t) ds ++ b_ ", file: " ++ q).
End Fs.
