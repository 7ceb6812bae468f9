(** Specification of list files. *)
From Verif Require Export ColumnFileSpec Utf8Spec ListModel.
Open Scope N_scope.

(** what reading [s] piece by piece gives: the fields between delimiters, where a delimiter
    at the very end does not start another field *)
Definition cut (delim : N) (s : bytes) (ps : list bytes) : Prop :=
  exists fs, has_fields delim s fs /\ ps = strip_trailing_empty fs.

(** the lines of a file, each with its space separated words *)
Definition file_words (content : bytes) (ls : list (bytes * list bytes)) : Prop :=
  cut 10 content (map fst ls) /\ Forall (fun lw => cut 32 (fst lw) (snd lw)) ls.

(** one multi-byte character (and no zero byte, which would end the string for the
    validator) *)
Definition mb_char (t : bytes) : Prop := utf8_char (upto_nul t) /\ multi_byte (upto_nul t).

(** The words a list file may consist of when the names in [taken] are used up. *)
Definition good_file (one_per_line : bool) (taken : list bytes) (ls : list (bytes * list bytes)) : Prop :=
  let ws := flat_map snd ls in
  (one_per_line = true -> Forall (fun lw => Forall (eq (fst lw)) (snd lw)) ls)
  /\ Forall mb_char ws /\ NoDup ws /\ (forall w, In w ws -> ~ In w taken)
  /\ len ws <= 65534.

(** every word of a file with its line number and line *)
Definition item := (N * bytes * bytes)%type.
Definition word_of (x : item) : bytes := snd x.
Fixpoint numbered (num : N) (ls : list (bytes * list bytes)) : list item :=
  match ls with
  | [] => []
  | (line, ws) :: r => map (fun t => (num, line, t)) ws ++ numbered (num + 1) r
  end.

(** a word that is acceptable on its own *)
Definition tok_ok (ft : FileType) (x : item) : Prop :=
  mb_char (word_of x) /\ (ft = OnePerLine -> word_of x = snd (fst x)).

(** Why the word [x] after the words [before] is reported when the names in [taken] are used
    up; [typed]: clashes with other lists are collected instead. *)
Definition refused (ft : FileType) (typed : bool) (taken : list bytes) (before : list item) (x : item)
    (e : list_error) : Prop :=
  let '((num, line), t) := x in
  match e with
  | MultipleTokens n => n = num /\ ft = OnePerLine /\ t <> line
  | InvalidToken n t' => n = num /\ t' = t /\ ~ mb_char t
  | DuplicateToken n t' => n = num /\ t' = t /\ In t (map word_of before) /\ ~ In t taken
  | NonUnique n t' => n = num /\ t' = t /\ typed = false /\ In t taken
  | TooManyEntries => ~ In t taken
      /\ len (filter (fun w => negb (existsb (beq w) taken)) (map word_of before)) = 65534
  | Duplicates _ => False
  end.

(** ** Programs *)
Definition oneb (ft : FileType) : bool := match ft with OnePerLine => true | MultiplePerLine => false end.
(** typed lists always allow several words per line *)
Definition kind_type (k : list_kind) (ft : FileType) : FileType :=
  match k with PlainList => ft | _ => MultiplePerLine end.
Definition op_ok (o : list_op) : Prop := match o with Construct _ _ c => bytes_ok c | ClearUnique => True end.
Definition no_clear (o : list_op) : Prop := match o with ClearUnique => False | _ => True end.
(** two lists of the same kind that both loaded share no name *)
Definition apart (a b : list_kind * (ListFile + list_error)) : Prop :=
  forall la lb, fst a = fst b -> snd a = inl la -> snd b = inl lb ->
  forall w, In w (listOf la) -> ~ In w (listOf lb).
