(** What counting characters means, independent of the code's loops and maps. *)
From Verif Require Export Utf8CharSpec CountModel.
Open Scope N_scope.

(** number of times [k] is in a list *)
Definition occurs (k : bytes) (l : list bytes) : N := count (beq k) l.
(** sum of a list of numbers, of the counts in a map *)
Definition total (l : list N) : N := fold_right N.add 0 l.
Definition map_total (m : smap N) : N := total (map snd m).

(** [I] reads every byte string as the items of its one decomposition into characters *)
Definition reader (I : bytes -> list item) : Prop :=
  forall s, bytes_ok s -> exists es, parse (upto_nul s) es /\ I s = items es.

(** The text that is counted for [s]: with a regular expression, the string it is replaced by. *)
Definition counted_text (find : option (list N -> list N)) (s : bytes) : bytes :=
  match find with
  | None => s
  | Some f =>
      match fromUtf8 s 0 with
      | Val w => match toUtf8 (f w) with Val n => n | _ => [] end
      | _ => []
      end
  end.

(** The strings that are counted for the contents of a file: its lines, or with a regular
    expression the strings the lines are regrouped into (see C38). *)
Definition file_strings (find : option (list N -> list N)) (contents : bytes) : list bytes :=
  match find with
  | None => getlines 10 contents
  | Some _ => match searched contents with Val l => l | _ => [] end
  end.

Section Texts.
  (** the strings that stand for the contents of a file *)
  Variable strings : bytes -> list bytes.
  (** The strings a file system entry stands for, each with its tag: those of the contents of a
      regular file, for a directory those of its entries that are not symbolic links
      (subdirectories only when recursing), then the name of the entry itself. *)
  Fixpoint node_texts (n : node) (name : bytes) (addTag fileNames recurse : bool)
    : list (bytes * option bytes) :=
    let tag := if addTag then Some name else None in
    let own := if fileNames then [(name, tag)] else [] in
    match n with
    | File contents => map (fun s => (s, tag)) (strings contents) ++ own
    | Dir entries =>
        flat_map (fun e => match snd e with
                           | Dir _ => if recurse then node_texts (snd e) (fst e) addTag fileNames true else []
                           | File _ => node_texts (snd e) (fst e) addTag fileNames recurse
                           | _ => []
                           end) entries ++ own
    | _ => []
    end.
  Definition request_texts (r : request) : list (bytes * option bytes) :=
    match r with
    | RAdd s tag => [(s, tag)]
    | RFile n name addTag fileNames recurse =>
        match n with
        | Some n => match resolve n with
                    | Some t => node_texts t name addTag fileNames recurse
                    | None => []
                    end
        | None => []
        end
    end.
End Texts.
(** the path of the request exists *)
Definition exists_path (r : request) : bool :=
  match r with
  | RAdd _ _ => true
  | RFile None _ _ _ _ => false
  | RFile (Some n) _ _ _ _ => match resolve n with Some _ => true | None => false end
  end.
(** regular files and directories that are visited *)
Fixpoint node_files (n : node) (recurse : bool) : N :=
  match n with
  | File _ => 1
  | Dir entries =>
      total (map (fun e => match snd e with
                           | Dir _ => if recurse then node_files (snd e) true else 0
                           | File _ => 1
                           | _ => 0
                           end) entries)
  | _ => 0
  end.
Fixpoint node_dirs (n : node) (recurse : bool) : N :=
  match n with
  | Dir entries =>
      1 + total (map (fun e => match snd e with
                               | Dir _ => if recurse then node_dirs (snd e) true else 0
                               | _ => 0
                               end) entries)
  | _ => 0
  end.
Definition request_node (r : request) : option (node * bool) :=
  match r with
  | RFile (Some n) _ _ _ rec => option_map (fun t => (t, rec)) (resolve n)
  | _ => None
  end.
Definition visited (f : node -> bool -> N) (r : request) : N :=
  match request_node r with Some (n, rec) => f n rec | None => 0 end.

(** every string involved is made of bytes *)
Fixpoint node_ok (n : node) : Prop :=
  match n with
  | File c => bytes_ok c
  | Dir es => fold_right (fun e P => (bytes_ok (fst e) /\ node_ok (snd e)) /\ P) True es
  | Link (Some t) => node_ok t
  | _ => True
  end.
Definition request_ok (r : request) : Prop :=
  match r with
  | RAdd s _ => bytes_ok s
  | RFile n name _ _ _ => bytes_ok name /\ match n with Some n => node_ok n | None => True end
  end.

(** the characters counted for a string *)
Definition counted (find : option (list N -> list N)) (p : bytes -> bool) (I : bytes -> list item)
    (t : bytes * option bytes) : list bytes :=
  filter p (yields true (I (counted_text find (fst t)))).
Definition has_tag (tag : bytes) (t : bytes * option bytes) : bool :=
  match snd t with Some x => beq x tag | None => false end.
Definition tagged (t : bytes * option bytes) : bool :=
  match snd t with Some _ => true | None => false end.
