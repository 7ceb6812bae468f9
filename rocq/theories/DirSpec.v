(** Specification of data directories. *)
From Verif Require Export RowsSpec.
From Verif Require CountModel.
From Verif Require Export LoadModel.
Open Scope N_scope.

(** ** Files *)

(** what is behind a chain of links *)
Inductive seen : CountModel.node -> CountModel.node -> Prop :=
| seen_file : forall c, seen (CountModel.File c) (CountModel.File c)
| seen_dir : forall es, seen (CountModel.Dir es) (CountModel.Dir es)
| seen_other : seen CountModel.Other CountModel.Other
| seen_link : forall t n, seen t n -> seen (CountModel.Link (Some t)) n.

Section Fs.
Variable fs : bytes -> option CountModel.node.
Variable writable : bytes -> bool.
Definition is_at (p : bytes) (x : CountModel.node) : Prop := exists n, fs p = Some n /\ seen n x.
Definition is_file (p contents : bytes) : Prop := is_at p (CountModel.File contents).
Definition is_dir (p : bytes) : Prop := exists es, is_at p (CountModel.Dir es).

(** no name of a file contains a slash *)
Definition names_ok : Prop := forall p es, is_at p (CountModel.Dir es) -> Forall (fun e => ~ In 47 (fst e)) es.

(** [name] in the directory [dir] *)
Definition child (dir name p : bytes) : Prop :=
  (dir = [] /\ p = name) \/ (exists d, dir = d ++ b_ "/" /\ p = dir ++ name)
  \/ (dir <> [] /\ (forall d, dir <> d ++ b_ "/") /\ p = dir ++ b_ "/" ++ name).
(** the file that is opened for [p]: itself or, if that is not a regular file, with .txt added *)
Definition opened_for (p q contents : bytes) : Prop :=
  (q = p /\ is_file p contents) \/ ((forall c, ~ is_file p c) /\ q = p ++ b_ ".txt" /\ is_file q contents).
Definition text_at (p contents : bytes) : Prop := exists q, opened_for p q contents.

(** a table with one record for each row; the fields of a record are under the given names *)
Definition records {R} (cols : list (bytes * (R -> bytes))) (contents : bytes) (rs : list R) : Prop :=
  table (map fst cols) contents (map (fun r => map (fun c => snd c r) cols) rs).
(** the program wants to be able to write to its tables *)
Definition table_in {R} (dir name : bytes) (cols : list (bytes * (R -> bytes))) (rs : list R) : Prop :=
  exists p q contents, child dir name p /\ opened_for p q contents /\ writable q = true /\ records cols contents rs.

Definition ucd_columns : list (bytes * (UcdRow -> bytes)) :=
  [(b_ "Code", rCode); (b_ "Name", rName); (b_ "Block", rBlock); (b_ "Version", rVersion); (b_ "Radical", rRadical);
   (b_ "Strokes", rStrokes); (b_ "VStrokes", rVStrokes); (b_ "Pinyin", rPinyin); (b_ "MorohashiId", rMorohashi);
   (b_ "NelsonIds", rNelson); (b_ "Sources", rSources); (b_ "JSource", rJSource); (b_ "Joyo", rJoyo); (b_ "Jinmei", rJinmei);
   (b_ "LinkCodes", rLinkCodes); (b_ "LinkNames", rLinkNames); (b_ "LinkType", rLinkType); (b_ "Meaning", rMeaning);
   (b_ "On", rOn); (b_ "Kun", rKun); (b_ "Japanese", rJapanese)].
Definition radical_columns : list (bytes * (RadicalRow -> bytes)) :=
  [(b_ "Number", rrNumber); (b_ "Name", rrName); (b_ "LongName", rrLongName); (b_ "Reading", rrReading)].
Definition reading_columns : list (bytes * (bytes * bytes -> bytes)) := [(b_ "Name", fst); (b_ "Reading", snd)].
Definition jouyou_columns : list (bytes * (KanjiRow -> bytes)) :=
  [(b_ "Number", krNumber); (b_ "Name", krName); (b_ "Radical", krRadical); (b_ "Reading", krReading); (b_ "OldNames", krOldNames);
   (b_ "Year", krYear); (b_ "Strokes", krStrokes); (b_ "Grade", krGrade); (b_ "Meaning", krMeaning)].
Definition jinmei_columns : list (bytes * (KanjiRow -> bytes)) :=
  [(b_ "Number", krNumber); (b_ "Name", krName); (b_ "Radical", krRadical); (b_ "Reading", krReading); (b_ "OldNames", krOldNames);
   (b_ "Year", krYear); (b_ "Reason", krReason)].
Definition extra_columns : list (bytes * (KanjiRow -> bytes)) :=
  [(b_ "Number", krNumber); (b_ "Name", krName); (b_ "Radical", krRadical); (b_ "Reading", krReading); (b_ "Strokes", krStrokes);
   (b_ "Meaning", krMeaning)].

Definition level_names : list (JlptLevels * bytes) := [(N5, b_ "n5"); (N4, b_ "n4"); (N3, b_ "n3"); (N2, b_ "n2"); (N1, b_ "n1")].
Definition kyu_names : list (KenteiKyus * bytes) :=
  [(K10, b_ "k10"); (K9, b_ "k9"); (K8, b_ "k8"); (K7, b_ "k7"); (K6, b_ "k6"); (K5, b_ "k5"); (K4, b_ "k4"); (K3, b_ "k3");
   (KJ2, b_ "kJ2"); (K2, b_ "k2"); (KJ1, b_ "kJ1"); (K1, b_ "k1")].
(** one list for each name in a sub directory *)
Definition lists_in {A} (dir sub : bytes) (names : list (A * bytes)) (files : list (A * bytes)) : Prop :=
  exists d, child dir sub d
    /\ Forall2 (fun n f => fst n = fst f /\ exists p, child d (snd n) p /\ text_at p (snd f)) names files.

(** the files of a data directory *)
Definition dir_files (dir : bytes) (f : Files) : Prop :=
  is_dir dir
  /\ lists_in dir (b_ "jlpt") level_names (levelFiles f)
  /\ lists_in dir (b_ "kentei") kyu_names (kyuFiles f)
  /\ (exists p, child dir (b_ "frequency") p /\ text_at p (frequencyFile f))
  /\ table_in dir (b_ "ucd") ucd_columns (ucdRows f)
  /\ table_in dir (b_ "radicals") radical_columns (radicalRows f)
  /\ table_in dir (b_ "frequency-readings") reading_columns (readingRows f)
  /\ table_in dir (b_ "jouyou") jouyou_columns (jouyouRows f) /\ Forall (fun r => krReason r = []) (jouyouRows f)
  /\ (exists p, child dir (b_ "linked-jinmei") p /\ text_at p (linkedFile f))
  /\ table_in dir (b_ "jinmei") jinmei_columns (jinmeiRows f)
  /\ Forall (fun r => krStrokes r = [] /\ krGrade r = [] /\ krMeaning r = []) (jinmeiRows f)
  /\ table_in dir (b_ "extra") extra_columns (extraRows f)
  /\ Forall (fun r => krOldNames r = [] /\ krYear r = [] /\ krGrade r = [] /\ krReason r = []) (extraRows f).

(** ** Searching *)

(** the path with these names, from the root or not *)
Definition path (root : bool) (names : list bytes) : bytes := (if root then b_ "/" else []) ++ join 47 names.
Definition plain (names : list bytes) : Prop := Forall (fun n => n <> [] /\ ~ In 47 n) names.
Definition text_file (name : bytes) : Prop := exists stem, stem <> [] /\ name = stem ++ b_ ".txt".
(** a directory with ten text files *)
Definition data_dir (p : bytes) : Prop :=
  exists es txt others, is_at p (CountModel.Dir es) /\ Permutation es (txt ++ others) /\ List.length txt = 10%nat
    /\ Forall (fun e => text_file (fst e)) txt /\ Forall (fun e => ~ text_file (fst e)) others.
(** the first directory called data, in the directory with these names or one that contains it *)
Definition nearest (root : bool) (names : list bytes) (p : bytes) : Prop :=
  exists k, (k <= List.length names)%nat /\ p = path root (firstn k names ++ [b_ "data"]) /\ data_dir p
    /\ forall j, (k < j <= List.length names)%nat -> ~ data_dir (path root (firstn j names ++ [b_ "data"])).
End Fs.
