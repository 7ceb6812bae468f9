(** Specification of loading a whole data directory: the lists, the tables, the Kanji, the last report. *)
From Verif Require Export ErrLoadSpec ReportSpec ListSpec.
From Verif Require Import ErrListSpec.
From Verif Require Export ErrBase.
Open Scope N_scope.

(** what is read before the Kanji are made *)
Record Parts := MkParts {
  partLevels : list (list bytes); partKyus : list (list bytes); partFrequency : list bytes;
  partUcd : list Ucd; partRadicals : list Radical; partReadings : list (bytes * bytes) }.

(** a list that can be asked for the place of a word *)
Definition indexed_list (l : ListFile) (ws : list bytes) : Prop :=
  listOf l = ws /\ (forall i w, nth_error ws i = Some w -> getIndex l w = N.of_nat i + 1) /\ (forall w, ~ In w ws -> getIndex l w = 0)
  /\ forall w, list_exists l w = true <-> In w ws.
Definition env_is (ltr : bool) (e : Env) (p : Parts) : Prop :=
  map fst (envLevels e) = map fst level_names /\ Forall2 indexed_list (map snd (envLevels e)) (partLevels p)
  /\ map fst (envKyus e) = map fst kyu_names /\ Forall2 indexed_list (map snd (envKyus e)) (partKyus p)
  /\ indexed_list (envFrequency e) (partFrequency p)
  /\ holds (envUcd e) (partUcd p)
  /\ radList (envRadicals e) = partRadicals p
  /\ (NoDup (map fst (partReadings p)) /\ forall n r, mfind n (envReadings e) = Some r <-> In (n, r) (partReadings p))
  /\ envLtr e = ltr.

Section Fs.
Variable fs : bytes -> option CountModel.node.
Variable writable : bytes -> bool.
(** a list: its words, or what is said; [taken] are the words of earlier lists of its kind *)
Definition reads_list (ft : FileType) (typed : bool) (p given : bytes) (taken : list bytes) (r : Result (list bytes)) : Prop :=
  match r with
  | inl ws => exists q c ls, found fs p q c /\ file_words c ls
      /\ good_file (match ft with OnePerLine => true | MultiplePerLine => false end) taken ls /\ ws = flat_map snd ls
  | inr (x, w) => x = DomainError /\ list_says fs ft typed taken p given w
  end.
(** lists of one kind in the directory [d], each with the name of its file and its title *)
Fixpoint reads_lists (d : bytes) (l : list (bytes * bytes)) (taken : list bytes) (r : Result (list (list bytes))) : Prop :=
  match l with
  | [] => r = inl []
  | (file, title) :: l => exists p, child d file p
      /\ andthen (reads_list MultiplePerLine true p title taken) (fun ws => andthen (reads_lists d l (ws ++ taken)) (fun wss r => r = inl (ws :: wss))) r
  end.
Definition level_files : list (bytes * bytes) := [(b_ "n5", b_ "N5"); (b_ "n4", b_ "N4"); (b_ "n3", b_ "N3"); (b_ "n2", b_ "N2"); (b_ "n1", b_ "N1")].
Definition kyu_files : list (bytes * bytes) :=
  [(b_ "k10", b_ "K10"); (b_ "k9", b_ "K9"); (b_ "k8", b_ "K8"); (b_ "k7", b_ "K7"); (b_ "k6", b_ "K6"); (b_ "k5", b_ "K5"); (b_ "k4", b_ "K4"); (b_ "k3", b_ "K3");
   (b_ "kJ2", b_ "KJ2"); (b_ "k2", b_ "K2"); (b_ "kJ1", b_ "KJ1"); (b_ "k1", b_ "K1")].
Definition reads_table {A} (rows : A -> Prop) (says : exn -> bytes -> Prop) (r : Result A) : Prop :=
  match r with inl a => rows a | inr (x, w) => says x w end.
(** all of it, in order; the words that are taken at the start are those of earlier lists of the program *)
Definition reads (ltr : bool) (levelsTaken kyusTaken taken : list bytes) (dir : bytes) (r : Result Parts) : Prop :=
  exists jlpt kentei freq, child dir (b_ "jlpt") jlpt /\ child dir (b_ "kentei") kentei /\ child dir (b_ "frequency") freq /\
  andthen (reads_lists jlpt level_files levelsTaken) (fun levels =>
  andthen (reads_lists kentei kyu_files kyusTaken) (fun kyus =>
  andthen (reads_list OnePerLine false freq [] taken) (fun freq =>
  andthen (reads_table (ucd_table fs writable dir) (ucd_says fs writable ltr dir)) (fun ucd =>
  andthen (reads_table (radical_table fs writable dir) (radical_says fs writable dir)) (fun radicals =>
  andthen (reads_table (reading_table fs writable dir) (reading_says fs writable dir)) (fun readings r =>
    r = inl (MkParts levels kyus freq ucd radicals readings))))))) r.
End Fs.

(** the report at the end of -debug: it ends at the first Kanji with a variation selector, in the order of names, that has no Unicode entry *)
Definition entry_for (e : Env) (k : Kanji) : Prop := exists u, ucdFind (envUcd e) (kName k) = Val (Some u).
Definition reports (mode : ReportModel.DebugMode) (e : Env) (ks : Stored) (r : Result unit) : Prop :=
  match r with
  | inl _ => mode = DebugFull -> forall k, In k ks -> selected_name k = true -> entry_for e k
  | inr (x, w) => mode = DebugFull /\ x = DomainError /\ exists l before k after, name_order ks l
      /\ filter selected_name l = before ++ k :: after /\ Forall (entry_for e) before /\ ~ entry_for e k /\ w = b_ "UCD not found for " ++ quoted (kName k)
  end.
