(** Specification of how the Kanji are loaded from a data directory: in which order, and with which message loading ends if
    something is wrong. *)
From Coq Require Import Permutation Sorted.
From Verif Require Export DataSpec ErrListSpec ErrOfficialSpec ErrJukugoSpec ErrLoadModel.
From Verif Require Import DetailsModel.
From Verif Require Export ErrBase.
Open Scope N_scope.

(** ** Results *)
(** a value, or the type and the text of an exception *)
Definition Result (A : Type) : Type := (A + exn * bytes)%type.
(** the result of [m], and of what follows it if it has a value *)
Definition andthen {A B} (m : Result A -> Prop) (f : A -> Result B -> Prop) (r : Result B) : Prop :=
  (exists a, m (inl a) /\ f a r) \/ exists x, m (inr x) /\ r = inr x.
Fixpoint each {A S} (step : A -> S -> Result S -> Prop) (l : list A) (s : S) (r : Result S) : Prop :=
  match l with [] => r = inl s | a :: l => andthen (step a s) (each step l) r end.

(** ** Stored Kanji *)
(** the Kanji stored so far, in this order; no two have the same name *)
Definition Stored : Type := list Kanji.
(** [k] has a variation selector, and [n] is its name for fonts without selectors *)
Definition stands_for (n : bytes) (k : Kanji) : Prop := selected_name k = true /\ compatibilityName k = n.
(** [n] leads to [k]: the first that stands for it, or the one with this name *)
Definition reached (ks : Stored) (n : bytes) (k : Kanji) : Prop :=
  (exists a b, ks = a ++ k :: b /\ stands_for n k /\ Forall (fun x => ~ stands_for n x) a)
  \/ (Forall (fun x => ~ stands_for n x) ks /\ In k ks /\ kName k = n).
Definition unreached (ks : Stored) (n : bytes) : Prop := Forall (fun x => ~ stands_for n x /\ kName x <> n) ks.
(** the first Kanji with a name is stored *)
Definition stores (k : Kanji) (ks : Stored) (r : Result Stored) : Prop :=
  (In (kName k) (map kName ks) /\ r = inl ks) \/ (~ In (kName k) (map kName ks) /\ r = inl (ks ++ [k])).
(** the stored Kanji in the order of their names, which are compared byte by byte *)
Definition name_order (ks : Stored) (l : list Kanji) : Prop :=
  Permutation ks l /\ StronglySorted (fun a b => MapModel.blt (kName a) (kName b) = true) l.
Fixpoint places {A} (i : N) (l : list A) : list (N * A) := match l with [] => [] | a :: r => (i, a) :: places (i + 1) r end.

(** ** Kanji that are made *)
(** a Kanji, if all checks pass, or else the text of the first that fails *)
Definition makes (cs : list check) (value : out Kanji) (r : Result Kanji) : Prop :=
  match r with inl k => all_pass cs /\ value = Val k | inr (x, w) => x = DomainError /\ first_fault cs w end.
Section Make.
Variable e : Env.
(** the radical of the Unicode entry [u] *)
Definition entry_radical_checks (u : Ucd -> Prop) : list check :=
  [ (radList (envRadicals e) <> [], texts (b_ "must call 'load' before calling 'find'"));
    (forall x, u x -> 1 <= ucdRadical x <= len (radList (envRadicals e)),
     fun w => exists x t, u x /\ written t (ucdRadical x) /\ w = quoted t ++ b_ " is not a valid radical number") ].
Definition entry_of (n : bytes) (u : Ucd) : Prop := ucdFind (envUcd e) n = Val (Some u).
Definition ucd_checks (n : bytes) : list check :=
  (exists u, entry_of n u, texts (b_ "UCD entry not found: " ++ n)) :: entry_radical_checks (entry_of n).
Definition link_checks (isOld : bool) (n : bytes) (link : Kanji) : list check :=
  [ (kType link = Jouyou \/ (isOld = false /\ kType link = Jinmei),
     texts (b_ "OfficialLinkedKanji " ++ n ++ b_ " wanted type " ++ (if isOld then quoted (b_ "Jouyou") else quoted (b_ "Jouyou") ++ b_ " or " ++ quoted (b_ "Jinmei"))
            ++ b_ " for link " ++ kName link ++ b_ ", but got " ++ quoted (typeToString (kType link)))) ].
(** what the Kanji are is said elsewhere *)
Definition linked (isOld : bool) (n : bytes) (link : Kanji) : Result Kanji -> Prop :=
  makes (link_checks isOld n link ++ ucd_checks n) (makeLinked e isOld n link).
Definition frequent (i : N) (n : bytes) : Result Kanji -> Prop := makes (ucd_checks n) (makeFrequency e i n).
Definition examined (k : KenteiKyus) (n : bytes) : Result Kanji -> Prop := makes (ucd_checks n) (makeKentei e k n).
Definition from_entry (u : Ucd) : Result Kanji -> Prop := makes (entry_radical_checks (fun x => x = u)) (makeUcdKanji e u).

(** ** Steps *)
(** a line of the file for linked Jinmei Kanji: the name of a stored Kanji, and the name of the new one *)
Definition line_step (file line : bytes) (ks : Stored) (r : Result Stored) : Prop :=
  exists ps, cut 9 line ps /\
    match ps with
    | j :: n :: _ =>
        (exists link, In link ks /\ kName link = j /\ andthen (linked false n link) (fun k => stores k ks) r)
        \/ (~ In j (map kName ks) /\ r = inr (DomainError, quoted j ++ b_ " not found - file: " ++ file))
    | _ => r = inr (DomainError, b_ "bad line " ++ quoted line ++ b_ " - file: " ++ file)
    end.
(** an old name of [link] *)
Definition old_step (link : Kanji) (j : bytes) (ks : Stored) (r : Result Stored) : Prop :=
  ((exists k, reached ks j k) /\ r = inl ks) \/ (unreached ks j /\ andthen (linked true j link) (fun k => stores k ks) r).
Definition old_links (link : Kanji) : Stored -> Result Stored -> Prop := each (old_step link) (kOldNames link).
(** a Jinmei Kanji with its old names *)
Definition jinmei_links (k : Kanji) (ks : Stored) : Result Stored -> Prop :=
  andthen (stores k ks) (each (fun j ks => andthen (linked false j k) (fun x => stores x ks)) (kOldNames k)).
(** all Kanji in the list of a level or kyu have one *)
Definition enum_fault (value : bytes) : exn * bytes := (RangeError, b_ "index " ++ quoted (b_ "enum value " ++ value) ++ b_ " is out of range").
Definition listed (kind : ListKind) (k : Kanji) (ks : Stored) (r : Result Stored) : Prop :=
  match kind with
  | DataModel.LevelList => (kLevel k <> NoLevel /\ r = inl ks) \/ (kLevel k = NoLevel /\ r = inr (enum_fault (b_ "5")))
  | DataModel.KyuList _ => (kKyu k <> NoKyu /\ r = inl ks) \/ (kKyu k = NoKyu /\ r = inr (enum_fault (b_ "12")))
  | FrequencyList => r = inl ks
  end.
(** the [i]-th word of a list *)
Definition word_step (kind : ListKind) (make : N -> bytes -> Result Kanji -> Prop) (p : N * bytes) (ks : Stored) (r : Result Stored) : Prop :=
  (exists k, reached ks (snd p) k /\ listed kind k ks r)
  \/ (unreached ks (snd p) /\ andthen (make (fst p) (snd p)) (fun k => andthen (stores k ks) (listed kind k)) r).
Definition word_list (kind : ListKind) (make : N -> bytes -> Result Kanji -> Prop) (l : list bytes) : Stored -> Result Stored -> Prop :=
  each (word_step kind make) (places 1 l).
(** an entry of the Unicode data *)
Definition entry_step (u : Ucd) (ks : Stored) (r : Result Stored) : Prop :=
  ((exists k, reached ks (ucdName u) k) /\ r = inl ks) \/ (unreached ks (ucdName u) /\ andthen (from_entry u) (fun k => stores k ks) r).

(** ** Everything *)
Variable fs : bytes -> option CountModel.node.
Variable writable : bytes -> bool.
(** the Kanji of a table, or its message *)
Definition rows_of (make : KanjiRow -> out Kanji) (rows : list KanjiRow -> Prop) (says : exn -> bytes -> Prop) (r : Result (list Kanji)) : Prop :=
  match r with inl ks => exists rs, rows rs /\ Forall2 (fun k r => make r = Val k) ks rs | inr (x, w) => says x w end.
Definition jouyou_rows (dir : bytes) : Result (list Kanji) -> Prop :=
  let cs := jouyou_checks (map radName (radList (envRadicals e))) in
  rows_of (makeJouyou e) (kanji_table jouyou_fields cs fs writable dir (b_ "jouyou") jouyou_names)
    (kanji_says count_kind jouyou_fields cs fs writable dir (b_ "jouyou") jouyou_names).
Definition jinmei_rows (dir : bytes) : Result (list Kanji) -> Prop :=
  let cs := jinmei_checks (map radName (radList (envRadicals e))) (fun n => exists u, entry_of n u) in
  rows_of (makeJinmei e) (kanji_table jinmei_fields cs fs writable dir (b_ "jinmei") jinmei_names)
    (kanji_says plain_kind jinmei_fields cs fs writable dir (b_ "jinmei") jinmei_names).
Definition extra_rows (dir : bytes) : Result (list Kanji) -> Prop :=
  let cs := extra_checks (map radName (radList (envRadicals e))) in
  rows_of (makeExtra e) (kanji_table extra_fields cs fs writable dir (b_ "extra") extra_names)
    (kanji_says count_kind extra_fields cs fs writable dir (b_ "extra") extra_names).
(** the name and the contents of a file of the directory *)
Definition file_of (dir name : bytes) (r : Result (bytes * bytes)) : Prop :=
  match r with
  | inl (f, c) => found_as fs dir name f c
  | inr (x, w) => x = DomainError /\ file_says fs dir name w
  end.
Definition loads (dir : bytes) (ks : Stored) : Result Stored -> Prop :=
  andthen (jouyou_rows dir) (fun jouyou =>
  andthen (each stores jouyou ks) (fun ks =>
  andthen (file_of dir (b_ "linked-jinmei")) (fun f r => exists ls, cut 10 (snd f) ls /\
  andthen (each (line_step (fst f)) ls ks) (fun ks r => exists l, name_order ks l /\
  andthen (each old_links l ks) (fun ks =>
  andthen (jinmei_rows dir) (fun jinmei =>
  andthen (each jinmei_links jinmei ks) (fun ks =>
  andthen (extra_rows dir) (fun extra =>
  andthen (each stores extra ks) (fun ks =>
  andthen (each (fun p => word_list DataModel.LevelList frequent (listOf (snd p))) (envLevels e) ks) (fun ks =>
  andthen (word_list FrequencyList frequent (listOf (envFrequency e)) ks) (fun ks =>
  andthen (each (fun p => word_list (DataModel.KyuList (fst p)) (fun _ => examined (fst p)) (listOf (snd p))) (envKyus e) ks)
    (each (fun p => entry_step (snd p)) (ucdMap (envUcd e)))))))))) r) r))).
End Make.
