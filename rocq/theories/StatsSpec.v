(** What the statistics should show, independent of the code. *)
From Verif Require Export BlockSpec CountSpec StatsModel.
From Coq Require Export Sorted Permutation.
Open Scope N_scope.

(** ** Order *)

(** The frequency a character is ranked by: that of its entry, the lowest frequency for an
    entry without one, and one below that for a character without entry. *)
Definition rank (maxFrequency : N) (c : SCount) : N :=
  match kEntry c with
  | Some e => if eFrequency e =? 0 then maxFrequency else eFrequency e
  | None => maxFrequency + 1
  end.
(** the order a listing should have: higher counts first, then more frequent characters, then
    the order of the names *)
Definition before (maxFrequency : N) (a b : SCount) : Prop :=
  kCount b < kCount a
  \/ (kCount a = kCount b
      /\ (rank maxFrequency a < rank maxFrequency b
          \/ (rank maxFrequency a = rank maxFrequency b /\ blt (kName a) (kName b) = true))).
(** the values of a row are inserted in the order of a std::map: names strictly ascending *)
Definition ascending (l : list SCount) : Prop :=
  StronglySorted (fun a b => blt (kName a) (kName b) = true) l.
(** characters of equal rank have the same type *)
Definition one_type_per_rank (maxFrequency : N) (l : list SCount) : Prop :=
  forall a b, In a l -> In b l -> rank maxFrequency a = rank maxFrequency b -> type a = type b.

(** ** Rows *)

(** what each row should contain, for a text that starts with the character [c] *)
Definition row_content (ucd : bool) (c : N) : list Prop :=
  [hiragana c; katakana c;
   common_kanji c /\ ucd = true; rare_kanji c /\ ucd = true; kanji c /\ ucd = false;
   punctuation c /\ c <> 0x3000; symbol c; letter c; ~ recognized c].
(** a text that starts with a wide space *)
Definition is_wide_space (t : bytes) : bool := startsWith t (enc 0x3000).
(** the predicate of a row *)
Definition takes (row : bytes * (bytes -> out bool)) (t : bytes) : bool :=
  match snd row t with Val b => b | _ => false end.

(** ** Furigana *)

(** a Kanji, a variation selector (which follows a Kanji) or a wide letter *)
Definition base (c : N) : Prop := kanji c \/ variation_selector c \/ within 0xFF00 0xFFEF c.
(** Kana in wide brackets *)
Definition furigana (u : list N) : Prop :=
  exists ks, ks <> [] /\ Forall kana ks /\ u = 0xFF08 :: ks ++ [0xFF09].
(** The text without Furigana: from left to right, Kana in brackets directly after such a
    character is left out, everything else is kept. *)
Inductive stripped : list N -> list N -> Prop :=
| stripped_nil : stripped [] []
| stripped_furigana : forall c u r r', base c -> furigana u -> stripped r r' ->
    stripped (c :: u ++ r) (c :: r')
| stripped_keep : forall c r r', ~ (base c /\ exists u q, furigana u /\ r = u ++ q) -> stripped r r' ->
    stripped (c :: r) (c :: r').
(** neither Kana nor a wide bracket *)
Definition not_kana (c : N) : bool :=
  negb (((0x3040 <=? c) && (c <=? 0x30FF)) || ((0x31F0 <=? c) && (c <=? 0x31FF)) || (c =? 0xFF08) || (c =? 0xFF09)).
