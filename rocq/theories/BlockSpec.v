(** Unicode categories used by the properties, written down independently of the
    code's tables, and what a text is. *)
From Verif Require Export Base Utf8Spec.
Open Scope N_scope.

Definition within (lo hi c : N) : Prop := lo <= c <= hi.

(** the Unicode blocks each category stands for *)
Definition hiragana c := within 0x3040 0x309F c.
Definition katakana c := within 0x30A0 0x30FF c \/ within 0x31F0 0x31FF c.
Definition common_kanji c :=
  within 0x3400 0x4DBF c \/ within 0x4E00 0x9FFF c \/ within 0xF900 0xFAFF c \/ within 0x20000 0x2A6DF c.
Definition rare_kanji c :=
  within 0x2E80 0x2EFF c \/ within 0x2A700 0x2EBEF c \/ within 0x2F800 0x2FA1F c \/ within 0x30000 0x3134F c.
Definition punctuation c :=
  within 0x2000 0x206F c \/ within 0x3000 0x303F c \/ within 0xFFF0 0xFFFF c.
Definition symbol c :=
  within 0x2100 0x214F c \/ within 0x2190 0x22FF c \/ within 0x2500 0x257F c \/ within 0x25A0 0x26FF c
  \/ within 0x2FF0 0x2FFF c \/ within 0x3190 0x319F c \/ within 0x31C0 0x31EF c.
Definition letter c :=
  within 0x80 0x24F c \/ within 0x2150 0x218F c \/ within 0x2460 0x24FF c \/ within 0x2C60 0x2C7F c
  \/ within 0xFF00 0xFFEF c.
Definition kana c := hiragana c \/ katakana c.
Definition kanji c := common_kanji c \/ rare_kanji c.
Definition recognized c :=
  hiragana c \/ katakana c \/ common_kanji c \/ rare_kanji c \/ punctuation c \/ symbol c \/ letter c.
(** variation selectors and the combining voiced marks *)
Definition variation_selector c := within 0xFE00 0xFE0F c.
Definition non_spacing c := variation_selector c \/ c = 0x3099 \/ c = 0x309A.

(** A text: a sequence of non-zero Unicode scalar values, as bytes in UTF-8. *)
Definition chars (cs : list N) : Prop := Forall (fun c => scalar c /\ c <> 0) cs.
Definition text (cs : list N) : bytes := flat_map enc cs.

(** one character of category [P], possibly with a non-spacing character after it *)
Definition one_of (P : N -> Prop) (cs : list N) : Prop :=
  exists c, P c /\ (cs = [c] \/ exists d, non_spacing d /\ cs = [c; d]).
(** a sequence of such characters; a non-spacing character always goes with the
    character before it *)
Inductive all_of (P : N -> Prop) : list N -> Prop :=
| all_nil : all_of P []
| all_pair : forall c d r, P c -> non_spacing d -> all_of P r -> all_of P (c :: d :: r)
| all_single : forall c r, P c -> ~ (exists d q, r = d :: q /\ non_spacing d) ->
    all_of P r -> all_of P (c :: r).
(** text that starts with a character of category [P] *)
Definition starts_of (P : N -> Prop) (cs : list N) : Prop := exists c r, cs = c :: r /\ P c.

(** what a bracket expression made from "a-b" triples matches *)
Fixpoint bracket_matches (r : list N) (c : N) : Prop :=
  match r with
  | a :: 0x2D :: b :: r' => within a b c \/ bracket_matches r' c
  | _ => False
  end.

(** [f] always returns, and returns true exactly on the texts satisfying [P] *)
Definition decides (f : bytes -> out bool) (P : list N -> Prop) : Prop :=
  forall cs, chars cs -> exists b, f (text cs) = Val b /\ (b = true <-> P cs).
