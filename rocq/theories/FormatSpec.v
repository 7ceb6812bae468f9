(** What formatting a text means. *)
From Verif Require Export Base Utf8Spec BlockSpec ListSpec.
From Verif Require Import Utf8Model. (* decoding, see C01 to C07 *)
Open Scope N_scope.

(** a line ends with a Kanji (or a variation selector); a line is Furigana: one or more Kana *)
Definition ends_with_kanji (line : bytes) : Prop :=
  exists cs c, fromUtf8 line 0 = Val (cs ++ [c]) /\ (kanji c \/ variation_selector c).
Definition furigana (line : bytes) : Prop :=
  exists cs, fromUtf8 line 0 = Val cs /\ cs <> [] /\ Forall kana cs.

(** how lines are put together: on their own or with the Furigana in the next line *)
Inductive piece := Alone (l : bytes) | Over (l f : bytes).
Definition piece_lines (p : piece) : list bytes := match p with Alone l => [l] | Over l f => [l; f] end.
Definition show (p : piece) : bytes :=
  match p with Alone l => l ++ [10] | Over l f => l ++ b_ "（" ++ f ++ b_ "）" end.

(** [pieces ls ps rest]: the lines [ls] make the pieces [ps]; [rest] are the lines left out *)
Inductive pieces : list bytes -> list piece -> list bytes -> Prop :=
| p_end : pieces [] [] []
| p_plain : forall l ls ps rest, ~ ends_with_kanji l -> pieces ls ps rest -> pieces (l :: ls) (Alone l :: ps) rest
| p_furigana : forall l f ls ps rest, ends_with_kanji l -> furigana f -> pieces ls ps rest ->
    pieces (l :: f :: ls) (Over l f :: ps) rest
| p_next : forall l n ls ps rest, ends_with_kanji l -> ~ furigana n -> pieces (n :: ls) ps rest ->
    pieces (l :: n :: ls) (Alone l :: ps) rest
| p_last : forall l, ends_with_kanji l -> pieces [l] [] [l].
