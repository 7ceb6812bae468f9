(** Specification of which blocks can be made and of how they are written. *)
From Verif Require Export StringSpec ErrArgsSpec.
From Verif Require Import NamedBlockModel.
Open Scope N_scope.

(** a range of codes that are not ASCII *)
Definition codes_from_to (s e : N) : Prop := 0x80 <= s /\ s <= e /\ e <= 0x10ffff.
(** a range of whole rows of 16 codes *)
Definition whole_rows (s e : N) : Prop := (16 | s) /\ (16 | e + 1).
(** a code as four or more hexadecimal digits *)
Definition hex_code (t : bytes) (c : N) : Prop := denotes 16 t c /\ min_size t 4 /\ Forall is_upper_hex t.
(** the name or else the first and last code, then the version if there is one *)
Inductive block_text (b : NBlock) : bytes -> Prop :=
| bt_range : forall s e, nName b = [] -> nVersion b = None -> hex_code s (fst (nRange b)) -> hex_code e (snd (nRange b)) ->
    block_text b (b_ "start=" ++ s ++ b_ ", end=" ++ e)
| bt_range_version : forall s e v m y, nName b = [] -> nVersion b = Some v -> hex_code s (fst (nRange b)) -> hex_code e (snd (nRange b)) ->
    written m (vMonth v) -> written y (vYear v) ->
    block_text b (b_ "start=" ++ s ++ b_ ", end=" ++ e ++ b_ " (v" ++ vName v ++ b_ ": " ++ m ++ b_ ", " ++ y ++ b_ ")")
| bt_name : forall v m y, nName b <> [] -> nVersion b = Some v -> written m (vMonth v) -> written y (vYear v) ->
    block_text b (nName b ++ b_ " (v" ++ vName v ++ b_ ": " ++ m ++ b_ ", " ++ y ++ b_ ")").
(** all blocks of the tables *)
Definition official : list args :=
  HiraganaArgs ++ KatakanaArgs ++ CommonKanjiArgs ++ RareKanjiArgs ++ PunctuationArgs ++ SymbolArgs ++ LetterArgs ++ NonSpacingArgs.
