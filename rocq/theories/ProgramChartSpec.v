(** Specification of the chart that kanaConvert prints, from the notes above the chart. *)
From Verif Require Export ProgramModel JoinSpec TableSpec.
From Coq Require Import Sorting.Permutation Sorting.Sorted.
Open Scope N_scope.

(** a row of the chart; the variants are shown in one cell *)
Record row := MkRow {
  rType : bytes; rRoma : bytes; rHira : bytes; rKata : bytes; rHUni : bytes; rKUni : bytes;
  rHepb : bytes; rKunr : bytes; rVariants : list bytes
}.
Definition cells (r : row) : list bytes :=
  [rType r; rRoma r; rHira r; rKata r; rHUni r; rKUni r; rHepb r; rKunr r; separated (b_ ", ") (rVariants r)].

(** the Unicode value of one character of three bytes *)
Definition hex_digit (d : N) : N := if d <? 10 then 48 + d else 55 + d.
Definition hex4 (c : N) : bytes := [hex_digit (c / 4096); hex_digit (c / 256 mod 16); hex_digit (c / 16 mod 16); hex_digit (c mod 16)].
Definition one_character (s : bytes) (c : N) : Prop :=
  exists x y z, s = [x; y; z] /\ 224 <= x < 240 /\ 128 <= y < 192 /\ 128 <= z < 192
    /\ c = (x - 224) * 4096 + (y - 128) * 64 + (z - 128).
(** shown for single symbols only; an entry of two symbols has six bytes *)
Definition unicode_cell (s cell : bytes) : Prop :=
  (exists c, one_character s c /\ cell = hex4 c) \/ (length s = 6%nat /\ cell = []).
(** the value for another Romaji style: shown if it gives another output, in brackets if typing it
    gives another Kana *)
Definition style_cell (ltr : bool) (flag : N) (r : row) (cell : bytes) : Prop :=
  exists o, convert Romaji flag ltr (rHira r) = Val o
    /\ ((o = rRoma r /\ cell = [])
        \/ (o <> rRoma r /\ exists back, convert Hiragana 0 ltr o = Val back
              /\ ((back = rHira r /\ cell = o) \/ (back <> rHira r /\ cell = b_ "(" ++ o ++ b_ ")")))).
(** the first symbol of [s] is one of [l] *)
Definition begins (s l : bytes) : Prop := exists i, firstn 3 s = firstn 3 (skipn (3 * i) l) /\ (i < length l / 3)%nat.
Definition with_dakuten : bytes := b_ "がぎぐげござじずぜぞだぢづでどばびぶべぼゔ".
Definition with_handakuten : bytes := b_ "ぱぴぷぺぽ".
Definition small_symbols : bytes := b_ "ぁぃぅぇぉっゃゅょゎゕゖ".
Definition type_cell (s cell : bytes) : Prop :=
  (begins s with_dakuten /\ cell = b_ "D")
  \/ (begins s with_handakuten /\ cell = b_ "H")
  \/ (~ begins s with_dakuten /\ ~ begins s with_handakuten /\ cell = b_ "P").

Definition row_ok (ltr : bool) (r : row) : Prop :=
  convert Hiragana 0 ltr (rRoma r) = Val (rHira r)
  /\ convert Katakana 0 ltr (rRoma r) = Val (rKata r)
  /\ convert Romaji 0 ltr (rHira r) = Val (rRoma r)
  /\ convert Romaji 0 ltr (rKata r) = Val (rRoma r)
  /\ Forall (fun s => convert Hiragana 0 ltr s = Val (rHira r) /\ convert Katakana 0 ltr s = Val (rKata r)) (rVariants r)
  /\ style_cell ltr 1 r (rHepb r) /\ style_cell ltr 2 r (rKunr r)
  /\ unicode_cell (rHira r) (rHUni r) /\ unicode_cell (rKata r) (rKUni r)
  /\ type_cell (rHira r) (rType r).

(** bytes compared one by one, as std::string does *)
Inductive before : bytes -> bytes -> Prop :=
| bf_end : forall y b, before [] (y :: b)
| bf_less : forall x a y b, x < y -> before (x :: a) (y :: b)
| bf_same : forall x a b, before a b -> before (x :: a) (x :: b).

(** entries that start a part of the chart *)
Definition part_starts : list bytes :=
  [b_ "la"; b_ "ka"; b_ "sa"; b_ "ta"; b_ "na"; b_ "ha"; b_ "ma"; b_ "lya"; b_ "ra"; b_ "lwa"].
Definition starts_part (r : row) : bool := if in_dec (list_eq_dec N.eq_dec) (rRoma r) part_starts then true else false.
(** the symbols that are no Kana *)
Definition symbol_rows : list (list bytes * bool) :=
  [([b_ "N"; b_ "/"; []; b_ "・"; []; b_ "30FB"], true);
   ([b_ "N"; []; []; b_ "ー"; []; b_ "30FC"], false);
   ([b_ "N"; []; b_ "ゝ"; b_ "ヽ"; b_ "309D"; b_ "30FD"], false);
   ([b_ "N"; []; b_ "ゞ"; b_ "ヾ"; b_ "309E"; b_ "30FE"], false)].
Definition chart_rows (rows : list row) : list (list bytes * bool) :=
  map (fun r => (cells r, starts_part r)) rows ++ symbol_rows.
Definition chart_columns : list bytes :=
  [b_ "No."; b_ "Type"; b_ "Roma"; b_ "Hira"; b_ "Kata"; b_ "HUni"; b_ "KUni"; b_ "Hepb"; b_ "Kunr"; b_ "Roma Variants"].

(** ** Totals *)
Definition single (r : row) : bool := (length (rHira r) =? 3)%nat.
Definition is_small (r : row) : bool :=
  if in_dec (list_eq_dec N.eq_dec) (rHira r) [b_ "ぁ"; b_ "ぃ"; b_ "ぅ"; b_ "ぇ"; b_ "ぉ"; b_ "っ"; b_ "ゃ"; b_ "ゅ"; b_ "ょ"; b_ "ゎ"; b_ "ゕ"; b_ "ゖ"]
  then true else false.
Definition has_type (t : bytes) (r : row) : bool := if list_eq_dec N.eq_dec (rType r) t then true else false.
Definition number (f : row -> bool) (rows : list row) : N := N.of_nat (length (filter f rows)).
Definition total_text (width : N) (n : N) : bytes := repeat 32 (N.to_nat (width - len (to_string n))) ++ to_string n.
Definition count_text (width : N) (rows : list row) : bytes :=
  total_text width (N.of_nat (length rows))
  ++ b_ " (Plain=" ++ to_string (number (fun r => has_type (b_ "P") r && negb (is_small r)) rows)
  ++ b_ ", Dakuten=" ++ to_string (number (has_type (b_ "D")) rows)
  ++ b_ ", HanDakuten=" ++ to_string (number (has_type (b_ "H")) rows)
  ++ (if number is_small rows =? 0 then [] else b_ ", Small=" ++ to_string (number is_small rows)) ++ b_ ")" ++ [10].
Definition totals (markdown : bool) (rows : list row) : bytes :=
  let name (s : bytes) (gap : N) : bytes := if markdown then b_ "- **" ++ s ++ b_ ":** " else repeat 32 (N.to_nat gap) ++ s ++ b_ ": " in
  let width : N := if markdown then 0 else 3 in
  [10] ++ (if markdown then b_ "**Totals:**" ++ [10; 10] else b_ ">>> Totals:" ++ [10])
  ++ name (b_ "Monographs") 0 ++ count_text width (filter single rows)
  ++ name (b_ "Digraphs") 2 ++ count_text width (filter (fun r => negb (single r)) rows)
  ++ name (b_ "All Kana") 2 ++ total_text width (N.of_nat (length rows))
  ++ b_ " (Monographs=" ++ to_string (number single rows) ++ b_ ", Digraphs=" ++ to_string (number (fun r => negb (single r)) rows)
  ++ b_ "), Rōmaji Variants=" ++ to_string (N.of_nat (length (flat_map rVariants rows))) ++ [10]
  ++ name (b_ "Types") 5 ++ total_text width (N.of_nat (length rows) + 4)
  ++ b_ " (P=" ++ to_string (number (has_type (b_ "P")) rows) ++ b_ ", D=" ++ to_string (number (has_type (b_ "D")) rows)
  ++ b_ ", H=" ++ to_string (number (has_type (b_ "H")) rows) ++ b_ ", N=4), N types aren't included in 'All Kana'" ++ [10].
