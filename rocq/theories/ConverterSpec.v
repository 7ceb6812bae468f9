(** What converting between scripts should mean, independent of the code. The only thing
    taken from the project is its Kana table (which two-character combinations exist). *)
From Verif Require Export Base Utf8Spec BlockSpec Utf8CharSpec KanaModel.
Open Scope N_scope.

(** A displayed character: a code point, or one with a variation selector. *)
Inductive glyph := G (c : N) | GV (c v : N).
Definition codes_of (g : glyph) : list N := match g with G c => [c] | GV c v => [c; v] end.
Definition gb (g : glyph) : bytes := text (codes_of g).
Definition gtext (gs : list glyph) : bytes := flat_map gb gs.
Definition glyph_ok (g : glyph) : Prop :=
  match g with
  | G c => scalar c /\ c <> 0 /\ (c < 0x80 \/ ordinary c)
  | GV c v => scalar c /\ ordinary c /\ is_selector v = true
  end.
Definition is_ascii (g : glyph) : bool := match g with G c => c <? 0x80 | _ => false end.

(** The two kana blocks are laid out in the same way, 0x60 apart. *)
Definition off (t : CharType) : N := match t with Katakana => 0x60 | _ => 0 end.
Definition is_kana (t : CharType) (c : N) : bool := (0x3041 + off t <=? c) && (c <=? 0x3096 + off t).
Definition is_repeat (t : CharType) (c : N) : bool := (c =? 0x309D + off t) || (c =? 0x309E + off t).
Definition is_long (g : glyph) : bool := match g with G c => c =? 0x30FC | _ => false end.
Definition is_tsu (t : CharType) (c : N) : bool := c =? 0x3063 + off t.
Definition is_n (t : CharType) (c : N) : bool := c =? 0x3093 + off t.
(** ぁ ぃ ぅ ぇ ぉ ゃ ゅ ょ ゎ *)
Definition small_codes : list N := [0x3041; 0x3043; 0x3045; 0x3047; 0x3049; 0x3083; 0x3085; 0x3087; 0x308E].
Definition is_small (t : CharType) (c : N) : bool := mem c (map (fun x => x + off t) small_codes).
Definition is_plain (t : CharType) (c : N) : bool :=
  is_kana t c && negb (is_small t c) && negb (is_tsu t c) && negb (is_n t c).
(** two kana that the table knows as one sound *)
Definition known_pair (t : CharType) (x y : N) : bool :=
  let pair := text [x; y] in
  existsb (fun k => beq (match t with Katakana => kata (kd k) | _ => hira (kd k) end) pair) allKana.

(** A small tsu, a kana and a small kana that do not form a known pair: the one combination
    the converter gets wrong. *)
Definition broken (t : CharType) (a x s : glyph) : bool :=
  match a, x, s with
  | G a, G x, G s => is_tsu t a && is_plain t x && is_small t s && negb (known_pair t x s)
  | _, _, _ => false
  end.
Definition has_broken (t : CharType) (gs : list glyph) : Prop :=
  exists p a x s q, gs = p ++ a :: x :: s :: q /\ broken t a x s = true.
(** ... followed by a prolong mark *)
Definition has_broken_long (t : CharType) (gs : list glyph) : Prop :=
  exists p a x s l q, gs = p ++ a :: x :: s :: l :: q /\ broken t a x s = true /\ is_long l = true.

(** Kana to kana: each kana and iteration mark goes to its counterpart 0x60 away. *)
Definition other_kana (t : CharType) : CharType := match t with Hiragana => Katakana | _ => Hiragana end.
Definition shift_kana (t : CharType) (g : glyph) : glyph :=
  match g with
  | G c => if is_kana t c || is_repeat t c then G (c - off t + off (other_kana t)) else g
  | _ => g
  end.
(** A broken combination is left alone after its small tsu, and a prolong mark that
    follows it is lost; everything else is mapped character by character. *)
Fixpoint walk (t : CharType) (f : glyph -> glyph) (gs : list glyph) : list glyph :=
  match gs with
  | [] => []
  | a :: r1 =>
      match r1 with
      | x :: (s :: r) =>
          if broken t a x s then
            f a :: x :: s ::
              match r with l :: r' => if is_long l then walk t f r' else walk t f r | [] => [] end
          else f a :: walk t f r1
      | _ => f a :: walk t f r1
      end
  end.
Definition shift_text (t : CharType) : list glyph -> list glyph := walk t (shift_kana t).
(** the text without the prolong marks that follow a broken combination *)
Definition drop_long (t : CharType) : list glyph -> list glyph := walk t (fun g => g).

(** ā ī ū ē ō *)
Definition is_macron (g : glyph) : bool :=
  match g with G c => mem c [0x101; 0x12B; 0x16B; 0x113; 0x14D] | _ => false end.
(** Ascii punctuation and digits with their full-width forms *)
Definition wide_of : list (N * N) :=
  [(0x20, 0x3000); (0x21, 0xFF01); (0x22, 0x201D); (0x23, 0xFF03); (0x24, 0xFF04); (0x25, 0xFF05);
   (0x26, 0xFF06); (0x28, 0xFF08); (0x29, 0xFF09); (0x2A, 0xFF0A); (0x2B, 0xFF0B); (0x2C, 0x3001);
   (0x2E, 0x3002); (0x2F, 0x30FB); (0x30, 0xFF10); (0x31, 0xFF11); (0x32, 0xFF12); (0x33, 0xFF13);
   (0x34, 0xFF14); (0x35, 0xFF15); (0x36, 0xFF16); (0x37, 0xFF17); (0x38, 0xFF18); (0x39, 0xFF19);
   (0x3A, 0xFF1A); (0x3B, 0xFF1B); (0x3C, 0xFF1C); (0x3D, 0xFF1D); (0x3E, 0xFF1E); (0x3F, 0xFF1F);
   (0x40, 0xFF20); (0x5B, 0x300C); (0x5C, 0xFFE5); (0x5D, 0x300D); (0x5E, 0xFF3E); (0x5F, 0xFF3F);
   (0x60, 0xFF40); (0x7B, 0x300E); (0x7C, 0xFF5C); (0x7D, 0x300F); (0x7E, 0x301C)].
Definition is_wide (g : glyph) : bool := match g with G c => mem c (map snd wide_of) | _ => false end.
Definition is_narrow (g : glyph) : bool := match g with G c => mem c (map fst wide_of) | _ => false end.

(** The texts of the Romaji round trip: kana of the source type, prolong marks and any other
    multi-byte character that Romaji does not use itself; no iteration marks. *)
Definition romaji_free (t : CharType) (g : glyph) : bool :=
  negb (is_ascii g) && negb (is_macron g)
  && negb (match g with G c => is_repeat t c | _ => false end).

(** characters that have no meaning for a conversion from or to type [t] *)
Definition foreign (t : CharType) (g : glyph) : bool :=
  negb (is_ascii g) && negb (is_macron g) && negb (is_wide g) && negb (is_long g)
  && negb (match g with G c => is_kana t c || is_repeat t c | _ => false end).

(** Letter case *)
Definition lower_code (c : N) : N := if (0x41 <=? c) && (c <=? 0x5A) then c + 0x20 else c.
Definition lower_glyph (g : glyph) : glyph := match g with G c => G (lower_code c) | _ => g end.
Definition ascii_codes (gs : list glyph) : list N :=
  flat_map (fun g => match g with G c => if c <? 0x80 then [c] else [] | _ => [] end) gs.
(** an upper-case consonant followed by the same letter, or T by c; N is treated separately
    by the converter *)
Definition shout (a b : N) : bool :=
  (0x41 <=? a) && (a <=? 0x5A) && negb (mem a [0x41; 0x45; 0x49; 0x4F; 0x55; 0x4E])
  && ((lower_code a =? lower_code b) || ((a =? 0x54) && (lower_code b =? 0x63))).
Fixpoint quiet (cs : list N) : bool :=
  match cs with a :: ((b :: _) as r) => negb (shout a b) && quiet r | _ => true end.
Definition is_letter (b : N) : bool := ((0x41 <=? b) && (b <=? 0x5A)) || ((0x61 <=? b) && (b <=? 0x7A)).

(** kana and iteration marks of a type *)
Definition of_type (t : CharType) (g : glyph) : bool :=
  match g with G c => is_kana t c || is_repeat t c | _ => false end.
(** characters no conversion has a meaning for *)
Definition foreign_all (g : glyph) : bool := foreign Hiragana g && foreign Katakana g.
