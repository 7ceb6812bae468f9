(** Specification of the messages about ids, strokes and the Kanji argument. *)
From Verif Require Export ErrDetailsModel IdsSpec DetailsSpec.
From Verif Require Export ErrArgsSpec.
From Verif Require Export ErrBase.
Open Scope N_scope.

(** ** Morohashi ids *)
Definition ends_in_mark (s : bytes) : Prop := exists r, s = r ++ b_ "P" \/ s = r ++ b_ "'".
(** the number of an id and whether it has a prefix or a suffix *)
Inductive id_parts : bytes -> bytes -> bool -> Prop :=
| ip_double : forall n, id_parts (n ++ b_ "PP") n true
| ip_double_alt : forall n, id_parts (n ++ b_ "''") n true
| ip_prime : forall n, (forall r, n <> r ++ b_ "P") -> id_parts (n ++ b_ "P") n true
| ip_prime_alt : forall n, (forall r, n <> r ++ b_ "'") -> id_parts (n ++ b_ "'") n true
| ip_supplemental : forall n, ~ ends_in_mark (b_ "H" ++ n) -> id_parts (b_ "H" ++ n) n true
| ip_plain : forall n, ~ ends_in_mark n -> (forall r, n <> b_ "H" ++ r) -> id_parts n n false.
(** the first thing that is wrong *)
Inductive id_wrong : bytes -> bytes -> Prop :=
| iw_nothing : forall s, id_parts s [] true -> id_wrong s (b_ "is invalid")
| iw_not_a_digit : forall s ds c r marked, id_parts s (ds ++ c :: r) marked -> Forall is_digit ds -> ~ is_digit c -> decimal ds <= 65535 ->
    id_wrong s (b_ "is non-numeric")
| iw_too_large : forall s ds r marked, id_parts s (ds ++ r) marked -> Forall is_digit ds -> 65535 < decimal ds -> id_wrong s (b_ "exceeds max")
| iw_zero : forall s ds, id_parts s ds true -> numeral ds -> decimal ds = 0 -> id_wrong s (b_ "can't be zero").
Definition id_message (s why : bytes) : bytes := b_ "Morohashi ID " ++ quoted s ++ b_ " " ++ why.

(** ** The Kanji argument *)
(** the texts for which "u" stands for a code *)
Definition code_text (r : bytes) : Prop := exists c, denotes 16 r c /\ (len r = 4 \/ (len r = 5 /\ 0x10000 <= c < 0x30000)).
(** no argument that starts with one of these is a name *)
Definition lead (a : bytes) : Prop := exists x r, a = x :: r /\ (x = 109 \/ x = 110 \/ x = 117).
Inductive kanji_says (d : Data) : bytes -> bytes -> Prop :=
| ks_empty : kanji_says d [] (b_ "invalid frequency " ++ quoted [])
| ks_large : forall a, numeral a -> 65535 < decimal a -> kanji_says d a (b_ "invalid frequency " ++ quoted a)
| ks_frequency : forall a, numeral a -> decimal a <= 65535 -> findByFrequency d (decimal a) = Val None ->
    kanji_says d a (b_ "Kanji not found for frequency " ++ quoted a)
| ks_morohashi : forall r why, id_wrong r why -> kanji_says d (b_ "m" ++ r) (id_message r why)
| ks_nelson : forall r, ~ numeral r -> kanji_says d (b_ "n" ++ r) (b_ "Nelson ID " ++ quoted r ++ b_ " is non-numeric")
| ks_nelson_large : forall r, numeral r -> 65535 < decimal r -> kanji_says d (b_ "n" ++ r) (b_ "invalid Nelson ID " ++ quoted r)
| ks_unicode : forall r, ~ code_text r -> kanji_says d (b_ "u" ++ r) (b_ "Unicode value " ++ quoted r ++ b_ " is invalid")
| ks_other : forall a, a <> [] -> ~ numeral a -> ~ lead a -> (forall cs, one_of kanji cs -> a <> text cs) ->
    kanji_says d a (b_ "unrecognized 'kanji' value " ++ quoted a ++ b_ ", use -h for help").
