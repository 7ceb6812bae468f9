(** Specification of delimited text. *)
From Verif Require Export Base StringSpec.

(** Text made of fields separated by a delimiter. *)
Fixpoint join (delim : N) (fs : list bytes) : bytes :=
  match fs with
  | [] => []
  | [f] => f
  | f :: r => f ++ [delim] ++ join delim r
  end.

(** no field contains the delimiter *)
Definition free_of (delim : N) (fs : list bytes) : Prop := Forall (fun f => ~ In delim f) fs.

(** [line] consists of exactly the fields [fs] *)
Definition has_fields (delim : N) (line : bytes) (fs : list bytes) : Prop :=
  fs <> [] /\ free_of delim fs /\ line = join delim fs.

(** A decimal numeral (one or more digits). *)
Definition numeral (s : bytes) : Prop := s <> [] /\ Forall is_digit s.


(** fields of a line without the empty one that a trailing delimiter produces *)
Fixpoint strip_trailing_empty (fs : list bytes) : list bytes :=
  match fs with
  | [] => []
  | [f] => match f with [] => [] | _ => [f] end
  | f :: r => f :: strip_trailing_empty r
  end.

(** text of a file made of these lines *)
Definition unlines (ls : list bytes) : bytes := flat_map (fun l => l ++ [10]) ls.

(** white space *)
Definition white (b : N) : Prop := b = 32 \/ (9 <= b /\ b <= 13).

(** What the C library takes for a number: white space, an optional sign, digits,
    and then anything; a minus sign negates modulo 2^64. *)
Inductive loose_number : bytes -> N -> Prop :=
| loose_plain : forall ws ds rest, Forall white ws -> numeral ds ->
    (match rest with [] => True | c :: _ => ~ is_digit c end) -> decimal ds < 2^64 ->
    loose_number (ws ++ ds ++ rest) (decimal ds)
| loose_plus : forall ws ds rest, Forall white ws -> numeral ds ->
    (match rest with [] => True | c :: _ => ~ is_digit c end) -> decimal ds < 2^64 ->
    loose_number (ws ++ 43 :: ds ++ rest) (decimal ds)
| loose_minus : forall ws ds rest, Forall white ws -> numeral ds ->
    (match rest with [] => True | c :: _ => ~ is_digit c end) -> decimal ds < 2^64 ->
    loose_number (ws ++ 45 :: ds ++ rest) ((2^64 - decimal ds) mod 2^64).
