(** Specification of the frequency lists of loaded data. *)
From Verif Require Export LoadSpec.
Open Scope N_scope.

(** the Kanji found for a name has that name *)
Definition found_own (d : Data) (s : bytes) (k : Kanji) : Prop := findByName d s = Some k /\ kName k = s.
(** [k] belongs to list [b]: 250 frequencies in each list but the last, which also has all higher ones and 0 *)
Definition in_bucket (b : N) (k : Kanji) : Prop :=
  (b < 9 /\ 250 * b < kFrequency k <= 250 * b + 250) \/ (b = 9 /\ (kFrequency k = 0 \/ 2250 < kFrequency k)).
(** [sub] has those elements of [l] that satisfy [P], in the same order *)
Inductive chosen {A} (P : A -> Prop) : list A -> list A -> Prop :=
| ch_nil : chosen P [] []
| ch_in : forall x l sub, P x -> chosen P l sub -> chosen P (x :: l) (x :: sub)
| ch_out : forall x l sub, ~ P x -> chosen P l sub -> chosen P (x :: l) sub.
