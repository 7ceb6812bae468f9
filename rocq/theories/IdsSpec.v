(** Specification of Morohashi id text. *)
From Verif Require Export Base StringSpec ColumnFileSpec IdsModel.

(** The documented forms and what they mean. *)
Inductive morohashi : bytes -> N -> IdType -> Prop :=
| m_empty : morohashi [] 0 Plain
| m_plain : forall ds, numeral ds -> decimal ds <= 65535 -> morohashi ds (decimal ds) Plain
| m_prime : forall ds suffix, numeral ds -> 1 <= decimal ds <= 65535 ->
    suffix = b_ "P" \/ suffix = b_ "'" -> morohashi (ds ++ suffix) (decimal ds) Prime
| m_double : forall ds suffix, numeral ds -> 1 <= decimal ds <= 65535 ->
    suffix = b_ "PP" \/ suffix = b_ "''" -> morohashi (ds ++ suffix) (decimal ds) DoublePrime
| m_supplemental : forall ds, numeral ds -> 1 <= decimal ds <= 65535 ->
    morohashi (b_ "H" ++ ds) (decimal ds) Supplemental.
