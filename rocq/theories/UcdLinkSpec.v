(** Links of a Unicode entry: kinds and texts. *)
From Verif Require Export UcdSpec JoinSpec.
Open Scope N_scope.

(** the code point in square brackets, as at least four upper case digits *)
Definition code_text (c : N) (t : bytes) : Prop :=
  exists s, t = b_ "[" ++ s ++ b_ "]" /\ denotes 16 s c /\ min_size s 4 /\ Forall is_upper_hex s.
(** the Kanji [n] after its code point *)
Definition code_and_name (n t : bytes) : Prop :=
  exists c h, kanji_name n c /\ code_text c h /\ t = h ++ b_ " " ++ n.
