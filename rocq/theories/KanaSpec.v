(** Vocabulary for the properties of the Kana table. *)
From Verif Require Export Base Utf8CharSpec.
Open Scope N_scope.

(** [b] is [a] with its first character replaced by Unicode's composition of that
    character with the combining mark [m] *)
Definition accented (m : N) (a b : bytes) : Prop :=
  exists c x r, composition c m = Some x /\ a = text (c :: r) /\ b = text (x :: r).

(** moving Hiragana to the Katakana block *)
Definition katakana_of (cs : list N) : list N := map (fun c => c + 0x60) cs.
