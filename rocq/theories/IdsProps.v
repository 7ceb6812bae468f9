(** Properties C29 and C30: Morohashi ids and stroke counts. *)
From Verif Require Import BaseFacts StringSpec ColumnFileSpec IdsModel IdsSpec IdsProofs.

(** C29: for every string, the constructor accepts exactly the documented forms,
    with the decimal value of the digits ... *)
Theorem C29_accepts_documented_forms : forall s i t,
  newMorohashi s = Val (i, t) <-> morohashi s i t.
Proof. exact morohashi_iff. Qed.
Print Assumptions C29_accepts_documented_forms.
(** ... and throws DomainError on everything else (no other outcome). *)
Theorem C29_rejects_the_rest : forall s,
  (exists i t, newMorohashi s = Val (i, t)) \/ newMorohashi s = Throw DomainError.
Proof. exact morohashi_total. Qed.
Print Assumptions C29_rejects_the_rest.

(** C29: an accepted id, written and read again, is the same id. *)
Theorem C29_text_roundtrip : forall s i t,
  newMorohashi s = Val (i, t) -> newMorohashi (morohashiToString (i, t)) = Val (i, t).
Proof. exact morohashi_text_roundtrip. Qed.
Print Assumptions C29_text_roundtrip.
(** every id that the type documents can be written and read *)
Theorem C29_every_id_is_readable : forall i t, i <= 65535 -> (i = 0 -> t = Plain) ->
  newMorohashi (morohashiToString (i, t)) = Val (i, t).
Proof. exact morohashi_roundtrip. Qed.
Print Assumptions C29_every_id_is_readable.

(** C29: comparison is the lexicographic order of value, then type (Plain, Prime,
    DoublePrime, Supplemental), and equality is equality. *)
Theorem C29_order_lexicographic : forall a b,
  (morohashiCompare a b = Lt <-> fst a < fst b \/ (fst a = fst b /\ typeNumber (snd a) < typeNumber (snd b)))
  /\ (morohashiCompare a b = Eq <-> a = b)
  /\ morohashiCompare b a = CompOpp (morohashiCompare a b).
Proof. exact morohashi_order. Qed.
Print Assumptions C29_order_lexicographic.

Example C29_example :
  newMorohashi (b_ "00123P") = Val (123, Prime)
  /\ newMorohashi (b_ "65535''") = Val (65535, DoublePrime)
  /\ newMorohashi (b_ "H1") = Val (1, Supplemental)
  /\ newMorohashi (b_ "000") = Val (0, Plain)
  /\ newMorohashi (b_ "65536") = Throw DomainError
  /\ newMorohashi (b_ "0P") = Throw DomainError
  /\ newMorohashi (b_ "P") = Throw DomainError
  /\ newMorohashi (b_ "12P'") = Throw DomainError
  /\ morohashiToString (123, DoublePrime) = b_ "123PP"
  /\ morohashi (b_ "00123P") 123 Prime.
Proof.
  repeat split; try (vm_compute; reflexivity).
  apply (m_prime (b_ "00123") (b_ "P")); [|vm_compute; split; discriminate|left; reflexivity].
  split; [discriminate|]. repeat constructor; vm_compute; discriminate.
Qed.

(** C30: one stroke count. *)
Theorem C30_single_count : forall v,
  newStrokes v = if (1 <=? v) && (v <=? 64) then Val (v, 0) else Throw RangeError.
Proof. exact strokes_iff. Qed.
Print Assumptions C30_single_count.
(** C30: two stroke counts are accepted exactly in the documented range, and the
    object holds them; otherwise the documented exception is thrown. *)
Theorem C30_two_counts : forall v w s, newStrokes2 v w = Val s <->
  (2 <= v <= 64 /\ 3 <= w <= 33 /\ v <> w /\ s = (v, w)).
Proof. exact strokes2_iff. Qed.
Print Assumptions C30_two_counts.
Theorem C30_two_counts_errors : forall v w,
  (~ (2 <= v <= 64) \/ ~ (3 <= w <= 33) -> newStrokes2 v w = Throw RangeError)
  /\ (2 <= v <= 64 -> 3 <= w <= 33 -> v = w -> newStrokes2 v w = Throw DomainError).
Proof. exact strokes2_errors. Qed.
Print Assumptions C30_two_counts_errors.
(** different stroke counts print differently (with the variant) *)
Theorem C30_text_unambiguous : forall a b, strokesToString a true = strokesToString b true -> a = b.
Proof. exact strokes_to_string_inj. Qed.
Print Assumptions C30_text_unambiguous.
Example C30_example : newStrokes 64 = Val (64, 0) /\ newStrokes 65 = Throw RangeError
  /\ newStrokes2 2 33 = Val (2, 33) /\ newStrokes2 5 5 = Throw DomainError
  /\ strokesToString (12, 11) true = b_ "12/11" /\ strokesToString (12, 11) false = b_ "12".
Proof. vm_compute. repeat split; reflexivity. Qed.
