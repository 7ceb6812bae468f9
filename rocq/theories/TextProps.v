(** Further properties of strings, columns, names and stroke counts (C08, C10, C13, C30, C68). *)
From Verif Require Import BaseFacts Utf8Spec BlockSpec BlockProofs StringModel StringSpec ColumnFileModel ColumnFileSpec.
From Verif Require Import EnumModel IdsModel TextSpec TextProofs.
Open Scope N_scope.

(** C08: the Unicode form of a text has the code of each character, separated by spaces *)
Theorem C08_to_unicode_of_text : forall cs b, chars cs -> exists us, Forall2 shown_code us cs
  /\ toUnicode_string (text cs) b = Val (addBrackets (join 32 us) b).
Proof. exact unicode_text. Qed.
Print Assumptions C08_to_unicode_of_text.
Example C08_text_example : toUnicode_string (text [0x4E00; 0x41; 0x20000]) Round = Val (b_ "(4E00 0041 20000)").
Proof. vm_compute. reflexivity. Qed.

(** C68: numbers as characters *)
Theorem C68_to_char : forall x neg,
  let ok := ((if neg : bool then -128 else 0) <= x <= 255)%Z in
  (ok -> exists b, toChar_int x neg = Val b /\ b < 256 /\ (Z.of_N b = x \/ Z.of_N b = x + 256)%Z)
  /\ (~ ok -> toChar_int x neg = Throw RangeError).
Proof. exact toChar_spec. Qed.
Print Assumptions C68_to_char.
(** C68: tests for single bytes *)
Theorem C68_single_byte_tests : forall s,
  (isAllSingleByte s = true <-> Forall (fun b => b < 128) s)
  /\ (isAnySingleByte s = true <-> exists b, In b s /\ b < 128)
  /\ (forall one, isSingleByte s one = true <-> exists b r, s = b :: r /\ b < 128 /\ (one = true -> r = [])).
Proof. intro s. split; [apply single_all|]. split; [apply single_any|]. intro one. apply single_one. Qed.
Print Assumptions C68_single_byte_tests.
(** C68: changing case changes the ASCII letters of a text and nothing else *)
Theorem C68_case_of_text : forall cs, Forall scalar cs ->
  (exists ds, toLower (text cs) = text ds /\ Forall2 lowered cs ds)
  /\ (exists ds, toUpper (text cs) = text ds /\ Forall2 raised cs ds).
Proof.
  intros cs H. split.
  - eexists. split; [apply lower_text; exact H|]. apply map_spec. exact tolower_spec.
  - eexists. split; [apply upper_text; exact H|]. apply map_spec. exact toupper_spec.
Qed.
Print Assumptions C68_case_of_text.
(** C68: changing the case of the first letter leaves the rest alone *)
Theorem C68_first_letter : forall s,
  ((s = [] /\ firstLower s = []) \/ (exists c d r, s = c :: r /\ lowered c d /\ firstLower s = d :: r))
  /\ ((s = [] /\ firstUpper s = []) \/ (exists c d r, s = c :: r /\ raised c d /\ firstUpper s = d :: r)).
Proof. intro s. split; [apply first_lower|apply first_upper]. Qed.
Print Assumptions C68_first_letter.
Example C68_example : toLower (text [0x41; 0x5A; 0x3042]) = text [0x61; 0x7A; 0x3042] /\ firstUpper (b_ "abC") = b_ "AbC"
  /\ toChar_int (-1) true = Val 255 /\ toChar_int (-1) false = Throw RangeError /\ isSingleByte (b_ "ab") true = false.
Proof. vm_compute. repeat split; reflexivity. Qed.

(** C13: reading a column as a small or optional number *)
Theorem C13_typed_columns : forall f c s, getField f c = Val s ->
  (forall v, getU8 f c = Val v <-> loose_number s v /\ v < 256)
  /\ ((forall v, ~ (loose_number s v /\ v < 256)) -> getU8 f c = Throw DomainError)
  /\ (forall v, getU16 f c = Val v <-> loose_number s v /\ v < 65536)
  /\ ((forall v, ~ (loose_number s v /\ v < 65536)) -> getU16 f c = Throw DomainError)
  /\ (forall max, getU64 f c max = processU64 s max)
  /\ (forall max v, getOptU64 f c max = Val (Some v) <-> s <> [] /\ getU64 f c max = Val v)
  /\ (forall max, getOptU64 f c max = Val None <-> s = [])
  /\ getBool f c = convBool s /\ getChar32 f c = convChar32 s.
Proof. exact typed_columns. Qed.
Print Assumptions C13_typed_columns.
Example C13_typed_example : exists f c,
  getField f c = Val (b_ "300") /\ getU16 f c = Val 300 /\ getU8 f c = Throw DomainError /\ getOptU64 f c 0 = Val (Some 300).
Proof.
  exists {| file := []; delimiter := 9; currentRow := 1; rowValues := [b_ "300"]; columnToPosition := [Some 0%nat] |}.
  exists {| cname := b_ "x"; cnumber := 0 |}. vm_compute. repeat split; reflexivity.
Qed.

(** C10: reading names where an empty one or "None" stands for no value *)
Theorem C10_lenient_names : forall wn names e, createEnum false wn names = Val e -> forall s,
  (forall x, fromStringAllowEmpty e s = Val x <-> (s = [] /\ x = len names) \/ (s <> [] /\ named names s x))
  /\ (forall x, fromStringAllowNone e s = Val x <-> (s = b_ "None" /\ x = len names) \/ (s <> b_ "None" /\ named names s x))
  /\ (forall x, fromStringAllowEmptyAndNone e s = Val x <->
        ((s = [] \/ s = b_ "None") /\ x = len names) \/ (s <> [] /\ s <> b_ "None" /\ named names s x))
  /\ (s <> [] -> s <> b_ "None" -> (forall x, ~ named names s x) ->
        fromStringAllowEmpty e s = Throw DomainError /\ fromStringAllowNone e s = Throw DomainError
        /\ fromStringAllowEmptyAndNone e s = Throw DomainError).
Proof. exact lenient_names. Qed.
Print Assumptions C10_lenient_names.
Example C10_lenient_example : exists e, createEnum false true [b_ "Red"; b_ "Green"] = Val e
  /\ fromStringAllowEmpty e [] = Val 2 /\ fromStringAllowNone e (b_ "Green") = Val 1 /\ fromStringAllowEmpty e (b_ "None") = Throw DomainError.
Proof. eexists. repeat split; vm_compute; reflexivity. Qed.

(** C30: the text of stroke counts, with and without the second count *)
Theorem C30_text_exact : forall v w,
  (numeral (strokesToString (v, w) false) /\ decimal (strokesToString (v, w) false) = v)
  /\ (w = 0 -> strokesToString (v, w) true = strokesToString (v, w) false)
  /\ (w <> 0 -> exists t, numeral t /\ decimal t = w /\ strokesToString (v, w) true = strokesToString (v, w) false ++ b_ "/" ++ t).
Proof. exact strokes_text. Qed.
Print Assumptions C30_text_exact.
