(** Specification of the meanings, readings, numbers, years, reasons and linked names of loaded Kanji. *)
From Verif Require Export UcdSpec LoadSpec.
Open Scope N_scope.

(** a number of a row *)
Definition row_number (s : bytes) (n : N) : Prop := loose_number s n /\ n <= 65535.
(** the year is optional *)
Definition row_year (s : bytes) (y : N) : Prop := (s = [] /\ y = 0) \/ (s <> [] /\ row_number s y).
(** the reasons for a Jinmei Kanji in the order of their numbers *)
Definition reasons : list bytes := map b_ ["Names"; "Print"; "Variant"; "Moved"; "Simple"; "Other"]%string.

Definition jouyou_details (r : KanjiRow) (x : Details) : Prop :=
  dMeaning x = krMeaning r /\ dReading x = krReading r /\ row_number (krNumber r) (dNumber x)
  /\ row_year (krYear r) (dYear x) /\ dReason x = None.
(** the meaning is not in the row *)
Definition jinmei_details (r : KanjiRow) (x : Details) : Prop :=
  dReading x = krReading r /\ row_number (krNumber r) (dNumber x) /\ row_year (krYear r) (dYear x)
  /\ exists i, dReason x = Some (N.of_nat i) /\ nth_error reasons i = Some (krReason r).
Definition extra_details (r : KanjiRow) (x : Details) : Prop :=
  dMeaning x = krMeaning r /\ dReading x = krReading r /\ row_number (krNumber r) (dNumber x)
  /\ dYear x = 0 /\ dReason x = None.

(** ** From the Unicode data *)
(** the links of a row are the traditional forms of the Kanji *)
Definition traditional (r : UcdRow) : Prop := rLinkType r = b_ "Traditional" \/ rLinkType r = b_ "Traditional*".
(** traditional forms are old names, of other links the first one is the new name *)
Definition linked_forms (r : UcdRow) (k : Kanji) : Prop :=
  exists links, cut 44 (rLinkNames r) links
  /\ (traditional r -> kOldNames k = links /\ kNewName k = None)
  /\ (~ traditional r -> kOldNames k = [] /\ kNewName k = hd_error links).
(** the types of the Kanji that are in no official list *)
Definition unofficial (t : KanjiTypes) : Prop := t = FrequencyType \/ t = Kentei \/ t = UcdType.
(** what a Kanji takes from the row with its name; [rs] are the extra readings *)
Record unicode_details (rs : list (bytes * bytes)) (r : UcdRow) (k : Kanji) : Prop := {
  ud_meaning : kType k = Jinmei \/ unofficial (kType k) -> dMeaning (kDetails k) = rMeaning r;
  ud_forms : kType k = Extra \/ unofficial (kType k) -> linked_forms r k;
  (** readings that are not those of the Kanji itself *)
  ud_borrowed : unofficial (kType k) -> (kLinkedReadings k = true <-> exists s, rLinkType r = s ++ b_ "*");
  ud_reading : unofficial (kType k) ->
    (kType k = FrequencyType /\ In (rName r, dReading (kDetails k)) rs)
    \/ (~ (kType k = FrequencyType /\ In (rName r) (map fst rs))
        /\ forall on kun ks hs, readings (rOn r) on -> readings (rKun r) kun -> converts Katakana on ks -> converts Hiragana kun hs ->
           dReading (kDetails k) = wide_list (ks ++ hs));
  ud_plain : unofficial (kType k) -> dNumber (kDetails k) = 0 /\ dYear (kDetails k) = 0 /\ dReason (kDetails k) = None
}.
