(** Property theorems about the links of Unicode entries. *)
From Verif Require Import BaseFacts UcdLinkSpec UcdProofs UcdLinkProofs.

(** C64: what the kind of link in a row says: a star means that readings were taken from the
    linked Kanji, and the two kinds of traditional form are told from all others *)
Theorem C64_link_kinds : forall r u, row_is r u ->
  (linkedReadings u = true <-> exists s, rLinkType r = s ++ b_ "*")
  /\ (hasLinks u = true <-> rLinkNames r <> [])
  /\ (hasTraditionalLinks u = true <-> rLinkType r = b_ "Traditional" \/ rLinkType r = b_ "Traditional*")
  /\ (hasNonTraditionalLinks u = true <-> rLinkNames r <> []
        /\ rLinkType r <> b_ "Traditional" /\ rLinkType r <> b_ "Traditional*").
Proof. exact link_kind. Qed.
Print Assumptions C64_link_kinds.

(** C64: the links are written out as code point and Kanji, separated by commas *)
Theorem C64_link_texts : forall r u, row_bytes r -> row_is r u ->
  exists ts, Forall2 code_and_name (ucdLinks u) ts /\ linkCodeAndNames u = Val (separated (b_ ", ") ts).
Proof. exact link_texts. Qed.
Print Assumptions C64_link_texts.

(** C64: and so is the entry itself *)
Theorem C64_entry_text : forall n c, bytes_ok n -> kanji_name n c ->
  exists t, entryCodeAndName n = Val t /\ code_and_name n t.
Proof. exact entry_text. Qed.
Print Assumptions C64_entry_text.

Definition linked_row : UcdRow :=
  MkUcdRow (b_ "6B65") (b_ "步") (b_ "CJK") (b_ "1.1") (b_ "77") (b_ "7") (b_ "8") [] (b_ "16264P") []
    (b_ "GJ") [] [] (b_ "Y") (b_ "6B69,20089") (b_ "歩,𠂉") (b_ "Traditional*") (b_ "step") (b_ "HO") [] [].
Definition linked_data : Ucd := MkUcd (b_ "步") (b_ "CJK") (b_ "1.1") [] 133 5 77 (7, 8) (16264, Prime)
    [b_ "歩"; b_ "𠂉"] [] [] (b_ "step") (b_ "HO") [].
Example C64_links_case : row_bytes linked_row /\ row_is linked_row linked_data
  /\ linkCodeAndNames linked_data = Val (b_ "[6B69] 歩, [20089] 𠂉")
  /\ entryCodeAndName (ucdName linked_data) = Val (b_ "[6B65] 步")
  /\ linkedReadings linked_data = true /\ hasTraditionalLinks linked_data = true
  /\ hasNonTraditionalLinks linked_data = false.
Proof.
  assert (B : row_bytes linked_row) by (split; apply ok_bytes; reflexivity).
  split; [exact B|]. split; [apply exact_row; [exact B|vm_compute; reflexivity]|].
  split; [vm_compute; reflexivity|]. split; [vm_compute; reflexivity|]. repeat split; reflexivity.
Qed.
