(** Properties of the Unicode data (C33, C64 to C66). *)
From Coq Require Import Permutation Sorted.
From Verif Require Import Utf8CharSpec.
From Verif Require Import IdsModel UcdSpec UcdProofs.
Open Scope N_scope.

(** * C33: letters of sources *)

(** a source string is accepted exactly when it is made of different letters out of GHJKTV; the
    letters come back sorted, and the two flags as they were *)
Theorem C33_sources_accepted_iff : forall s j n,
  (good_sources s -> exists b, getSources s j n = Val b /\ b < 256
     /\ forall u, ucdBits u = b -> joyo u = j /\ jinmei u = n /\ Permutation s (sources u) /\ StronglySorted N.lt (sources u))
  /\ (~ good_sources s -> getSources s j n = Throw DomainError).
Proof. exact sources_accept. Qed.
Print Assumptions C33_sources_accepted_iff.
(** writing out the letters of any stored value and reading them back gives the value *)
Theorem C33_round_trip : forall u, ucdBits u < 256 -> getSources (sources u) (joyo u) (jinmei u) = Val (ucdBits u).
Proof. exact sources_back. Qed.
Print Assumptions C33_round_trip.
Example C33_example : getSources (b_ "TGJ") true false = Val 85 /\ getSources (b_ "GG") false false = Throw DomainError
  /\ sources (MkUcd [] [] [] [] 85 0 0 (0,0) (0, Plain) [] [] [] [] [] []) = b_ "GJT".
Proof. split; [|split]; reflexivity. Qed.

(** * C64: loading *)

(** the file is loaded exactly when every row is good, no name is twice in it and no two Jinmei
    rows link to the same Kanji; what is held is then exactly what the rows say *)
Theorem C64_load_exact : forall rows, Forall row_bytes rows ->
  (forall us, good_file rows us -> exists d, loadUcd rows emptyUcdData = Val d /\ holds d us)
  /\ ((forall us, ~ good_file rows us) -> loadUcd rows emptyUcdData = Throw DomainError).
Proof. exact load_file. Qed.
Print Assumptions C64_load_exact.
(** a row determines its data *)
Theorem C64_row_determines : forall r u v, row_bytes r -> row_is r u -> row_is r v -> u = v.
Proof. exact row_unique. Qed.
Print Assumptions C64_row_determines.
(** every row of a loaded file is found under its name *)
Theorem C64_find_by_name : forall rows us d r u, Forall row_bytes rows -> good_file rows us ->
  loadUcd rows emptyUcdData = Val d -> In (r, u) (combine rows us) -> ucdFind d (rName r) = Val (Some u).
Proof. exact find_name. Qed.
Print Assumptions C64_find_by_name.

Definition row0 : UcdRow :=
  MkUcdRow (b_ "4E01") (b_ "丁") (b_ "CJK") (b_ "1.1") (b_ "1") (b_ "2") [] (b_ "dīng") (b_ "2") (b_ "2")
    (b_ "GHJKTV") (b_ "J0-437A") (b_ "Y") [] [] [] [] (b_ "male adult") (b_ "TEI CHOU") (b_ "HINOTO") [].
Definition row1 : UcdRow :=
  MkUcdRow (b_ "6B65") (b_ "步") (b_ "CJK") (b_ "1.1") (b_ "77") (b_ "7") (b_ "8") [] (b_ "16264P") []
    (b_ "GJ") [] [] (b_ "Y") (b_ "6B69") (b_ "歩") (b_ "Jinmei*") (b_ "step") (b_ "HO") [] [].
Definition rows : list UcdRow := [row0; row1].
Definition data0 : Ucd := MkUcd (b_ "丁") (b_ "CJK") (b_ "1.1") (b_ "dīng") 127 11 1 (2, 0) (2, Plain) [] (b_ "2")
    (b_ "J0-437A") (b_ "male adult") (b_ "TEI CHOU") (b_ "HINOTO").
Definition data1 : Ucd := MkUcd (b_ "步") (b_ "CJK") (b_ "1.1") [] 133 2 77 (7, 8) (16264, Prime) [b_ "歩"] [] []
    (b_ "step") (b_ "HO") [].
Lemma bytes_ok_b : forall l, forallb (fun b => b <? 256) l = true -> bytes_ok l.
Proof. intros l H. apply Forall_forall. intros x Hx. rewrite forallb_forall in H. specialize (H x Hx). lia. Qed.
Lemma rows_bytes : Forall row_bytes rows.
Proof. repeat (apply Forall_cons; [split; apply bytes_ok_b; reflexivity|]). constructor. Qed.
(** the hypotheses are met: two rows, one with a link *)
Example C64_case : exists us, good_file rows us.
Proof.
  exists [data0; data1]. split; [|split].
  - constructor; [|constructor; [|constructor]]; (apply exact_row; [split; apply bytes_ok_b; reflexivity|vm_compute; reflexivity]).
  - repeat constructor; cbn; intuition discriminate.
  - repeat constructor; cbn; intuition discriminate.
Qed.
Example C64_found : exists d, loadUcd rows emptyUcdData = Val d /\ ucdFind d (b_ "步") = Val (Some data1)
  /\ ucdFind d (b_ "永") = Val None
  /\ loadUcd [row0; row0] emptyUcdData = Throw DomainError.
Proof. eexists. split; [vm_compute; reflexivity|]. repeat split; vm_compute; reflexivity. Qed.

(** * C65: variation selectors *)

(** A Kanji with a variation selector is looked up as the Jinmei entry that has a link to it.
    Which selector it is plays no part. *)
Theorem C65_find_with_selector : forall rows us d c v, Forall row_bytes rows -> good_file rows us ->
  loadUcd rows emptyUcdData = Val d -> scalar c -> 0x80 <= c -> is_selector v = true ->
  exists o, ucdFind d (enc c ++ enc v) = Val o
    /\ forall u, o = Some u <-> In u us /\ jinmei u = true /\ In (enc c) (ucdLinks u).
Proof. exact find_selected. Qed.
Print Assumptions C65_find_with_selector.
(** so two forms that differ in the selector are never told apart: the Kanji with selectors 1 and 2
    give the same entry *)
Theorem C65_selector_distinguished_refuted : exists rows d c v w u, Forall row_bytes rows /\ v <> w
  /\ is_selector v = true /\ is_selector w = true /\ loadUcd rows emptyUcdData = Val d
  /\ ucdFind d (enc c ++ enc v) = Val (Some u) /\ ucdFind d (enc c ++ enc w) = Val (Some u).
Proof.
  exists rows. eexists. exists 0x6B69, 0xFE00, 0xFE0F, data1. split; [exact rows_bytes|]. split; [discriminate|].
  split; [reflexivity|]. split; [reflexivity|]. split; [vm_compute; reflexivity|]. split; vm_compute; reflexivity.
Qed.
Print Assumptions C65_selector_distinguished_refuted.

(** * C66: readings *)

(** the readings come out as one list: the On readings in Katakana, then the Kun readings in
    Hiragana, all separated by wide commas *)
Theorem C66_readings : forall ltr u on kun ks hs,
  readings (ucdOn u) on -> readings (ucdKun u) kun -> converts Katakana on ks -> converts Hiragana kun hs ->
  getReadingsAsKana ltr u = Val (wide_list (ks ++ hs)).
Proof. exact readings_spec. Qed.
Print Assumptions C66_readings.
Example C66_example : readings (ucdOn data0) [b_ "TEI"; b_ "CHOU"] /\ readings (ucdKun data0) [b_ "HINOTO"]
  /\ converts Katakana [b_ "TEI"; b_ "CHOU"] [b_ "テイ"; b_ "チョウ"] /\ converts Hiragana [b_ "HINOTO"] [b_ "ひのと"]
  /\ getReadingsAsKana true data0 = Val (b_ "テイ、チョウ、ひのと").
Proof.
  split; [right|split; [right|split; [|split; [|vm_compute; reflexivity]]]].
  - split; [discriminate|]. split; [|reflexivity]. repeat (apply Forall_cons; [cbn; intuition discriminate|]). constructor.
  - split; [discriminate|]. split; [|reflexivity]. repeat (apply Forall_cons; [cbn; intuition discriminate|]). constructor.
  - repeat (constructor; [split; [intro ltr; vm_compute; reflexivity|discriminate]|]). constructor.
  - repeat (constructor; [split; [intro ltr; vm_compute; reflexivity|discriminate]|]). constructor.
Qed.
(** a reading that converts to nothing (only a dash) makes the separator disappear *)
Example C66_empty_reading : exists u, readings (ucdOn u) [b_ "-"] /\ readings (ucdKun u) [b_ "ka"]
  /\ getReadingsAsKana true u = Val (b_ "か").
Proof.
  exists (MkUcd [] [] [] [] 0 11 1 (1, 0) (1, Plain) [] [] [] [] (b_ "-") (b_ "ka")).
  split; [right|split; [right|vm_compute; reflexivity]];
  (split; [discriminate|]; split; [|reflexivity]; apply Forall_cons; [cbn; intuition discriminate|constructor]).
Qed.
