(** Property theorems about the format application. *)
From Verif Require Import BaseFacts BlockProofs JukugoSample FormatModel FormatSpec FormatProofs ListProofs.
Open Scope N_scope.

(** C45: the output is the pieces made from the lines: a line that ends with Kanji and is
    followed by a line of Kana is joined with it in wide brackets, other lines stay as they are *)
Theorem C45_output : forall content ls, bytes_ok content -> cut 10 content ls ->
  exists ps rest, pieces ls ps rest /\ format content = Val (flat_map show ps)
    /\ forall ps' rest', pieces ls ps' rest' -> ps' = ps /\ rest' = rest.
Proof.
  intros content ls H C. destruct (format_pieces content ls H C) as (ps & rest & P & E). exists ps, rest.
  split; [exact P|]. split; [exact E|]. intros ps' rest' P'. destruct (pieces_fun _ _ _ P _ _ P') as [-> ->]. auto.
Qed.
Print Assumptions C45_output.

(** C45: unless the last line ends with Kanji (or is left over), every line is printed, once
    and in order *)
Theorem C45_keeps_lines_partial : forall content ls, bytes_ok content -> cut 10 content ls ->
  (forall before l, ls = before ++ [l] -> ~ ends_with_kanji l) ->
  exists ps, format content = Val (flat_map show ps) /\ flat_map piece_lines ps = ls.
Proof.
  intros content ls H C L. destruct (format_pieces content ls H C) as (ps & rest & P & E). exists ps. split; [exact E|].
  pose proof (pieces_keep _ _ _ P) as K. destruct (pieces_rest _ _ _ P) as [R|(b & l & E1 & _ & X)].
  - rewrite R, app_nil_r in K. symmetry. exact K.
  - exfalso. exact (L b l E1 X).
Qed.
Print Assumptions C45_keeps_lines_partial.

(** C45: at most the last line is lost, and only when it ends with Kanji *)
Theorem C45_only_last_lost : forall content ls, bytes_ok content -> cut 10 content ls ->
  exists ps rest, format content = Val (flat_map show ps) /\ ls = flat_map piece_lines ps ++ rest
    /\ (rest = [] \/ exists l, rest = [l] /\ ends_with_kanji l).
Proof.
  intros content ls H C. destruct (format_pieces content ls H C) as (ps & rest & P & E). exists ps, rest. split; [exact E|].
  split; [exact (pieces_keep _ _ _ P)|]. destruct (pieces_rest _ _ _ P) as [R|(b & l & _ & R & X)]; [left; exact R|].
  right. exists l. auto.
Qed.
Print Assumptions C45_only_last_lost.

(** C45: for text, ending with Kanji and being Kana are what they say *)
Theorem C45_lines_of_text : forall cs, chars cs ->
  (ends_with_kanji (text cs) <-> exists r c, cs = r ++ [c] /\ (kanji c \/ variation_selector c))
  /\ (furigana (text cs) <-> cs <> [] /\ Forall kana cs).
Proof.
  intros cs H. pose proof (text_decode cs 0 H) as E. unfold ends_with_kanji, furigana.
  assert (E' : Utf8Model.fromUtf8 (text cs) 0 = Val cs) by exact E. rewrite E'. split; split.
  - intros (r & c & X & K). inversion X; subst. eauto.
  - intros (r & c & -> & K). eauto.
  - intros (r & X & K). inversion X; subst. exact K.
  - intros K. exists cs. split; [reflexivity|exact K].
Qed.
Print Assumptions C45_lines_of_text.

Example C45_case : format (b_ "これは漢字" ++ [10] ++ b_ "かんじ" ++ [10] ++ b_ "です。" ++ [10] ++ b_ "日本" ++ [10] ++ b_ "人が" ++ [10])
  = Val (b_ "これは漢字（かんじ）です。" ++ [10] ++ b_ "日本" ++ [10] ++ b_ "人が" ++ [10])
  /\ ends_with_kanji (b_ "これは漢字") /\ furigana (b_ "かんじ") /\ ~ ends_with_kanji (b_ "人が").
Proof.
  split; [vm_compute; reflexivity|]. split; [|split].
  - apply (ends_iff _ [0x3053; 0x308C; 0x306F; 0x6F22; 0x5B57]); vm_compute; reflexivity.
  - apply (kana_iff _ [0x304B; 0x3093; 0x3058]); vm_compute; reflexivity.
  - intro X. apply (ends_iff _ [0x4EBA; 0x304C]) in X; [vm_compute in X; discriminate|vm_compute; reflexivity].
Qed.

(** C45: a last line that ends with Kanji is not printed *)
Theorem C45_last_line_refuted : exists content, bytes_ok content /\ content <> [] /\ format content = Val [].
Proof.
  exists (b_ "漢字" ++ [10]). split; [apply sample_ok; vm_compute; reflexivity|]. split; [discriminate|vm_compute; reflexivity].
Qed.
Print Assumptions C45_last_line_refuted.
