(** Property theorems about iterating over the characters of a string. *)
From Verif Require Import BaseFacts Utf8CharModel Utf8CharSpec BlockSpec Utf8Lemmas Utf8CharProofs Utf8CharLemmas.

(** C16: after any history of calls on any bytes, peek returns what next would return, and
    nothing is undefined *)
Theorem C16_peek_predicts_next : forall s hist mb, bytes_ok s ->
  exists rs u, run (newUtf8Char s) hist = Val (rs, u)
    /\ exists r u', peek u mb = Val r /\ next u mb = Val (r, u').
Proof. exact peek_predicts. Qed.
Print Assumptions C16_peek_predicts_next.
Example C16_peek_case :
  run (newUtf8Char (b_ "か゚a漢︀" ++ [0xff])) [CPeek true; CNext true; CPeek true; CNext true; CPeek false; CReset; CNext false]
  = Val ([Some (b_ "か"); Some (b_ "か"); Some (b_ "漢︀"); Some (b_ "漢︀"); None; None; Some (b_ "か")],
         {| uData := b_ "か゚a漢︀" ++ [0xff]; uCur := b_ "a漢︀" ++ [0xff]; uErrors := 1; uVariants := 0; uMarks := 0 |}).
Proof. vm_compute. reflexivity. Qed.

(** C16: at most as many calls of next succeed as there are bytes *)
Theorem C16_iteration_terminates : forall s cs, bytes_ok s -> existsb resets cs = false ->
  exists rs u, run (newUtf8Char s) cs = Val (rs, u) /\ (served cs rs <= List.length s)%nat.
Proof. exact served_total. Qed.
Print Assumptions C16_iteration_terminates.

(** C16: once next has returned false, every further call does, and changes nothing *)
Theorem C16_end_is_final : forall s h1 mb h2 rs1 u1 u2, bytes_ok s ->
  run (newUtf8Char s) h1 = Val (rs1, u1) -> next u1 mb = Val (None, u2) -> existsb resets h2 = false ->
  exists rs2, run u2 h2 = Val (rs2, u2) /\ Forall (fun r => r = None) rs2.
Proof. exact end_is_final. Qed.
Print Assumptions C16_end_is_final.
Example C16_end_case : exists u1 u2,
  run (newUtf8Char (b_ "漢a")) [CNext true] = Val ([Some (b_ "漢")], u1) /\ next u1 true = Val (None, u2).
Proof. do 2 eexists. split; vm_compute; reflexivity. Qed.

(** C16: reset restarts the iteration: all later results are those of a new object *)
Theorem C16_reset_restarts : forall s h1 h2, bytes_ok s ->
  exists rs1 rs2 u1 u2, run (newUtf8Char s) h1 = Val (rs1, u1) /\ run (newUtf8Char s) h2 = Val (rs2, u2)
    /\ run (newUtf8Char s) (h1 ++ CReset :: h2) = Val (rs1 ++ None :: rs2, u2).
Proof. exact reset_restarts. Qed.
Print Assumptions C16_reset_restarts.

(** C17: on text without combining marks whose selectors follow a multi-byte character, the
    values are the text (its multi-byte part), no errors are counted and each selector is *)
Theorem C17_lossless : forall cs mb, chars cs -> clean cs ->
  exists ts u, allChars (text cs) mb = Val (ts, u)
    /\ concat ts = text (if mb : bool then filter (fun c => 0x80 <=? c) cs else cs)
    /\ uErrors u = 0 /\ uMarks u = 0 /\ uVariants u = count is_selector cs.
Proof.
  intros cs mb Hc Hcl. destruct (text_items cs mb Hc) as [u [E [H1 [H2 H3]]]].
  destruct (clean_items cs Hcl mb) as [I1 [I2 [I3 I4]]].
  eexists _, u. split; [exact E|]. split; [exact I4|]. rewrite H1, H2, H3, I1, I2, I3. auto.
Qed.
Print Assumptions C17_lossless.

(** C17: on any well-formed text, size() is the number of values *)
Theorem C17_size_counts_values : forall cs mb, chars cs ->
  exists ts u, allChars (text cs) mb = Val (ts, u) /\ u8size (text cs) mb = Val (len ts).
Proof.
  intros cs mb Hc. destruct (text_items cs mb Hc) as [u [E _]].
  eexists _, u. split; [exact E|]. apply size_counts. exact Hc.
Qed.
Print Assumptions C17_size_counts_values.
Example C17_case :
  let cs := [0x61; 0x6F22; 0xFE00; 0x304C] in
  chars cs /\ clean cs /\ text cs = b_ "a漢︀が"
  /\ exists u, allChars (text cs) true = Val ([b_ "漢︀"; b_ "が"], u).
Proof.
  cbv zeta. split; [chars_tac|].
  split; [|split; [vm_compute; reflexivity|eexists; vm_compute; reflexivity]].
  apply clean_ascii; [reflexivity|]. apply clean_selected; [repeat split; vm_compute; congruence|reflexivity|].
  apply clean_char; [repeat split; vm_compute; congruence|]. constructor.
Qed.

(** C17: every byte string reads as exactly one sequence of characters and stray bytes *)
Theorem C17_reading_is_unique : forall s, bytes_ok s -> no_nul s ->
  exists es, parse s es /\ forall es', parse s es' -> es' = es.
Proof.
  intros s H1 H2. destruct (parse_exists s H1 H2) as [es He]. exists es. split; [exact He|].
  intros es' H'. symmetry. exact (parse_unique s es He es' H').
Qed.
Print Assumptions C17_reading_is_unique.

(** C18: on any bytes, the values are those of the items of the text: selectors are kept with
    their character, marks are folded into it, stray ones and malformed bytes are skipped; the
    three counters count exactly these events *)
Theorem C18_folding : forall s es mb, bytes_ok s -> parse (Utf8Spec.upto_nul s) es ->
  exists u, allChars s mb = Val (yields mb (items es), u)
    /\ uErrors u = count is_error (items es) /\ uVariants u = count is_variant (items es)
    /\ uMarks u = count is_combined (items es).
Proof. exact all_chars. Qed.
Print Assumptions C18_folding.
Example C18_case :
  let cs := [0x306F; 0x3099; 0x6F22; 0x3099; 0x3099; 0x6F22; 0xFE0F] in
  chars cs /\ parse (text cs) (map Good cs)
  /\ items (map Good cs) = [Folded 0x306F 0x3099 0x3070; DroppedMark 0x6F22 0x3099; Stray 0x3099; WithSelector 0x6F22 0xFE0F].
Proof.
  cbv zeta. assert (H : chars [0x306F; 0x3099; 0x6F22; 0x3099; 0x3099; 0x6F22; 0xFE0F]).
  { chars_tac. }
  split; [exact H|]. split; [|vm_compute; reflexivity].
  apply parse_text. exact (Forall_impl _ (fun c h => proj1 h) H).
Qed.

(** C18 in full is false: a Kana with a Unicode composition is not always folded.  Katakana wa
    with a voiced mark loses the mark, which is counted as an error. *)
Theorem C18_all_compositions_refuted :
  ~ (forall c m x, composition c m = Some x ->
       exists u, allChars (text [c; m]) true = Val ([enc x], u) /\ uErrors u = 0).
Proof.
  intro H. destruct (H 0x30EF 0x3099 0x30F7 eq_refl) as [u [E _]]. vm_compute in E. discriminate.
Qed.
Print Assumptions C18_all_compositions_refuted.

(** C51: getFirst returns the first multi-byte value, or nothing *)
Theorem C51_get_first : forall s es, bytes_ok s -> parse (Utf8Spec.upto_nul s) es ->
  getFirst s = Val (hd [] (yields true (items es))).
Proof. exact get_first. Qed.
Print Assumptions C51_get_first.

(** C51: noVariationSelector strips exactly the selector of any value of the iteration *)
Theorem C51_selector_stripping : forall s es mb, parse s es ->
  forall i t, In i (items es) -> shown mb i = Some t -> noVariationSelector t = Val (base_of i).
Proof. exact strip_tokens. Qed.
Print Assumptions C51_selector_stripping.
Example C51_case :
  noVariationSelector (b_ "漢︀") = Val (b_ "漢") /\ noVariationSelector (b_ "漢") = Val (b_ "漢")
  /\ getFirst (b_ "漢︀字") = Val (b_ "漢︀").
Proof. repeat split; vm_compute; reflexivity. Qed.

(** C51 in full is false: getFirst skips leading Ascii although it is documented to return an
    empty string then, and two Ascii letters with a selector pass as one character with one *)
Theorem C51_documented_behaviour_refuted :
  getFirst (b_ "a漢") = Val (b_ "漢")
  /\ isCharWithVariationSelector (b_ "ab︀") = Val true /\ noVariationSelector (b_ "ab︀") = Val (b_ "ab").
Proof. repeat split; vm_compute; reflexivity. Qed.
Print Assumptions C51_documented_behaviour_refuted.
