(** Properties of Kanji: orders, qualified names and info. *)
From Verif Require Import BaseFacts Utf8Spec KanjiModel KanjiSpec KanjiProofs.
Open Scope N_scope.

(** C35: both comparisons always answer and are strict weak orders, for names of any bytes. *)
Theorem C35_strokes_strict_weak : strict_weak kanji_ok orderByStrokes.
Proof. exact strokes_strict_weak. Qed.
Print Assumptions C35_strokes_strict_weak.
Theorem C35_qualified_strict_weak : strict_weak kanji_ok orderByQualifiedName.
Proof. exact qualified_strict_weak. Qed.
Print Assumptions C35_qualified_strict_weak.

(** C35: two Kanji are only equivalent in a sort if strokes, frequency and name agree. *)
Theorem C35_incomparable : forall a b cs ds, kanji_text a cs -> kanji_text b ds ->
  (orderByStrokes a b = Val false /\ orderByStrokes b a = Val false <->
   kStrokes a = kStrokes b /\ frequencyOrMax a = frequencyOrMax b /\ cs = ds).
Proof. exact order_incomparable. Qed.
Print Assumptions C35_incomparable.

(** C35: the documented order (strokes, frequency with none last, code point) holds for names
    of one character of the basic plane; names of other characters are missing, see the next
    theorem. *)
Theorem C35_documented_order_partial : forall a b c d,
  kanji_text a [c] -> kanji_text b [d] -> c < 0x10000 -> d < 0x10000 ->
  (orderByStrokes a b = Val true <->
   (fst (kStrokes a) < fst (kStrokes b)
    \/ fst (kStrokes a) = fst (kStrokes b)
       /\ (snd (kStrokes a) < snd (kStrokes b)
           \/ snd (kStrokes a) = snd (kStrokes b)
              /\ (frequencyOrMax a < frequencyOrMax b
                  \/ frequencyOrMax a = frequencyOrMax b /\ c < d)))).
Proof.
  intros a b c d Ha Hb Hc Hd. rewrite (order_bmp a b c d Ha Hb Hc Hd). cbn [blt].
  split.
  - intro H. injection H as H. lia.
  - intro H. f_equal. lia.
Qed.
Print Assumptions C35_documented_order_partial.

(** C35, finding: the names are compared as hexadecimal text, so a name of a higher plane
    comes before every name of the basic plane that starts with a larger digit. *)
Theorem C35_code_point_order_refuted : exists a b,
  kanji_text a [0x4e00] /\ kanji_text b [0x20000] /\ kStrokes a = kStrokes b
  /\ frequencyOrMax a = frequencyOrMax b
  /\ orderByStrokes a b = Val false /\ orderByStrokes b a = Val true.
Proof.
  exists (sample (enc 0x4e00) 1 2), (sample (enc 0x20000) 1 2).
  split; [split; [constructor; [unfold scalar; lia|constructor]|reflexivity]|].
  split; [split; [constructor; [unfold scalar; lia|constructor]|reflexivity]|].
  split; [reflexivity|]. split; [reflexivity|]. split; vm_compute; reflexivity.
Qed.
Print Assumptions C35_code_point_order_refuted.

Example C35_example :
  orderByStrokes (sample (b_ "二") 2 0) (sample (b_ "三") 3 5) = Val true
  /\ orderByStrokes (sample (b_ "二") 2 0) (sample (b_ "入") 2 5) = Val false
  /\ orderByStrokes (sample (b_ "二") 2 7) (sample (b_ "入") 2 7) = Val true
  /\ kanji_text (sample (b_ "二") 2 0) [0x4e8c].
Proof.
  split; [|split; [|split]]; try (vm_compute; reflexivity).
  split; [constructor; [unfold scalar; lia|constructor]|reflexivity].
Qed.

(** C60: the qualified name is the name with the documented suffix, for every Kanji. *)
Theorem C60_suffix : forall k, exists c, group k = Some c /\ qualifiedName k = Val (kName k ++ [c]).
Proof. exact qualifiedName_spec. Qed.
Print Assumptions C60_suffix.
(** C60: sorting by qualified name puts the groups in the order of the documentation and
    sorts by strokes within a group. *)
Theorem C60_groups_in_order : forall a b c d i j, kanji_ok a -> kanji_ok b ->
  group a = Some c -> group b = Some d ->
  nth_error (b_ ".'""^~%+@#*") i = Some c -> nth_error (b_ ".'""^~%+@#*") j = Some d ->
  (((i < j)%nat -> orderByQualifiedName a b = Val true)
   /\ ((j < i)%nat -> orderByQualifiedName a b = Val false)
   /\ (c = d -> orderByQualifiedName a b = orderByStrokes a b)).
Proof. exact qualified_groups. Qed.
Print Assumptions C60_groups_in_order.
(** every group has a place in that list *)
Theorem C60_group_placed : forall k, exists c i, group k = Some c /\ nth_error (b_ ".'""^~%+@#*") i = Some c.
Proof. intro k. destruct (rank_position k) as [c [H1 H2]]. eauto. Qed.
Print Assumptions C60_group_placed.
Example C60_example : forall n,
  qualifiedName (sample n 1 2) = Val (n ++ b_ ".")
  /\ qualifiedName (MkKanji n None [] 1 (1, 0) [] (0, Plain) [] Kentei 0 NoGrade K1 NoLevel None [] false (MkDetails [] [] 0 0 None)) = Val (n ++ b_ "#").
Proof. intro n. split; reflexivity. Qed.

(** C59: info lists exactly the requested fields that have a value, in a fixed order and
    separated by commas. *)
Theorem C59_info : forall k f, Forall (fun n : bytes => n <> []) (kOldNames k) ->
  info k f = sep_by (b_ ", ") (map snd (filter (fun p => N.testbit f (fst p)) (fields_of k))).
Proof. exact info_spec. Qed.
Print Assumptions C59_info.
Example C59_example :
  info (MkKanji (b_ "亜") None (b_ "二") 7 (7, 0) (b_ "yà") (272, Plain) [43] Jouyou 1509 GS K3 N1 None [b_ "亞"; b_ "x"] true (MkDetails [] [] 0 0 None)) Info_All
    = b_ "Rad 二(7), Strokes 7, yà, S, N1, Frq 1509, Old 亞*／x, K3"
  /\ info (sample (b_ "一") 1 2) (Info_Strokes + Info_Freq + Info_Old) = b_ "Strokes 1, Frq 2".
Proof. vm_compute. auto. Qed.
