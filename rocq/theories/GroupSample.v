(** Small groups for the examples of GroupProps.v. *)
From Verif Require Import BaseFacts DisplayProofs.
From Verif Require Export QuizSample GroupQuizSpec.
Open Scope N_scope.

Definition keepGroup (l : list Group) (r : N) : list Group * N := (l, r).
Lemma keepGroup_shuffles : shuffles keepGroup.
Proof. intros l r. apply Permutation_refl. Qed.
Definition noOther (t : GroupType) (name : bytes) : option N := None.
Definition g1 : Group := MkGroup MeaningType 1 (b_ "数字") [q1; q2; q3] NoPattern.
Definition g2 : Group := MkGroup MeaningType 2 (b_ "奇数") [q1; q3] NoPattern.
Definition sampleGroups : list Group := [g1; g2].
Definition sampleEntry (k : QKanji) : bytes :=
  match entryText noOther quizLauncher MeaningType k with Val e => e | _ => [] end.
(** [n] members with different names and readings *)
Definition manyMembers (n : nat) : list QKanji :=
  map (fun j => MkQ (sample (enc (0x4E00 + N.of_nat j)) 1 2) (enc (0x30A0 + N.of_nat j)) []) (seq 0 n).
Definition manyGroup (n : nat) : Group := MkGroup MeaningType 1 (b_ "多") (manyMembers n) NoPattern.

Lemma sample_entry : forall k c, qKanji k = sample (enc c) (fst (kStrokes (qKanji k))) (kFrequency (qKanji k)) -> 0x4E00 <= c <= 0x9FFF ->
  entry_shown noOther true MeaningType k (enc c ++ b_ ".  (yi)" ++ repeat 32 13).
Proof.
  intros k c E H. assert (CK : columns c 2).
  { destruct (japanese_columns c) as [K _]. apply K. left. unfold common_kanji, within. lia. }
  exists 46, [c], 2, (b_ "yi"), 2. rewrite E. split; [reflexivity|].
  assert (S1 : chars [c]) by (constructor; [unfold scalar; lia|constructor]).
  assert (S2 : chars (b_ "yi")) by (constructor; [split; [left; vm_compute; reflexivity|discriminate]|constructor; [split; [left; vm_compute; reflexivity|discriminate]|constructor]]).
  split; [exact S1|]. split; [unfold qName; rewrite E; unfold text; cbn [flat_map kName sample]; symmetry; apply app_nil_r|].
  split; [change 2 with (2 + 0); constructor; [exact CK|constructor]|]. split; [exact S2|]. split; [reflexivity|]. split.
  { change 2 with (1 + (1 + 0)). constructor; [|constructor; [|constructor]]; destruct (japanese_columns 121) as [_ [K1 _]]; destruct (japanese_columns 105) as [_ [K2 _]]; [apply K1|apply K2]; unfold within; lia. }
  split; [lia|]. split.
  - unfold text at 1. cbn [flat_map]. rewrite app_nil_r. reflexivity.
  - unfold len. rewrite app_length. assert (length (enc c) <= 4)%nat by (unfold enc; destruct (c <? 128), (c <? 2048), (c <? 65536); cbn [length]; lia).
    change (2 ^ 30) with 1073741824. change (length (b_ ".  (yi)" ++ repeat 32 13)) with 20%nat. lia.
Qed.
Lemma sample_fit : groups_fit keepGroup keep noOther quizLauncher 1 MJouyou sampleGroups sampleEntry.
Proof.
  split; [exact keepGroup_shuffles|]. split; [exact keep_shuffles|]. split; [reflexivity|]. split; [vm_compute; discriminate|]. split; [lia|]. split; [repeat constructor; vm_compute; discriminate|].
  intros g0 g k H0 Hg Hk _. injection H0 as <-. change (gType g1) with MeaningType. cbn [isQuizMode quizLauncher].
  assert (D : k = q1 \/ k = q2 \/ k = q3).
  { destruct Hg as [Hg|[Hg|[]]]; subst g; cbn [gMembers g1 g2] in Hk; cbn [In] in Hk; intuition. }
  destruct D as [D|[D|D]]; subst k.
  - replace (sampleEntry q1) with (enc 0x4E00 ++ b_ ".  (yi)" ++ repeat 32 13) by (vm_compute; reflexivity). apply sample_entry; [reflexivity|lia].
  - replace (sampleEntry q2) with (enc 0x4E8C ++ b_ ".  (yi)" ++ repeat 32 13) by (vm_compute; reflexivity). apply sample_entry; [reflexivity|lia].
  - replace (sampleEntry q3) with (enc 0x4E09 ++ b_ ".  (yi)" ++ repeat 32 13) by (vm_compute; reflexivity). apply sample_entry; [reflexivity|lia].
Qed.
