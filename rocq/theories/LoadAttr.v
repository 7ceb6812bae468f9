(** Lemmas about loading Kanji: the constructors. *)
From Verif Require Import BaseFacts MapProofs DataModel DataSpec DataProofs LoadModel LoadSpec LoadProofs.
Arguments N.mul : simpl never. Arguments N.add : simpl never. Arguments N.sub : simpl never.
Arguments N.div : simpl never.

Lemma obind_val : forall A B (x : out A) (f : A -> out B) b, obind x f = Val b -> exists a, x = Val a /\ f a = Val b.
Proof. intros A B [a|e| |] f b H; try discriminate. exists a. split; [reflexivity|exact H]. Qed.
Ltac peel H a E := apply obind_val in H; destruct H as [a [E H]].

(** what a Kanji has from the Unicode data *)
Definition ucd_part (e : Env) (k : Kanji) (u : option Ucd) : Prop :=
  getCompatibilityName e (kName k) = Val (kCompatibility k)
  /\ kPinyin k = (match u with Some u => ucdPinyin u | None => [] end)
  /\ kMorohashi k = (match u with Some u => ucdMorohashi u | None => (0, Plain) end)
  /\ kNelson k = (match u with Some u => getNelsonIds (ucdNelson u) | None => [] end).
Lemma newKanji_fields : forall e name u r s t f g q l nn old ln x k,
  newKanji e name u r s t f g q l nn old ln x = Val k ->
  kName k = name /\ kRadicalName k = radName r /\ kRadicalNumber k = radNumber r /\ kStrokes k = s /\ kType k = t
  /\ kFrequency k = f /\ kGrade k = g /\ kKyu k = q /\ kLevel k = l /\ kNewName k = nn /\ kOldNames k = old
  /\ kLinkedReadings k = ln /\ ucd_part e k u /\ kDetails k = x.
Proof.
  intros e name u r s t f g q l nn old ln x k H. unfold newKanji in H. peel H c E. inversion H; subst k.
  repeat split. exact E.
Qed.

(** frequency, kyu and level by type *)
Record attr (e : Env) (k : Kanji) : Prop := {
  at_kyu : kKyu k = kyu e (kName k);
  at_freq : kType k <> Extra -> kFrequency k = frequency e (kName k);
  at_extra : kType k = Extra -> kFrequency k = 0;
  at_hidden : kType k = Extra \/ kType k = LinkedJinmei \/ kType k = LinkedOld -> kLevel k = NoLevel;
  at_level : kType k <> Extra -> kType k <> LinkedJinmei -> kType k <> LinkedOld -> kLevel k = level e (kName k);
  at_grade : kGrade k <> NoGrade <-> kType k = Jouyou;
  at_type : kType k <> NoType
}.
Ltac by_type T := rewrite ?T; split; auto; try discriminate; try congruence; try (intros [K|[K|K]]; congruence).

Lemma grade_valid : forall s g, getGrade s = Val g -> g <> NoGrade.
Proof.
  intros s g H. unfold getGrade in H.
  match type of H with context [find ?P AllGrades] => destruct (find P AllGrades) as [x|] eqn:E end; [|discriminate].
  inversion H; subst x. apply find_some in E. destruct E as [E _]. cbn in E. intros ->.
  repeat (destruct E as [E|E]; [discriminate|]). exact E.
Qed.
Lemma jouyou_fields : forall e r k, makeJouyou e r = Val k ->
  kName k = krName r /\ kType k = Jouyou /\ attr e k.
Proof.
  intros e r k H. unfold makeJouyou in H. peel H st E1. peel H u E2. peel H rad E3. peel H n E4. peel H y E5. peel H g E6. rename H into E7.
  apply newKanji_fields in E7.
  destruct E7 as [F1 [F2 [F3 [F4 [F5 [F6 [F7 [F8 [F9 [F10 [F11 [F12 [F13 F14]]]]]]]]]]]]].
  split; [exact F1|]. split; [exact F5|]. apply grade_valid in E6.
  split; rewrite ?F5, ?F1; auto; try discriminate; try (intros [K|[K|K]]; discriminate); try congruence. split; congruence.
Qed.
Lemma jinmei_fields : forall e r k, makeJinmei e r = Val k ->
  kName k = krName r /\ kType k = Jinmei /\ attr e k.
Proof.
  intros e r k H. unfold makeJinmei in H. peel H u E2. peel H rad E3. peel H st E1. peel H n E4. peel H y E5. peel H g E6. rename H into E7.
  apply newKanji_fields in E7.
  destruct E7 as [F1 [F2 [F3 [F4 [F5 [F6 [F7 [F8 [F9 [F10 [F11 [F12 [F13 F14]]]]]]]]]]]]].
  split; [exact F1|]. split; [exact F5|].
  split; rewrite ?F5, ?F1; auto; try discriminate; try (intros [K|[K|K]]; discriminate); try congruence. split; congruence.
Qed.
Lemma extra_fields : forall e r k, makeExtra e r = Val k ->
  kName k = krName r /\ kType k = Extra /\ attr e k.
Proof.
  intros e r k H. unfold makeExtra in H. peel H u E2. peel H st E1. peel H rad E3. peel H n E4. rename H into E7.
  apply newKanji_fields in E7.
  destruct E7 as [F1 [F2 [F3 [F4 [F5 [F6 [F7 [F8 [F9 [F10 [F11 [F12 [F13 F14]]]]]]]]]]]]].
  split; [exact F1|]. split; [exact F5|].
  split; rewrite ?F5, ?F1; auto; try discriminate; try congruence. split; congruence.
Qed.
Definition linked_type (isOld : bool) : KanjiTypes := if isOld then LinkedOld else LinkedJinmei.
Lemma linked_fields : forall e isOld name link k, makeLinked e isOld name link = Val k ->
  kName k = name /\ kType k = linked_type isOld /\ attr e k /\ linked_to k link /\ (kType link = Jouyou \/ (isOld = false /\ kType link = Jinmei)).
Proof.
  intros e isOld name link k H. unfold makeLinked in H.
  destruct (match kType link with Jouyou => false | Jinmei => isOld | _ => true end) eqn:T; [discriminate|].
  peel H u E2. peel H rad E3. peel H st E1. apply newKanji_fields in H.
  destruct H as [F1 [F2 [F3 [F4 [F5 [F6 [F7 [F8 [F9 [F10 [F11 [F12 [F13 F14]]]]]]]]]]]]].
  split; [exact F1|]. split; [exact F5|]. split.
  { assert (N1 : kType k <> Extra /\ kType k <> NoType /\ (kType k = LinkedJinmei \/ kType k = LinkedOld)) by (rewrite F5; destruct isOld; repeat split; auto; discriminate).
    destruct N1 as [N1 [N2 N3]].
    split; rewrite ?F1; auto; try congruence; try (intros; destruct N3; contradiction).
    split; [congruence|]. intro K. exfalso. destruct N3; congruence. }
  split; [split; [exact F10|]; split; [exact F11|]; split; [exact F12|]; rewrite F14; split; reflexivity|].
  destruct (kType link); try discriminate; auto.
Qed.
Lemma other_fields : forall e name u rd t f q k, makeOther e name u rd t f q = Val k ->
  kName k = name /\ kType k = t /\ kFrequency k = f /\ kGrade k = NoGrade /\ kKyu k = q /\ kLevel k = NoLevel.
Proof.
  intros e name u rd t f q k H. unfold makeOther in H. peel H rr E0. peel H rad E3. peel H st E1. rename H into E7.
  apply newKanji_fields in E7.
  destruct E7 as [F1 [F2 [F3 [F4 [F5 [F6 [F7 [F8 [F9 [F10 [F11 [F12 [F13 F14]]]]]]]]]]]]]. auto 10.
Qed.
Lemma frequency_fields : forall e i name k, makeFrequency e i name = Val k ->
  kName k = name /\ kType k = FrequencyType /\ kFrequency k = u16 i /\ kGrade k = NoGrade /\ kKyu k = kyu e name /\ kLevel k = NoLevel.
Proof. intros e i name k H. unfold makeFrequency in H. peel H u E. eapply other_fields. exact H. Qed.
Lemma kentei_fields : forall e q name k, makeKentei e q name = Val k ->
  kName k = name /\ kType k = Kentei /\ kFrequency k = 0 /\ kGrade k = NoGrade /\ kKyu k = q /\ kLevel k = NoLevel.
Proof. intros e q name k H. unfold makeKentei in H. peel H u E. eapply other_fields. exact H. Qed.
Lemma ucdkanji_fields : forall e u k, makeUcdKanji e u = Val k ->
  kName k = ucdName u /\ kType k = UcdType /\ kFrequency k = 0 /\ kGrade k = NoGrade /\ kKyu k = NoKyu /\ kLevel k = NoLevel.
Proof. intros e u k H. unfold makeUcdKanji in H. eapply other_fields. exact H. Qed.
