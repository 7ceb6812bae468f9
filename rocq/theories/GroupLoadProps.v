(** Properties of loading groups. *)
From Verif Require Import BaseFacts QuizSample JukugoSample GroupLoadModel GroupLoadSpec GroupLoadProofs.
Open Scope N_scope.

(** C86: groups load exactly when every row of both files stands for a group, and everything else
    is refused with DomainError *)
Theorem C86_accepted : forall find mr pr, rows_ok mr -> rows_ok pr ->
  ((exists d, loadGroups find mr pr = Val d) <->
   (exists a b, Forall2 (group_of find MeaningType) mr a /\ Forall2 (group_of find PatternGroupType) pr b))
  /\ ((forall d, loadGroups find mr pr <> Val d) -> loadGroups find mr pr = Throw DomainError).
Proof.
  intros find mr pr H1 H2. destruct (load_groups_cases find mr pr H1 H2) as [(d & E & A & B & _)|[E N]]; rewrite E.
  - split; [|intro X; exfalso; exact (X d eq_refl)]. split; [intros _; eauto|intros _; eauto].
  - split; [|reflexivity]. split; [intros [d X]; discriminate|]. intros (a & b & X). exfalso. exact (N a b X).
Qed.
Print Assumptions C86_accepted.

(** C86: the groups are those of the rows, in order *)
Theorem C86_groups : forall find mr pr d, rows_ok mr -> rows_ok pr -> loadGroups find mr pr = Val d ->
  forall a b, (meaningGroups d = a /\ patternGroups d = b) <->
    (Forall2 (group_of find MeaningType) mr a /\ Forall2 (group_of find PatternGroupType) pr b).
Proof.
  intros find mr pr d H1 H2 E a b. destruct (load_groups_cases find mr pr H1 H2) as [(d' & E' & A & B & _)|[E' N]]; rewrite E in E'; [|discriminate].
  inversion E'; subst d'. split; [intros [<- <-]; auto|]. intros [A' B']. split; [exact (groups_fun find MeaningType mr _ _ H1 A A')|exact (groups_fun find PatternGroupType pr _ _ H2 B B')].
Qed.
Print Assumptions C86_groups.

(** C86: the categories of a Kanji are the meaning groups it is a member of, in order, and its pattern
    group is the first one it is a member of *)
Theorem C86_maps : forall find mr pr d, rows_ok mr -> rows_ok pr -> loadGroups find mr pr = Val d ->
  forall name, categories d name = filter (has_member name) (meaningGroups d)
    /\ mfind name (patternMap d) = List.find (has_member name) (patternGroups d).
Proof.
  intros find mr pr d H1 H2 E name. destruct (load_groups_cases find mr pr H1 H2) as [(d' & E' & _ & _ & A & B)|[E' N]]; rewrite E in E'; [|discriminate].
  inversion E'; subst d'. auto.
Qed.
Print Assumptions C86_maps.
(** C86: the number shown for the group of the other type is the one of the first such group in the file that has the Kanji *)
Theorem C86_number : forall find mr pr d, rows_ok mr -> rows_ok pr -> loadGroups find mr pr = Val d -> forall name n,
  (groupNumber d MeaningType name = Some n <-> exists g, List.find (has_member name) (patternGroups d) = Some g /\ gNumber g = n)
  /\ (groupNumber d PatternGroupType name = Some n <-> exists g, List.find (has_member name) (meaningGroups d) = Some g /\ gNumber g = n).
Proof.
  intros find mr pr d H1 H2 E name n. destruct (C86_maps find mr pr d H1 H2 E name) as [A B].
  assert (F : List.find (has_member name) (meaningGroups d) = hd_error (filter (has_member name) (meaningGroups d))).
  { clear. induction (meaningGroups d) as [|g l IH]; [reflexivity|]. cbn [List.find filter]. destruct (has_member name g); [reflexivity|exact IH]. }
  unfold groupNumber. rewrite A, B, F. split.
  - destruct (List.find (has_member name) (patternGroups d)) as [g|].
    + split; [intro X; injection X as <-; eauto|intros (h & X & <-); injection X as <-; reflexivity].
    + split; [intro X; discriminate X|intros (h & X & _); discriminate X].
  - destruct (filter (has_member name) (meaningGroups d)) as [|g l]; cbn [hd_error].
    + split; [intro X; discriminate X|intros (h & X & _); discriminate X].
    + split; [intro X; injection X as <-; eauto|intros (h & X & <-); injection X as <-; reflexivity].
Qed.
Print Assumptions C86_number.
Theorem C86_member : forall name g, has_member name g = true <-> exists k, In k (gMembers g) /\ qName k = name.
Proof. exact has_member_iff. Qed.
Print Assumptions C86_member.

(** C86: no group has a number over 65535, fewer than two or more than 58 members, or a member twice *)
Theorem C86_sizes : forall find mr pr d, rows_ok mr -> rows_ok pr -> loadGroups find mr pr = Val d ->
  forall g, In g (meaningGroups d ++ patternGroups d) ->
  gNumber g <= 65535 /\ 2 <= len (gMembers g) <= 58 /\ NoDup (map qName (gMembers g))
  /\ (gPattern g = NoPattern <-> gType g = MeaningType).
Proof.
  intros find mr pr d H1 H2 E g I. destruct (proj1 (C86_groups find mr pr d H1 H2 E _ _) (conj eq_refl eq_refl)) as [A B].
  assert (K : exists t r, group_of find t r g).
  { assert (X : forall t rows gs, Forall2 (group_of find t) rows gs -> In g gs -> exists t r, group_of find t r g).
    { intros t rows gs F. induction F as [|r x rows gs G F IH]; intros J; [destruct J|]. destruct J as [->|J]; [eauto|apply IH; exact J]. }
    apply in_app_or in I. destruct I as [I|I]; [exact (X _ _ _ A I)|exact (X _ _ _ B I)]. }
  destruct K as (t & r & T & _ & (_ & L) & P & _ & _ & _ & M & D). split; [exact L|]. split; [exact M|]. split; [exact D|].
  rewrite T. inversion P; split; intro X; try reflexivity; try discriminate.
Qed.
Print Assumptions C86_sizes.

(** three Kanji *)
Definition sampleFind (n : bytes) : option QKanji := List.find (fun k => beq (qName k) n) sampleList.
Definition sampleMeaning : list GroupRow :=
  [MkGroupRow (b_ "1") (b_ "数字") (b_ "一,二,三"); MkGroupRow (b_ "2") (b_ "奇数") (b_ "一,三")].
Definition samplePattern : list GroupRow :=
  [MkGroupRow (b_ "7") (b_ "一：イチ") (b_ "二"); MkGroupRow (b_ "8") (b_ "：サン") (b_ "三,一"); MkGroupRow (b_ "9") (b_ "シ") (b_ "二,三")].
Example C86_example : rows_ok sampleMeaning /\ rows_ok samplePattern /\
  exists d, loadGroups sampleFind sampleMeaning samplePattern = Val d
  /\ map gPattern (patternGroups d) = [Family; Peer; Reading]
  /\ map (fun g => map qName (gMembers g)) (patternGroups d) = [[b_ "一"; b_ "二"]; [b_ "三"; b_ "一"]; [b_ "二"; b_ "三"]]
  /\ map gNumber (categories d (b_ "三")) = [1; 2]
  /\ option_map gNumber (mfind (b_ "三") (patternMap d)) = Some 8.
Proof.
  split; [repeat (constructor; [apply sample_ok; vm_compute; reflexivity|]); constructor|].
  split; [repeat (constructor; [apply sample_ok; vm_compute; reflexivity|]); constructor|].
  eexists. split; [vm_compute; reflexivity|]. repeat split; vm_compute; reflexivity.
Qed.
(** C86: refused rows *)
Example C86_refusals :
  loadGroups sampleFind [MkGroupRow (b_ "1") (b_ "数a") (b_ "一,二")] [] = Throw DomainError
  /\ loadGroups sampleFind [MkGroupRow (b_ "1") (b_ "数") (b_ "一,二,")] [] = Throw DomainError
  /\ loadGroups sampleFind [MkGroupRow (b_ "1") (b_ "数") (b_ "一,四")] [] = Throw DomainError
  /\ loadGroups sampleFind [] [MkGroupRow (b_ "65536") (b_ "：イ") (b_ "一,二")] = Throw DomainError
  /\ loadGroups sampleFind [] [MkGroupRow (b_ "1") (b_ "一：イチ") (b_ "二,一")] = Throw DomainError.
Proof. repeat split; vm_compute; reflexivity. Qed.
