(** Property theorems about the reports about groups. *)
From Verif Require JukugoSample.
From Verif Require Import BaseFacts Utf8CharProofs Utf8CharLemmas LoadModel LoadSpec LoadSample LoadProps GroupLoadProofs GroupLoadProps ReportProofs GroupReportModel GroupReportSpec GroupReportProofs GroupReportCounts GroupReportWhole.
Open Scope N_scope.

(** C101: with summary messages the two reports on groups have exactly: for meaning groups the number of memberships, for pattern
    groups the number of Kanji; if some Kanji is in several meaning groups, how many are in one and in several and which are in
    how many; and for each type with Kanji in a group how many, of how many, and the first twelve that are in none - if no name is
    twice in the data and no Kanji is in two pattern groups *)
Theorem C101_summary_partial : forall ltr f st m e d find mr pr gd, files_ok f -> loadData ltr f st m = Val (e, d) ->
  finds_in d find -> findByName d [] = None -> rows_ok mr -> rows_ok pr -> loadGroups find mr pr = Val gd ->
  no_same_name d -> in_one_group (patternGroups gd) ->
  forall left fill, exists t, printGroupData false (MkStream left fill) d gd = Val t /\ groups_report [] fill fill d gd [] [] t.
Proof.
  intros ltr f st m e d find mr pr gd H1 H2 H3 H4 H5 H6 H7 H8 H9 left fill.
  exact (info_groups ltr f st m e d H1 H2 find mr pr gd H3 H4 H5 H6 H7 H8 H9 (MkStream left fill)).
Qed.
Print Assumptions C101_summary_partial.
(** C101: with all messages there is a line for each group after the number: the number and name of the group, the number of its
    members and all members with their suffixes.  The numbers of the first list are at the side that was set before, those of
    the second list at the right *)
Theorem C101_full_partial : forall ltr f st m e d find mr pr gd, files_ok f -> loadData ltr f st m = Val (e, d) ->
  finds_in d find -> findByName d [] = None -> rows_ok mr -> rows_ok pr -> loadGroups find mr pr = Val gd ->
  no_same_name d -> in_one_group (patternGroups gd) ->
  names_are_text (meaningGroups gd) -> names_are_text (patternGroups gd) -> Forall (fun g => len (gName g) < 2^30) (patternGroups gd) ->
  forall left fill,
  let left' := match meaningGroups gd with [] => left | _ => false end in
  let fill' := match meaningGroups gd with [] => fill | _ => 32 end in
  exists mt pt t, printGroupData true (MkStream left fill) d gd = Val t
    /\ meaning_lines left (number_columns (meaningGroups gd)) fill (meaningGroups gd) mt
    /\ pattern_lines left' fill' (number_columns (patternGroups gd)) (patternGroups gd) pt
    /\ groups_report legend fill' fill' d gd mt pt t.
Proof.
  intros ltr f st m e d find mr pr gd H1 H2 H3 H4 H5 H6 H7 H8 H9 H10 H11 H12 left fill.
  exact (full_groups ltr f st m e d H1 H2 find mr pr gd H3 H4 H5 H6 H7 H8 H9 H10 H11 H12 (MkStream left fill)).
Qed.
Print Assumptions C101_full_partial.
(** the text does not depend on which list of names is used *)
Theorem C101_names_unique : forall gs a b, members_of gs a -> members_of gs b -> a = b.
Proof. exact members_fun. Qed.
Print Assumptions C101_names_unique.

(** the Kanji of loaded data as members of groups *)
Definition findIn (d : Data) (n : bytes) : option QKanji := option_map (fun k => MkQ k [] []) (findByName d n).
Lemma findIn_finds : forall d, finds_in d (findIn d).
Proof. intros d n k H. unfold findIn in H. destruct (findByName d n) as [x|]; [|discriminate]. inversion H. reflexivity. Qed.
(** C101: a Kanji that is in two pattern groups is counted twice: four of two Jouyou Kanji, and no examples *)
Theorem C101_twice_refuted : exists f e d mr pr gd, files_ok f /\ loadData true f initStatic 0 = Val (e, d)
  /\ rows_ok mr /\ rows_ok pr /\ loadGroups (findIn d) mr pr = Val gd
  /\ ~ (exists t, printGroupData false (MkStream false 32) d gd = Val t /\ groups_report [] 32 32 d gd [] [] t)
  /\ exists a b, printGroupData false (MkStream false 32) d gd = Val (a ++ b_ "        Jouyou: 4 / 2 ()
" ++ b).
Proof.
  exists (sample_files sample_jouyou). eexists. eexists. exists [].
  exists [MkGroupRow (b_ "1") (b_ "：イ") (b_ "一,歩"); MkGroupRow (b_ "2") (b_ "：ロ") (b_ "歩,一")]. eexists.
  split; [apply sample_ok|]. split; [vm_compute; reflexivity|]. split; [constructor|].
  split; [repeat (constructor; [apply JukugoSample.sample_ok; vm_compute; reflexivity|]); constructor|]. split; [vm_compute; reflexivity|]. split.
  - intros (t & E & ms & ps & M & P & ->). assert (X : ps = [b_ "一"; b_ "歩"]).
    { eapply C101_names_unique; [exact P|]. split; [repeat constructor|]. intro n. vm_compute. tauto. }
    subst ps. clear P. assert (Y : ms = []).
    { eapply C101_names_unique; [exact M|]. split; [constructor|]. intro n. reflexivity. }
    subst ms. vm_compute in E. discriminate.
  - exists (b_ ">>> Loaded 0 kanji into 0 groups
Type Breakdown (showing up to 12 missing examples per type)
>>> Loaded 2 kanji into 2 groups
Type Breakdown (showing up to 12 missing examples per type)
"), []. vm_compute. reflexivity.
Qed.
Print Assumptions C101_twice_refuted.
(** three meaning groups and two pattern groups *)
Definition caseMeaning : list GroupRow :=
  [MkGroupRow (b_ "1") (b_ "数") (b_ "一,万,三"); MkGroupRow (b_ "2") (b_ "奇数") (b_ "一,三"); MkGroupRow (b_ "12") (b_ "始まり") (b_ "一,歩")].
Definition casePattern : list GroupRow :=
  [MkGroupRow (b_ "7") (b_ "一：イチ") (b_ "三"); MkGroupRow (b_ "8") (b_ "：ホ") (b_ "步,歩")].
Lemma nodup_check : forall l, (fix go (l : list bytes) := match l with [] => true | x :: r => negb (existsb (beq x) r) && go r end) l = true -> NoDup l.
Proof.
  induction l as [|x l IH]; intro K; constructor; apply andb_prop in K; destruct K as [K1 K2]; [|apply IH; exact K2]. intro Hx. apply negb_true_iff in K1.
  assert (K3 : existsb (beq x) l = true) by (apply existsb_exists; exists x; split; [exact Hx|apply beq_eq; reflexivity]). congruence.
Qed.
Lemma one_check : forall gs, (forall n, In n (memberships gs) -> belongs gs n <= 1) -> in_one_group gs.
Proof. intros gs H n. destruct (N.le_gt_cases 1 (belongs gs n)) as [L|L]; [apply H; apply belongs_some; exact L|lia]. Qed.
Example C101_case : rows_ok caseMeaning /\ rows_ok casePattern /\ exists e d gd, loadData true (sample_files sample_jouyou) initStatic 0 = Val (e, d)
  /\ findByName d [] = None /\ no_same_name d /\ loadGroups (findIn d) caseMeaning casePattern = Val gd
  /\ in_one_group (patternGroups gd) /\ names_are_text (meaningGroups gd) /\ names_are_text (patternGroups gd)
  /\ Forall (fun g => len (gName g) < 2^30) (patternGroups gd)
  /\ printGroupData false (MkStream false 32) d gd = Val (b_ ">>> Loaded 7 kanji into 3 groups
>>> Unique kanji: 4 (once 2, multi 2)
  Kanji in 2 groups: 三
  Kanji in 3 groups: 一
Type Breakdown (showing up to 12 missing examples per type)
        Jouyou: 2 / 2
        Kentei: 1 / 1
           Ucd: 1 / 1
>>> Loaded 4 kanji into 2 groups
Type Breakdown (showing up to 12 missing examples per type)
        Jouyou: 2 / 2
     LinkedOld: 1 / 1
        Kentei: 1 / 1
")
  /\ printGroupData true (MkStream true 48) d gd = Val (b_ ">>> Loaded 7 kanji into 3 groups
>>> .=常用 '=JLPT ""=Freq ^=人名用 ~=LinkJ %=LinkO +=Extra @=検定 #=1級 *=Ucd
Name (number of entries)   Parent Member : Other Members
[10]  数　　 (3 )   : 一. 万* 三#
[2 ]  奇数　 (2 )   : 一. 三#
[12]  始まり (2 )   : 一. 歩.
>>> Unique kanji: 4 (once 2, multi 2)
  Kanji in 2 groups: 三
  Kanji in 3 groups: 一
Type Breakdown (showing up to 12 missing examples per type)
        Jouyou: 2 / 2
        Kentei: 1 / 1
           Ucd: 1 / 1
>>> Loaded 4 kanji into 2 groups
>>> .=常用 '=JLPT ""=Freq ^=人名用 ~=LinkJ %=LinkO +=Extra @=検定 #=1級 *=Ucd
Name (number of entries)   Parent Member : Other Members
[ 7]                   一：イチ( 2)   一.: 三#
[ 8]                       ：ホ( 2)   　 : 步% 歩.
Type Breakdown (showing up to 12 missing examples per type)
        Jouyou: 2 / 2
     LinkedOld: 1 / 1
        Kentei: 1 / 1
").
Proof.
  split; [repeat (constructor; [apply JukugoSample.sample_ok; vm_compute; reflexivity|]); constructor|].
  split; [repeat (constructor; [apply JukugoSample.sample_ok; vm_compute; reflexivity|]); constructor|].
  eexists. eexists. eexists. split; [vm_compute; reflexivity|]. split; [vm_compute; reflexivity|]. split; [apply nodup_check; vm_compute; reflexivity|].
  split; [vm_compute; reflexivity|].
  split; [apply one_check; intros n I; vm_compute in I; repeat (destruct I as [<-|I]; [vm_compute; discriminate|]); destruct I|].
  split; [|split; [|split; [repeat (constructor; [vm_compute; reflexivity|]); constructor|split; vm_compute; reflexivity]]].
  - constructor; [exists [0x6570]; split; [chars_tac|vm_compute; reflexivity]|].
    constructor; [exists [0x5947; 0x6570]; split; [chars_tac|vm_compute; reflexivity]|].
    constructor; [exists [0x59CB; 0x307E; 0x308A]; split; [chars_tac|vm_compute; reflexivity]|constructor].
  - constructor; [exists [0x4E00; 0xFF1A; 0x30A4; 0x30C1]; split; [chars_tac|vm_compute; reflexivity]|].
    constructor; [exists [0xFF1A; 0x30DB]; split; [chars_tac|vm_compute; reflexivity]|constructor].
Qed.

(** C102: the numbers agree: the number of unique Kanji is the sum of those in one and in several groups and of those of each type,
    and each Kanji is in the list of exactly one number of groups *)
Theorem C102_once_or_several : forall gs ns, members_of gs ns ->
  count (fun n => belongs gs n =? 1) ns + count (fun n => 1 <? belongs gs n) ns = len ns
  /\ (forall n, In n ns -> 1 < belongs gs n -> In (belongs gs n) (upto 2 (most gs ns)))
  /\ (forall i, In i (upto 2 (most gs ns)) -> 2 <= i <= most gs ns)
  /\ (1 < most gs ns -> exists n, In n ns /\ belongs gs n = most gs ns).
Proof. exact once_or_several. Qed.
Print Assumptions C102_once_or_several.
Theorem C102_types : forall ltr f st m e d find mr pr gd, files_ok f -> loadData ltr f st m = Val (e, d) -> finds_in d find ->
  rows_ok mr -> rows_ok pr -> loadGroups find mr pr = Val gd -> no_same_name d ->
  forall gs, gs = meaningGroups gd \/ gs = patternGroups gd -> forall ns, members_of gs ns ->
  sum (map (fun t => count (in_group gs) (type_list d t)) real_types) = len ns.
Proof.
  intros ltr f st m e d find mr pr gd H1 H2 H3 H4 H5 H6 H7 gs C ns M. apply types_total; [exact H7|exact M|].
  exact (all_known ltr f st m e d find mr pr gd H1 H2 H3 H4 H5 H6 gs C).
Qed.
Print Assumptions C102_types.
Theorem C102_memberships : forall find mr pr gd, rows_ok mr -> rows_ok pr -> loadGroups find mr pr = Val gd ->
  forall ns, members_of (meaningGroups gd) ns -> sum (map (belongs (meaningGroups gd)) ns) = len (memberships (meaningGroups gd)).
Proof. exact memberships_total. Qed.
Print Assumptions C102_memberships.
Example C102_case : exists e d gd ns, loadData true (sample_files sample_jouyou) initStatic 0 = Val (e, d) /\ no_same_name d
  /\ loadGroups (findIn d) caseMeaning casePattern = Val gd /\ members_of (meaningGroups gd) ns
  /\ ns = [b_ "一"; b_ "万"; b_ "三"; b_ "歩"] /\ map (belongs (meaningGroups gd)) ns = [3; 1; 2; 1] /\ most (meaningGroups gd) ns = 3.
Proof.
  eexists. eexists. eexists. exists [b_ "一"; b_ "万"; b_ "三"; b_ "歩"]. split; [vm_compute; reflexivity|]. split; [apply nodup_check; vm_compute; reflexivity|].
  split; [vm_compute; reflexivity|]. split; [|split; [reflexivity|split; vm_compute; reflexivity]].
  split; [repeat constructor|]. intro n. vm_compute. tauto.
Qed.
