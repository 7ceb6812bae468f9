(** Properties of the reports about the loaded data (C96-C100). *)
From Verif Require Import BaseFacts UcdSpec DataSpec LoadModel LoadSpec LoadSample KanjiSpec DetailsSpec DetailsFacts ReportModel ReportSpec ReportProofs ReportRadicals
  ReportUcd ReportLoaded.
Open Scope N_scope.

(** C96: the report has the number of Kanji, the size of each list and, in full mode, for each of seven properties the number of
    Kanji that have it, the number for each type and at most five names; it never fails *)
Theorem C96_counts : forall d full, printCountsAndStats d full = Val (loaded_line d ++ if full then counts_text d else []).
Proof. exact counts_spec. Qed.
Print Assumptions C96_counts.
(** the sizes add up to the number of Kanji when no name is listed twice *)
Theorem C96_sizes_partial : forall ltr f st m e d, files_ok f -> loadData ltr f st m = Val (e, d) -> NoDup (map kName (all_kanji d)) ->
  sum (map (fun t => len (type_list d t)) real_types) = len (dNames d).
Proof. intros ltr f st m e d H1 H2. exact (sizes_add_up ltr f st m e d H1 H2). Qed.
Print Assumptions C96_sizes_partial.
(** but a name that is in two rows of a file is counted twice *)
Theorem C96_sizes_refuted : exists f e d, files_ok f /\ loadData true f initStatic 0 = Val (e, d)
  /\ sum (map (fun t => len (type_list d t)) real_types) <> len (dNames d).
Proof.
  set (r := MkKanjiRow (b_ "3") (b_ "一") (b_ "一") (b_ "イチ") [] (b_ "") (b_ "2") (b_ "2") (b_ "one") []).
  exists (sample_files (sample_jouyou ++ [r])). eexists. eexists. split; [apply sample_ok|]. split; [vm_compute; reflexivity|].
  vm_compute. discriminate.
Qed.
Print Assumptions C96_sizes_refuted.
Example C96_case : exists e d, loadData true (sample_files sample_jouyou) initStatic 0 = Val (e, d) /\ NoDup (map kName (all_kanji d))
  /\ loaded_line d = b_ ">>> Loaded 8 Kanji (Jouyou 2 Jinmei 1 LinkedJinmei 0 LinkedOld 1 Frequency 1 Extra 1 Kentei 1 Ucd 1)
"
  /\ count_line d hasLevel (b_ "Has JLPT level") 1 = b_ ">>> Has JLPT level 3 (Jouyou 2 一, Jinmei 1 丑)
".
Proof.
  eexists. eexists. split; [vm_compute; reflexivity|]. split; [|split; vm_compute; reflexivity].
  assert (K : forall l, (fix go (l : list bytes) := match l with [] => true | x :: r => negb (existsb (beq x) r) && go r end) l = true -> NoDup l).
  { induction l as [|x l IH]; intro K; constructor; apply andb_prop in K; destruct K as [K1 K2]; [|apply IH; exact K2]. intro Hx. apply negb_true_iff in K1.
    assert (K3 : existsb (beq x) l = true) by (apply existsb_exists; exists x; split; [exact Hx|apply beq_eq; reflexivity]). congruence. }
  apply K. vm_compute. reflexivity.
Qed.

(** C97: the grades: a line for each grade that has Jouyou Kanji, with their number, how many have no frequency and how many
    there are of each level, and at the end the number of Jouyou Kanji *)
Theorem C97_grades : forall d, printGrades d = grades_text d.
Proof. exact grades_spec. Qed.
Print Assumptions C97_grades.
(** after loading the file every Jouyou Kanji is in a grade and the total is the number of rows *)
Theorem C97_all_graded : forall ltr f st m e d, files_ok f -> loadData ltr f st m = Val (e, d) ->
  printGrades d = line (b_ "Grade breakdown:") ++ flat_map (grade_line (type_list d Jouyou)) AllGrades
                  ++ line (b_ "  Total for all grades: " ++ to_string (len (jouyouRows f))).
Proof.
  intros ltr f st m e d H1 H2. destruct (jouyou_graded ltr f st m e d H1 H2) as [G L]. rewrite grades_spec. unfold grades_text. rewrite flat_map_app. cbn [flat_map].
  rewrite G, L. rewrite !app_nil_r. reflexivity.
Qed.
Print Assumptions C97_all_graded.
Example C97_case : exists e d, loadData true (sample_files sample_jouyou) initStatic 0 = Val (e, d)
  /\ printGrades d = b_ ">>> Grade breakdown:
>>>   Total for grade G1: 1 (nf 1) (N5 1)
>>>   Total for grade G2: 1 (N3 1)
>>>   Total for all grades: 2
".
Proof. eexists. eexists. split; [vm_compute; reflexivity|]. vm_compute. reflexivity. Qed.

(** C98: the levels and the kyus: a line for each that has Kanji, with their number and the number of each type, and at the end
    the number of all Kanji: those without a level or kyu are counted as None *)
Theorem C98_levels : forall d, printListStats d (fun k => levelNumber (kLevel k)) AllJlptLevels (b_ "Level") true
  = stats_text d (b_ "Level") (AllLevels ++ [NoLevel]) levelToString level_is true.
Proof. exact level_stats. Qed.
Print Assumptions C98_levels.
Theorem C98_kyus : forall d, printListStats d (fun k => kyuNumber (kKyu k)) AllKenteiKyus (b_ "Kyu") false
  = stats_text d (b_ "Kyu") (AllKyus ++ [NoKyu]) kyuToString kyu_is false.
Proof. exact kyu_stats. Qed.
Print Assumptions C98_kyus.
(** each Kanji is counted in exactly one line *)
Theorem C98_one_line : forall k, count (fun v => level_is v k) (AllLevels ++ [NoLevel]) = 1 /\ count (fun q => kyu_is q k) (AllKyus ++ [NoKyu]) = 1
  /\ count (fun g => grade_is g k) (AllGrades ++ [NoGrade]) = 1.
Proof.
  intro k. split; [apply (levels_part [k]); left; reflexivity|]. split; [apply (kyus_part [k]); left; reflexivity|apply (grades_part [k]); left; reflexivity].
Qed.
Print Assumptions C98_one_line.
Example C98_case : exists e d, loadData true (sample_files sample_jouyou) initStatic 0 = Val (e, d)
  /\ printListStats d (fun k => levelNumber (kLevel k)) AllJlptLevels (b_ "Level") true = b_ ">>> Level breakdown:
>>>   Total for Level N5: 1 (Jouyou 1 nf 1)
>>>   Total for Level N3: 2 (Jouyou 1, Jinmei 1 nf 1)
>>>   Total for Level None: 5 (LinkedOld 1 nf 1, Frequency 1, Extra 1 nf 1, Kentei 1 nf 1, Ucd 1 nf 1)
>>>   Total for all Levels: 8
".
Proof. eexists. eexists. split; [vm_compute; reflexivity|]. vm_compute. reflexivity. Qed.

(** C99: the radicals: after loading, a line for each radical that has common Kanji, in the order of the radicals, with the
    number of Kanji, the number of each type and the first twelve in the order of strokes; then the totals and the radicals
    that have none *)
Theorem C99_radicals : forall ltr f st m e d sort, files_ok f -> loadData ltr f st m = Val (e, d) ->
  (forall k, loaded_kanji d k -> bytes_ok (kName k) /\ kanji_ok k) -> sorts orderByStrokes sort ->
  exists t, printRadicals sort (envRadicals e) d = Val t /\ radicals_report (envRadicals e) d t.
Proof. exact radicals_loaded. Qed.
Print Assumptions C99_radicals.
Definition byStrokes := insertionSort orderByStrokes.
Example C99_case : sorts orderByStrokes byStrokes
  /\ exists e d, loadData true (sample_files sample_jouyou) initStatic 0 = Val (e, d)
  /\ (forall k, loaded_kanji d k -> bytes_ok (kName k) /\ kanji_ok k)
  /\ printRadicals byStrokes (envRadicals e) d = Val (b_ ">>> Common Kanji Radicals (Jouyou Jinmei LinkedJinmei LinkedOld Frequency Extra Kentei Ucd):
[001] 一:   6 (   1   1   0   0   1   1   1   1) : 一 丈 万 三 丑 且
[002] 止:   2 (   1   0   0   1   0   0   0   0) : 步 歩
>>>   Total for 2 radicals:    8 (2 1 0 1 1 1 1 1)
").
Proof.
  split; [apply insertion_sorts|]. eexists. eexists. split; [vm_compute; reflexivity|]. split; [|vm_compute; reflexivity].
  intros k Hk. unfold loaded_kanji in Hk. apply (in_map snd) in Hk. revert Hk. generalize k. apply Forall_forall.
  assert (K : forall l, forallb (fun k => forallb (fun b => b <? 256) (kName k) && forallb (fun b => b <? 256) (compatibilityName k)) l = true ->
    Forall (fun k => bytes_ok (kName k) /\ kanji_ok k) l).
  { intros l Hl. apply Forall_forall. intros x Hx. rewrite forallb_forall in Hl. specialize (Hl x Hx). apply andb_prop in Hl. destruct Hl as [A B].
    split; apply Forall_forall; intros b Hb; [rewrite forallb_forall in A; specialize (A b Hb)|rewrite forallb_forall in B; specialize (B b Hb)]; apply N.ltb_lt; assumption. }
  apply K. vm_compute. reflexivity.
Qed.

(** C100: the debug modes.  Without one nothing is printed; with [-info] the counts and the grades are; neither fails *)
Theorem C100_info : forall sort e d, finishedLoadingData sort DebugNone e d = Val [] /\ finishedLoadingData sort DebugInfo e d = Val (info_report d).
Proof. intros sort e d. split; [reflexivity|apply info_spec]. Qed.
Print Assumptions C100_info.
(** with [-debug] all reports are printed when every loaded Kanji with a variation selector has a Unicode entry, and only then *)
Theorem C100_full_partial : forall ltr f st m e d sort, files_ok f -> Forall row_bytes (ucdRows f) -> loadData ltr f st m = Val (e, d) ->
  (forall k, loaded_kanji d k -> bytes_ok (kName k) /\ kanji_ok k) -> sorts orderByStrokes sort ->
  (selectors_found (envUcd e) d -> exists t, finishedLoadingData sort DebugFull e d = Val t /\ full_report e d t)
  /\ (~ selectors_found (envUcd e) d -> finishedLoadingData sort DebugFull e d = Throw DomainError).
Proof. exact full_spec. Qed.
Print Assumptions C100_full_partial.
(** so there are files that are loaded without an error, but not with [-debug] *)
Theorem C100_full_refuted : exists f e d, files_ok f /\ loadData true f initStatic 0 = Val (e, d)
  /\ finishedLoadingData byStrokes DebugNone e d = Val [] /\ finishedLoadingData byStrokes DebugFull e d = Throw DomainError.
Proof.
  set (r := MkKanjiRow (b_ "3") (b_ "三︀") (b_ "一") (b_ "サン") [] (b_ "") (b_ "3") (b_ "1") (b_ "three") []).
  exists (sample_files (sample_jouyou ++ [r])). eexists. eexists. split; [apply sample_ok|]. split; [vm_compute; reflexivity|].
  split; [reflexivity|vm_compute; reflexivity].
Qed.
Print Assumptions C100_full_refuted.
Example C100_case : exists e d t, loadData true (sample_files sample_jouyou) initStatic 0 = Val (e, d) /\ selectors_found (envUcd e) d
  /\ finishedLoadingData byStrokes DebugFull e d = Val t /\ (len t <? 2500) = true /\ (1500 <? len t) = true
  /\ ucd_line (map snd (ucdMap (envUcd e))) (b_ "On Readings") (fun u => has_text (ucdOn u)) = b_ ">>>   On Readings: 8 (Jouyou 0, Jinmei 0, Other 8)
".
Proof.
  eexists. eexists. eexists. split; [vm_compute; reflexivity|]. split; [vm_compute; constructor|]. split; [vm_compute; reflexivity|].
  repeat split; vm_compute; reflexivity.
Qed.
