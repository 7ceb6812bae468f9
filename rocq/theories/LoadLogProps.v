(** Properties of what is written while the data is loaded. *)
From Verif Require Import BaseFacts LoadModel LoadSpec LoadSample LoadProofs LoadWhole LoadFacts ReportModel ReportSpec ReportUcd ReportProps.
From Verif Require Import LoadLogModel LoadLogSpec LoadLogTrace LoadLogErrors LoadLogOutput.
Import LoadSpec.

(** * C108: errors *)

(** an error is printed exactly for a name that is there twice, for a Kanji whose Unicode entry is missing or not marked,
    and for a Kanji with a variation selector that can not be found by its name without it *)
Theorem C108_errors : forall sort mode ltr f st m e d ns, files_ok f -> Forall row_bytes (ucdRows f) -> loadData ltr f st m = Val (e, d) ->
  (forall k, loaded_kanji d k -> bytes_ok (kName k)) -> line_names (linkedFile f) ns ->
  forall s, In s (errors (fst (loadDataL sort mode ltr f st m))) <-> complaint (envUcd e) d ns s.
Proof. exact errors_all. Qed.
Print Assumptions C108_errors.
(** and each is printed as often as there is a reason for it *)
Theorem C108_how_often : forall sort mode ltr f st m e d ns, files_ok f -> Forall row_bytes (ucdRows f) -> loadData ltr f st m = Val (e, d) ->
  (forall k, loaded_kanji d k -> bytes_ok (kName k)) -> line_names (linkedFile f) ns ->
  all_complaints (envUcd e) d ns (errors (fst (loadDataL sort mode ltr f st m))).
Proof. exact errors_exact_all. Qed.
Print Assumptions C108_how_often.
(** they are numbered *)
Theorem C108_numbers : forall n ms, errorText n ms = error_lines (n + 1) (errors ms).
Proof. intros n ms. exact (errors_numbered ms n). Qed.
Print Assumptions C108_numbers.
Lemma loaded_names : forall d, forallb (fun p => forallb (fun b => b <? 256) (kName (snd p))) (dNames d) = true -> forall k, loaded_kanji d k -> bytes_ok (kName k).
Proof.
  intros d H k Hk. unfold loaded_kanji in Hk. rewrite forallb_forall in H. specialize (H _ Hk). cbn [snd] in H. rewrite forallb_forall in H.
  apply Forall_forall. intros b Hb. apply N.ltb_lt. exact (H b Hb).
Qed.
Definition again : list KanjiRow :=
  sample_jouyou ++ [MkKanjiRow (b_ "3") (b_ "丑") (b_ "一") (b_ "うし") [] (b_ "1951") (b_ "4") (b_ "S") (b_ "ox") []].
Example C108_case : exists e d, loadData true (sample_files again) initStatic 0 = Val (e, d) /\ line_names (linkedFile (sample_files again)) []
  /\ repeated (b_ "丑") (official_names d []) /\ (forall k, loaded_kanji d k -> bytes_ok (kName k))
  /\ errorText 0 (fst (loadDataL byStrokes DebugNone true (sample_files again) initStatic 0))
     = b_ "ERROR[0001] --- 一 [4E00] not marked as 'Joyo' in _ucd
ERROR[0002] --- 歩 [6B69] not marked as 'Joyo' in _ucd
ERROR[0003] --- 丑 [4E11] not marked as 'Joyo' in _ucd
ERROR[0004] --- failed to insert '丑' into map
".
Proof.
  eexists. eexists. split; [vm_compute; reflexivity|]. split; [exists []; split; [apply ListProofs.cut_getlines; reflexivity|constructor]|].
  split; [exists [b_ "一"; b_ "歩"], [b_ "步"], [b_ "且"]; vm_compute; reflexivity|]. split; [|vm_compute; reflexivity].
  apply loaded_names. vm_compute. reflexivity.
Qed.

(** * C109: the lists with [-debug] *)

(** before the report are the Jinmei Kanji of each level list and the Kanji of the frequency list that are not Jouyou, by type *)
Theorem C109_lists : forall sort mode ltr f st m e d t lws ws, files_ok f -> loadData ltr f st m = Val (e, d) ->
  finishedLoadingData sort mode e d = Val t ->
  (forall v s, listed (levelFiles f) v s -> own_name d s) -> (forall s, In s ws -> own_name d s) ->
  Forall2 (fun p q => fst q = fst p /\ words (snd p) (snd q)) (levelFiles f) lws -> words (frequencyFile f) ws ->
  outputText (fst (loadDataL sort mode ltr f st m)) = begin_text mode d lws ws ++ t.
Proof. exact output_all. Qed.
Print Assumptions C109_lists.
Lemma no_selectors : forall ltr f st m e d s, files_ok f -> loadData ltr f st m = Val (e, d) -> dCompat d = [] -> own_name d s.
Proof.
  intros ltr f st m e d s Hf Hl H k F. destruct (loadData_loaded _ _ _ _ _ _ Hf Hl) as [_ [_ [js [ms [xs [lss [kss Lo]]]]]]].
  unfold findByName in F. rewrite H in F. cbn [MapModel.mfind] in F. exact (wf_own _ (lo_wf _ _ _ _ _ _ _ _ Lo) _ _ F).
Qed.
Example C109_case : exists e d lws ws, loadData true (sample_files sample_jouyou) initStatic 0 = Val (e, d)
  /\ (forall v s, listed (levelFiles (sample_files sample_jouyou)) v s -> own_name d s) /\ (forall s, In s ws -> own_name d s)
  /\ Forall2 (fun p q => fst q = fst p /\ words (snd p) (snd q)) (levelFiles (sample_files sample_jouyou)) lws
  /\ words (frequencyFile (sample_files sample_jouyou)) ws
  /\ begin_text DebugFull d lws ws = b_ ">>>
>>> Begin Loading Data
>>>
>>> Found 1 Jinmei in N3: 丑
>>> Found 1 non-Jouyou/Jinmei/JLPT in Frequency: 丈
" /\ exists t, finishedLoadingData byStrokes DebugFull e d = Val t.
Proof.
  eexists. eexists. exists [(N5, [b_ "一"]); (N4, []); (N3, [b_ "歩"; b_ "丑"]); (N2, []); (N1, [])], [b_ "歩"; b_ "丈"; b_ "且"].
  split; [vm_compute; reflexivity|]. match goal with |- (forall v s, _ -> own_name ?x s) /\ _ => set (d := x) end.
  assert (Ow : forall s, own_name d s) by (intro s; eapply (no_selectors true (sample_files sample_jouyou) initStatic 0); [apply sample_ok|vm_compute; reflexivity|reflexivity]).
  split; [intros; apply Ow|]. split; [intros; apply Ow|].
  assert (Wo : forall c ws, flat_map (getlines 32) (getlines 10 c) = ws -> words c ws).
  { intros c ws <-. eexists. split; [apply ListProofs.file_words_fun; reflexivity|]. induction (getlines 10 c) as [|l r IH]; [reflexivity|]. cbn [flat_map map snd]. rewrite IH. reflexivity. }
  split; [repeat constructor; apply Wo; vm_compute; reflexivity|]. split; [apply Wo; vm_compute; reflexivity|].
  split; [vm_compute; reflexivity|]. eexists. vm_compute. reflexivity.
Qed.

(** * C110: the mode has no influence on the data *)
Theorem C110_same_data : forall sort mode ltr f st m p, snd (loadDataL sort mode ltr f st m) = Val p -> loadData ltr f st m = Val p.
Proof.
  intros sort mode ltr f st m [e d] H. rewrite loadData_erase in H. destruct (loadData ltr f st m) as [[e' d']| | |]; cbn [obind] in H; try discriminate.
  destruct (finishedLoadingData sort mode e' d'); cbn [obind] in H; try discriminate. exact H.
Qed.
Print Assumptions C110_same_data.
Theorem C110_quiet : forall sort mode ltr f st m, mode <> DebugFull -> snd (loadDataL sort mode ltr f st m) = loadData ltr f st m.
Proof.
  intros sort mode ltr f st m H. rewrite loadData_erase. destruct (loadData ltr f st m) as [[e d]| | |]; cbn [obind]; try reflexivity.
  destruct (C100_info sort e d) as [E1 E2]. destruct mode; [congruence|rewrite E2|rewrite E1]; reflexivity.
Qed.
Print Assumptions C110_quiet.
Theorem C110_full : forall sort ltr f st m e d, files_ok f -> Forall row_bytes (ucdRows f) -> loadData ltr f st m = Val (e, d) ->
  (forall k, loaded_kanji d k -> bytes_ok (kName k) /\ kanji_ok k) -> sorts orderByStrokes sort ->
  (selectors_found (envUcd e) d -> snd (loadDataL sort DebugFull ltr f st m) = Val (e, d))
  /\ (~ selectors_found (envUcd e) d -> snd (loadDataL sort DebugFull ltr f st m) = Throw DomainError).
Proof.
  intros sort ltr f st m e d H1 H2 H3 H4 H5. destruct (C100_full_partial ltr f st m e d sort H1 H2 H3 H4 H5) as [A B].
  rewrite loadData_erase, H3. cbn [obind]. split; intro H; [destruct (A H) as [t [E _]]; rewrite E|rewrite (B H)]; reflexivity.
Qed.
Print Assumptions C110_full.
(** nor on the errors *)
Theorem C110_same_errors : forall sort x y ltr f st m, errors (fst (loadDataL sort x ltr f st m)) = errors (fst (loadDataL sort y ltr f st m)).
Proof. exact errors_mode. Qed.
Print Assumptions C110_same_errors.
Example C110_case : exists p, snd (loadDataL byStrokes DebugFull true (sample_files sample_jouyou) initStatic 0) = Val p
  /\ loadData true (sample_files sample_jouyou) initStatic 0 = Val p
  /\ errors (fst (loadDataL byStrokes DebugFull true (sample_files sample_jouyou) initStatic 0)) <> [].
Proof. eexists. split; [vm_compute; reflexivity|]. split; [vm_compute; reflexivity|]. vm_compute. discriminate. Qed.
