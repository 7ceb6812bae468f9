(** Properties of the loaded data. *)
From Verif Require Import BaseFacts DataModel LoadModel LoadSpec UcdSpec LoadFacts LoadSample.
Open Scope N_scope.

(** * C78: frequency, kyu, level and grade are those of the files *)

(** the kyu of every Kanji is that of the kyu list that has its name *)
Theorem C78_kyu : forall ltr f st m e d k, files_ok f -> loadData ltr f st m = Val (e, d) -> loaded_kanji d k ->
  (forall q, listed (kyuFiles f) q (kName k) -> kKyu k = q) /\ ((forall q, ~ listed (kyuFiles f) q (kName k)) -> kKyu k = NoKyu).
Proof. intros ltr f st m e d k H1 H2 H3. exact (kyu_exact ltr f st m e d H1 H2 k H3). Qed.
Print Assumptions C78_kyu.
(** the frequency of every Kanji but an Extra Kanji is its place in the frequency list, 0 if it is not in it *)
Theorem C78_frequency : forall ltr f st m e d k ws, files_ok f -> loadData ltr f st m = Val (e, d) -> loaded_kanji d k ->
  words (frequencyFile f) ws ->
  (forall i, kType k <> Extra -> nth_error ws i = Some (kName k) -> kFrequency k = N.of_nat i + 1)
  /\ (~ In (kName k) ws \/ kType k = Extra -> kFrequency k = 0).
Proof. intros ltr f st m e d k ws H1 H2 H3. exact (frequency_exact ltr f st m e d H1 H2 k ws H3). Qed.
Print Assumptions C78_frequency.
(** the level of the Kanji found for its own name is that of the level list with the name, and then it is a Jouyou
    or Jinmei Kanji *)
Theorem C78_level : forall ltr f st m e d s k, files_ok f -> loadData ltr f st m = Val (e, d) ->
  findByName d s = Some k -> kName k = s ->
  (forall v, listed (levelFiles f) v s -> kLevel k = v /\ (kType k = Jouyou \/ kType k = Jinmei))
  /\ ((forall v, ~ listed (levelFiles f) v s) -> kLevel k = NoLevel).
Proof. intros ltr f st m e d s k H1 H2. exact (level_exact ltr f st m e d H1 H2 s k). Qed.
Print Assumptions C78_level.
(** the level of every Jouyou and Jinmei Kanji is that of the level list that has its name, also if it cannot be found by
    its name; no other Kanji has one *)
Theorem C78_level_of_all : forall ltr f st m e d k, files_ok f -> loadData ltr f st m = Val (e, d) -> loaded_kanji d k ->
  (kType k = Jouyou \/ kType k = Jinmei ->
     (forall v, listed (levelFiles f) v (kName k) -> kLevel k = v) /\ ((forall v, ~ listed (levelFiles f) v (kName k)) -> kLevel k = NoLevel))
  /\ (kType k <> Jouyou -> kType k <> Jinmei -> kLevel k = NoLevel).
Proof. intros ltr f st m e d k H1 H2. exact (level_every ltr f st m e d H1 H2 k). Qed.
Print Assumptions C78_level_of_all.
(** exactly the Jouyou Kanji have a grade *)
Theorem C78_grade : forall ltr f st m e d k, files_ok f -> loadData ltr f st m = Val (e, d) -> loaded_kanji d k ->
  (kGrade k <> NoGrade <-> kType k = Jouyou).
Proof. intros ltr f st m e d k H1 H2. exact (grade_exact ltr f st m e d H1 H2 k). Qed.
Print Assumptions C78_grade.
Example C78_example : exists e d, loadData true (sample_files sample_jouyou) initStatic 0 = Val (e, d)
  /\ map (fun p => brief (snd p)) (dNames d) =
     [(b_ "一", Jouyou, 0, N5, K10); (b_ "万", UcdType, 0, NoLevel, NoKyu); (b_ "丈", FrequencyType, 2, NoLevel, NoKyu);
      (b_ "三", Kentei, 0, NoLevel, K1); (b_ "丑", Jinmei, 0, N3, NoKyu); (b_ "且", Extra, 0, NoLevel, K1);
      (b_ "步", LinkedOld, 0, NoLevel, NoKyu); (b_ "歩", Jouyou, 1, N3, K9)].
Proof. eexists. eexists. split; vm_compute; reflexivity. Qed.
Example C78_example_files : files_ok (sample_files sample_jouyou).
Proof. apply sample_ok. Qed.
(** an Extra Kanji of the frequency list does not have its frequency *)
Theorem C78_extra_frequency_refuted : exists f e d s k ws i, files_ok f /\ loadData true f initStatic 0 = Val (e, d)
  /\ findByName d s = Some k /\ words (frequencyFile f) ws /\ nth_error ws i = Some s /\ kFrequency k <> N.of_nat i + 1.
Proof.
  exists (sample_files sample_jouyou). eexists. eexists. exists (b_ "且"). eexists. exists [b_ "歩"; b_ "丈"; b_ "且"], 2%nat.
  split; [apply sample_ok|]. split; [vm_compute; reflexivity|]. split; [vm_compute; reflexivity|].
  split; [|split; [vm_compute; reflexivity|vm_compute; discriminate]].
  exists [(b_ "歩", [b_ "歩"]); (b_ "丈", [b_ "丈"]); (b_ "且", [b_ "且"])]. split; [|reflexivity].
  apply ListProofs.file_words_fun. vm_compute. reflexivity.
Qed.
Print Assumptions C78_extra_frequency_refuted.

(** * C79: the lists of the types *)

(** for types whose Kanji are made one by one the list has exactly the loaded Kanji of the type, each once *)
Theorem C79_made_singly : forall ltr f st m e d t, files_ok f -> loadData ltr f st m = Val (e, d) -> made_singly t ->
  (forall k, In k (type_list d t) <-> loaded_kanji d k /\ kType k = t) /\ NoDup (map kName (type_list d t)).
Proof. intros ltr f st m e d t H1 H2. exact (type_singly ltr f st m e d H1 H2 t). Qed.
Print Assumptions C79_made_singly.
(** for the other types it has one Kanji for each row of the file, in order, with the values of the row; it has all
    loaded Kanji of the type, and a loaded Kanji has the name of each *)
Theorem C79_rows_partial : forall ltr f st m e d, files_ok f -> loadData ltr f st m = Val (e, d) ->
  Forall2 jouyou_row (jouyouRows f) (type_list d Jouyou) /\ Forall2 jinmei_row (jinmeiRows f) (type_list d Jinmei)
  /\ Forall2 extra_row (extraRows f) (type_list d Extra)
  /\ (forall k, loaded_kanji d k -> kType k = Jouyou \/ kType k = Jinmei \/ kType k = Extra -> In k (type_list d (kType k)))
  /\ (forall t k, t = Jouyou \/ t = Jinmei \/ t = Extra -> In k (type_list d t) -> exists k', loaded_kanji d k' /\ kName k' = kName k).
Proof. intros ltr f st m e d H1 H2. exact (type_rows ltr f st m e d H1 H2). Qed.
Print Assumptions C79_rows_partial.
(** but it may have Kanji that are not loaded: of two rows with the same name only the first Kanji is loaded, both are
    in the list *)
Theorem C79_same_name_refuted : exists f e d k, files_ok f /\ loadData true f initStatic 0 = Val (e, d)
  /\ In k (type_list d Jouyou) /\ ~ loaded_kanji d k.
Proof.
  set (r := MkKanjiRow (b_ "3") (b_ "一") (b_ "一") (b_ "イチ") [] (b_ "") (b_ "2") (b_ "2") (b_ "one") []).
  exists (sample_files (sample_jouyou ++ [r])). eexists. eexists. eexists.
  split; [apply sample_ok|]. split; [vm_compute; reflexivity|].
  split; [vm_compute; right; right; left; reflexivity|].
  vm_compute. intro H. repeat (destruct H as [H|H]; [discriminate|]). exact H.
Qed.
Print Assumptions C79_same_name_refuted.
Example C79_example : exists e d, loadData true (sample_files sample_jouyou) initStatic 0 = Val (e, d)
  /\ map kName (type_list d Jouyou) = [b_ "一"; b_ "歩"] /\ map kName (type_list d LinkedOld) = [b_ "步"]
  /\ map kName (type_list d UcdType) = [b_ "万"].
Proof. eexists. eexists. split; [vm_compute; reflexivity|]. repeat split; vm_compute; reflexivity. Qed.

(** * C80: the lists of the levels and kyus *)

(** the list of a level has the Kanji found for the names in its file, in the order of the file *)
Theorem C80_level_lists : forall ltr f st m e d, files_ok f -> loadData ltr f st m = Val (e, d) ->
  (forall v s, listed (levelFiles f) v s -> own_name d s) ->
  forall v c ws, In (v, c) (levelFiles f) -> words c ws ->
  Forall2 (fun s k => findByName d s = Some k /\ kName k = s) ws (level_list d v).
Proof. intros ltr f st m e d H1 H2. exact (level_lists ltr f st m e d H1 H2). Qed.
Print Assumptions C80_level_lists.
Theorem C80_kyu_lists : forall ltr f st m e d, files_ok f -> loadData ltr f st m = Val (e, d) ->
  (forall v s, listed (kyuFiles f) v s -> own_name d s) ->
  forall v c ws, In (v, c) (kyuFiles f) -> words c ws ->
  Forall2 (fun s k => findByName d s = Some k /\ kName k = s) ws (kyu_list d v).
Proof. intros ltr f st m e d H1 H2. exact (kyu_lists ltr f st m e d H1 H2). Qed.
Print Assumptions C80_kyu_lists.
Example C80_example : exists e d, loadData true (sample_files sample_jouyou) initStatic 0 = Val (e, d)
  /\ map (fun v => map kName (level_list d v)) AllLevels = [[b_ "一"]; []; [b_ "歩"; b_ "丑"]; []; []]
  /\ map kName (kyu_list d K1) = [b_ "三"; b_ "且"] /\ dCompat d = [].
Proof. eexists. eexists. split; [vm_compute; reflexivity|]. repeat split; vm_compute; reflexivity. Qed.

(** * C81: every name in a file is found *)
Theorem C81_names_found : forall ltr f st m e d s, files_ok f -> Forall row_bytes (ucdRows f) -> loadData ltr f st m = Val (e, d) ->
  (exists r, In r (jouyouRows f ++ jinmeiRows f ++ extraRows f) /\ krName r = s)
  \/ (exists r, In r (ucdRows f) /\ rName r = s)
  \/ ((exists v, listed (levelFiles f) v s) \/ (exists v, listed (kyuFiles f) v s) \/ (exists ws, words (frequencyFile f) ws /\ In s ws))
  \/ (exists s', linked_names (linkedFile f) s s' \/ linked_names (linkedFile f) s' s)
  \/ (exists k, loaded_kanji d k /\ (kType k = Jouyou \/ kType k = Jinmei) /\ In s (kOldNames k)) ->
  exists k, findByName d s = Some k.
Proof.
  intros ltr f st m e d s H1 Hb H2 H. assert (K : findByName d s <> None); [|destruct (findByName d s) as [k|]; [exists k; reflexivity|congruence]].
  destruct H as [[r [Hr <-]]|[[r [Hr <-]]|[H|[[s' [H|H]]|[k [K1 [K2 K3]]]]]]].
  - exact (rows_found ltr f st m e d H1 H2 r Hr).
  - exact (unicode_found ltr f st m e d H1 H2 Hb r Hr).
  - exact (lists_found_all ltr f st m e d H1 H2 s H).
  - exact (proj1 (lines_found ltr f st m e d H1 H2 s s' H)).
  - exact (proj2 (lines_found ltr f st m e d H1 H2 s' s H)).
  - exact (old_names_found ltr f st m e d H1 H2 k s K1 K2 K3).
Qed.
Print Assumptions C81_names_found.
Example C81_example : exists e d, loadData true (sample_files sample_jouyou) initStatic 0 = Val (e, d)
  /\ (exists k, findByName d (b_ "步") = Some k /\ kNewName k = Some (b_ "歩")) /\ findByName d (b_ "丁") = None.
Proof. eexists. eexists. split; [vm_compute; reflexivity|]. split; [|vm_compute; reflexivity]. eexists. split; vm_compute; reflexivity. Qed.

(** * C82: linked Kanji *)
Theorem C82_linked_old : forall ltr f st m e d k, files_ok f -> loadData ltr f st m = Val (e, d) -> loaded_kanji d k -> kType k = LinkedOld ->
  exists link, loaded_kanji d link /\ kType link = Jouyou /\ In (kName k) (kOldNames link) /\ linked_to k link.
Proof. intros ltr f st m e d k H1 H2. exact (linked_old ltr f st m e d H1 H2 k). Qed.
Print Assumptions C82_linked_old.
Theorem C82_linked_jinmei : forall ltr f st m e d k, files_ok f -> loadData ltr f st m = Val (e, d) -> loaded_kanji d k -> kType k = LinkedJinmei ->
  exists link, linked_to k link
    /\ ((loaded_kanji d link /\ (kType link = Jouyou \/ kType link = Jinmei) /\ linked_names (linkedFile f) (kName link) (kName k))
        \/ (In link (type_list d Jinmei) /\ In (kName k) (kOldNames link))).
Proof. intros ltr f st m e d k H1 H2. exact (linked_jinmei ltr f st m e d H1 H2 k). Qed.
Print Assumptions C82_linked_jinmei.
Example C82_example : exists e d k link, loadData true (sample_files sample_jouyou) initStatic 0 = Val (e, d)
  /\ findByName d (b_ "步") = Some k /\ kType k = LinkedOld /\ findByName d (b_ "歩") = Some link /\ linked_to k link /\ kOldNames link = [b_ "步"].
Proof. eexists. eexists. eexists. eexists. split; [vm_compute; reflexivity|]. repeat split; vm_compute; reflexivity. Qed.

(** * C83: what a Kanji has from the Unicode data *)
Theorem C83_unicode : forall ltr f st m e d r u k, files_ok f -> Forall row_bytes (ucdRows f) -> loadData ltr f st m = Val (e, d) ->
  In r (ucdRows f) -> row_is r u -> loaded_kanji d k -> kName k = rName r -> from_unicode u k.
Proof. intros ltr f st m e d r u k H1 Hb H2. exact (unicode_exact ltr f st m e d H1 H2 Hb r u k). Qed.
Print Assumptions C83_unicode.
Example C83_example : exists e d k, loadData true (sample_files sample_jouyou) initStatic 0 = Val (e, d)
  /\ findByName d (b_ "步") = Some k /\ kPinyin k = b_ "yi" /\ kStrokes k = (7, 0) /\ kRadicalNumber k = 2 /\ kMorohashi k = (1, Plain)
  /\ kNelson k = [2].
Proof. eexists. eexists. eexists. split; [vm_compute; reflexivity|]. repeat split; vm_compute; reflexivity. Qed.
