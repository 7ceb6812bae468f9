(** Properties of the meanings, readings, numbers, years, reasons and linked names of loaded Kanji (C107). *)
From Verif Require MapProofs LoadEnv LoadFacts.
From Verif Require Import BaseFacts DataModel LoadModel LoadSample LoadDetailsSpec LoadDetails.
Open Scope N_scope.

(** * C107: what users read about a Kanji is what the files say *)

(** the Kanji made for a row of an official list has the meaning, reading, number, year and reason of the row *)
Theorem C107_rows : forall ltr f st m e d, files_ok f -> loadData ltr f st m = Val (e, d) ->
  Forall2 (fun r k => jouyou_details r (kDetails k)) (jouyouRows f) (type_list d Jouyou)
  /\ Forall2 (fun r k => jinmei_details r (kDetails k)) (jinmeiRows f) (type_list d Jinmei)
  /\ Forall2 (fun r k => extra_details r (kDetails k)) (extraRows f) (type_list d Extra).
Proof. intros ltr f st m e d H1 H2. exact (row_details ltr f st m e d H1 H2). Qed.
Print Assumptions C107_rows.
(** what the lists do not say comes from the row of the Unicode data with the name of the Kanji *)
Theorem C107_unicode : forall ltr f st m e d r k, files_ok f -> Forall row_bytes (ucdRows f) -> loadData ltr f st m = Val (e, d) ->
  In r (ucdRows f) -> loaded_kanji d k -> kName k = rName r -> unicode_details (readingRows f) r k.
Proof. intros ltr f st m e d r k H1 Hb H2. exact (details_exact ltr f st m e d H1 H2 Hb r k). Qed.
Print Assumptions C107_unicode.
(** no name has two extra readings: a file with a name twice is refused *)
Theorem C107_readings_once : forall ltr f st m e d, files_ok f -> loadData ltr f st m = Val (e, d) -> NoDup (map fst (readingRows f)).
Proof.
  intros ltr f st m e d H1 H2. destruct (LoadFacts.loadData_loaded ltr f st m e d H1 H2) as [O _].
  exact (proj1 (loadReadings_once _ _ _ MapProofs.msorted_nil (LoadEnv.en_readings f e O))).
Qed.
Print Assumptions C107_readings_once.

(** sample data with links: of 万 to its traditional form, of 且 to another form *)
Definition lrow (code name codes names type meaning on kun : bytes) : UcdRow :=
  MkUcdRow code name (b_ "CJK") (b_ "1.1") (b_ "1") (b_ "3") [] (b_ "yi") (b_ "1") (b_ "2") (b_ "GHJKTV") (b_ "J0-437A")
    [] [] codes names type meaning on kun [].
Definition linked_files : Files :=
  MkFiles (levelFiles (sample_files [])) (kyuFiles (sample_files [])) (b_ "丈
万")
    [lrow (b_ "4E00") (b_ "一") [] [] [] (b_ "first") (b_ "ICHI") []; lrow (b_ "6B69") (b_ "歩") [] [] [] (b_ "walk") (b_ "HO") [];
     lrow (b_ "6B65") (b_ "步") [] [] [] (b_ "step") (b_ "HO") []; lrow (b_ "4E11") (b_ "丑") [] [] [] (b_ "cow") (b_ "CHUU") (b_ "USHI");
     lrow (b_ "4E14") (b_ "且") (b_ "4FCE,6B65") (b_ "俎,步") (b_ "Simplified") (b_ "moreover") (b_ "SHO") [];
     lrow (b_ "4E08") (b_ "丈") [] [] [] (b_ "length") (b_ "JOU") (b_ "TAKE");
     lrow (b_ "4E09") (b_ "三") [] [] [] (b_ "three") (b_ "SAN ZOU") (b_ "MITSU");
     lrow (b_ "4E07") (b_ "万") (b_ "842C") (b_ "萬") (b_ "Traditional*") (b_ "ten thousand") (b_ "BAN") []]
    sample_radicals [(b_ "万", b_ "マン")] sample_jouyou [] sample_jinmei sample_extra.
Example C107_files : files_ok linked_files.
Proof.
  split; [reflexivity|]. split; [reflexivity|].
  split; [|split]; [apply Forall_forall; intros [l c] H; cbn in H; repeat (destruct H as [H|H]; [inversion H; subst; vm_compute; repeat constructor|]); destruct H..|].
  vm_compute. repeat constructor.
Qed.
Example C107_bytes : Forall row_bytes (ucdRows linked_files).
Proof. apply Forall_forall. intros r H. cbn in H. repeat (destruct H as [<-|H]; [split; apply Forall_forall; intros c Hc; vm_compute in Hc; intuition (subst; reflexivity)|]). destruct H. Qed.
Example C107_example : exists e d, loadData true linked_files initStatic 0 = Val (e, d)
  /\ map (fun p => (kType (snd p), kDetails (snd p), kNewName (snd p), kOldNames (snd p), kLinkedReadings (snd p))) (dNames d) =
     [(Jouyou, MkDetails (b_ "one") (b_ "イチ") 1 0 None, None, [], false);
      (FrequencyType, MkDetails (b_ "ten thousand") (b_ "マン") 0 0 None, None, [b_ "萬"], true);
      (FrequencyType, MkDetails (b_ "length") (b_ "ジョウ、たけ") 0 0 None, None, [], false);
      (Kentei, MkDetails (b_ "three") (b_ "サン、ゾウ、みつ") 0 0 None, None, [], false);
      (Jinmei, MkDetails (b_ "cow") (b_ "うし") 1 1951 (Some 0), None, [], false);
      (Extra, MkDetails (b_ "also") (b_ "かつ") 1 0 None, Some (b_ "俎"), [], false);
      (LinkedOld, MkDetails (b_ "walk") (b_ "ホ") 0 0 None, Some (b_ "歩"), [], true);
      (Jouyou, MkDetails (b_ "walk") (b_ "ホ") 2 1981 None, None, [b_ "步"], false)].
Proof. eexists. eexists. split; vm_compute; reflexivity. Qed.
(** each loaded Kanji has a row of the Unicode data *)
Example C107_rows_there : exists e d, loadData true linked_files initStatic 0 = Val (e, d)
  /\ forallb (fun p => existsb (fun r => beq (rName r) (kName (snd p))) (ucdRows linked_files)) (dNames d) = true.
Proof. eexists. eexists. split; vm_compute; reflexivity. Qed.
