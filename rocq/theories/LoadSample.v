(** A small data directory. *)
From Verif Require Import BaseFacts LoadModel LoadSpec.
Open Scope N_scope.
Definition urow (code name radical strokes vstrokes : bytes) : UcdRow :=
  MkUcdRow code name (b_ "CJK") (b_ "1.1") radical strokes vstrokes (b_ "yi") (b_ "1") (b_ "2") (b_ "GHJKTV") (b_ "J0-437A")
    [] [] [] [] [] (b_ "meaning") (b_ "ICHI") [] [].
Definition sample_radicals : list RadicalRow :=
  [MkRadicalRow (b_ "1") (b_ "一") (b_ "一部") (b_ "いち"); MkRadicalRow (b_ "2") (b_ "止") (b_ "止部") (b_ "とめる")].
Definition sample_jouyou : list KanjiRow :=
  [MkKanjiRow (b_ "1") (b_ "一") (b_ "一") (b_ "イチ") [] (b_ "") (b_ "1") (b_ "1") (b_ "one") [];
   MkKanjiRow (b_ "2") (b_ "歩") (b_ "止") (b_ "ホ") (b_ "步") (b_ "1981") (b_ "8") (b_ "2") (b_ "walk") []].
Definition sample_jinmei : list KanjiRow :=
  [MkKanjiRow (b_ "1") (b_ "丑") (b_ "一") (b_ "うし") [] (b_ "1951") [] [] [] (b_ "Names")].
Definition sample_extra : list KanjiRow :=
  [MkKanjiRow (b_ "1") (b_ "且") (b_ "一") (b_ "かつ") [] [] (b_ "5") [] (b_ "also") []].
Definition sample_ucd : list UcdRow :=
  [urow (b_ "4E00") (b_ "一") (b_ "1") (b_ "1") []; urow (b_ "6B69") (b_ "歩") (b_ "2") (b_ "8") [];
   urow (b_ "6B65") (b_ "步") (b_ "2") (b_ "7") []; urow (b_ "4E11") (b_ "丑") (b_ "1") (b_ "4") [];
   urow (b_ "4E14") (b_ "且") (b_ "1") (b_ "5") []; urow (b_ "4E08") (b_ "丈") (b_ "1") (b_ "3") [];
   urow (b_ "4E09") (b_ "三") (b_ "1") (b_ "3") []; urow (b_ "4E07") (b_ "万") (b_ "1") (b_ "3") []].
Definition sample_files (jouyou : list KanjiRow) : Files :=
  MkFiles [(N5, b_ "一"); (N4, []); (N3, b_ "歩 丑"); (N2, []); (N1, [])]
    [(K10, b_ "一"); (K9, b_ "歩"); (K8, []); (K7, []); (K6, []); (K5, []); (K4, []); (K3, []); (KJ2, []); (K2, []);
     (KJ1, []); (K1, b_ "三 且")]
    (b_ "歩
丈
且") sample_ucd sample_radicals [] jouyou [] sample_jinmei sample_extra.
(** name, type number, frequency, level and kyu *)
Definition brief (k : Kanji) : bytes * KanjiTypes * N * JlptLevels * KenteiKyus := (kName k, kType k, kFrequency k, kLevel k, kKyu k).
Lemma sample_ok : forall j, files_ok (sample_files j).
Proof.
  intro j. split; [reflexivity|]. split; [reflexivity|].
  split; [|split]; [apply Forall_forall; intros [l c] H; cbn in H; repeat (destruct H as [H|H]; [inversion H; subst; vm_compute; repeat constructor|]); destruct H..|].
  vm_compute. repeat constructor.
Qed.
