(** A small file system with a data directory. *)
From Verif Require Import BaseFacts LoadModel LoadSample DirModel DirSpec.
Open Scope N_scope.

Definition sample_table {R} (cols : list (bytes * (R -> bytes))) (rs : list R) : bytes :=
  unlines (join 9 (map fst cols) :: map (fun r => join 9 (map (fun c => snd c r) cols)) rs).
Definition sample_data : list (bytes * bytes) :=
  let f := sample_files sample_jouyou in
  [(b_ "ucd.txt", sample_table (rev ucd_columns) (ucdRows f));
   (b_ "radicals.txt", sample_table radical_columns (radicalRows f));
   (b_ "frequency-readings.txt", sample_table reading_columns (readingRows f));
   (b_ "frequency.txt", frequencyFile f);
   (b_ "jouyou.txt", sample_table jouyou_columns (jouyouRows f));
   (b_ "jinmei.txt", sample_table jinmei_columns (jinmeiRows f));
   (b_ "extra.txt", sample_table extra_columns (extraRows f));
   (b_ "linked-jinmei.txt", linkedFile f);
   (b_ "meaning-groups.txt", []); (b_ "pattern-groups.txt", [])].
Definition sample_levels : list (bytes * bytes) :=
  map (fun p => (snd (fst p) ++ b_ ".txt", snd (snd p))) (combine level_names (levelFiles (sample_files sample_jouyou))).
Definition sample_kyus : list (bytes * bytes) :=
  map (fun p => (snd (fst p) ++ b_ ".txt", snd (snd p))) (combine kyu_names (kyuFiles (sample_files sample_jouyou))).
Definition files_at (dir : bytes) (l : list (bytes * bytes)) : list (bytes * CountModel.node) :=
  map (fun p => (dir ++ b_ "/" ++ fst p, CountModel.File (snd p))) l.
Definition sample_entries (l : list (bytes * bytes)) : list (bytes * CountModel.node) := map (fun p => (fst p, CountModel.File (snd p))) l.
Definition data_entries : list (bytes * CountModel.node) :=
  (b_ "jlpt", CountModel.Dir (sample_entries sample_levels)) :: (b_ "kentei", CountModel.Dir (sample_entries sample_kyus)) :: sample_entries sample_data.
(** everything below a directory /home/kanji that contains data, and a program next to it *)
Definition sample_paths : list (bytes * CountModel.node) :=
  [(b_ "/home/kanji", CountModel.Dir [(b_ "data", CountModel.Dir data_entries); (b_ "quiz", CountModel.File [])]);
   (b_ "/home/kanji/quiz", CountModel.File []); (b_ "/home/kanji/bin", CountModel.Dir []);
   (b_ "/home/kanji/data", CountModel.Dir data_entries);
   (b_ "/home/kanji/data/jlpt", CountModel.Dir (sample_entries sample_levels));
   (b_ "/home/kanji/data/kentei", CountModel.Dir (sample_entries sample_kyus))]
  ++ files_at (b_ "/home/kanji/data") sample_data ++ files_at (b_ "/home/kanji/data/jlpt") sample_levels ++ files_at (b_ "/home/kanji/data/kentei") sample_kyus.
Definition sampleFs (p : bytes) : option CountModel.node := MapModel.mfind p sample_paths.
