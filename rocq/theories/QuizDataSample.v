(** A small file system with groups and Jukugo. *)
From Verif Require JukugoSample.
From Verif Require Import BaseFacts LoadModel LoadSample DirModel DirSpec DirSample QuizDataModel QuizDataSpec.
Open Scope N_scope.

Definition meaning_rows : list GroupRow :=
  [MkGroupRow (b_ "1") (b_ "数") (b_ "一,万,三"); MkGroupRow (b_ "2") (b_ "奇数") (b_ "一,三"); MkGroupRow (b_ "12") (b_ "始まり") (b_ "一,歩")].
Definition pattern_rows : list GroupRow :=
  [MkGroupRow (b_ "7") (b_ "一：イチ") (b_ "三"); MkGroupRow (b_ "8") (b_ "：ホ") (b_ "步,歩,一")].
(** the second row has two unknown members *)
Definition bad_rows : list GroupRow :=
  [MkGroupRow (b_ "7") (b_ "一：イチ") (b_ "三"); MkGroupRow (b_ "8") (b_ "：ホ") (b_ "步,x,歩,y"); MkGroupRow (b_ "9") [] (b_ "z")].
Definition group_files (mr pr : list GroupRow) : list (bytes * bytes) :=
  [(b_ "meaning-groups.txt", sample_table group_columns mr); (b_ "pattern-groups.txt", sample_table (rev group_columns) pr)].
Definition jukugo_files : list (bytes * bytes) :=
  let f := JukugoSample.sample_files in
  [(b_ "g1.txt", fG1 f); (b_ "g2.txt", fG2 f); (b_ "g3.txt", fG3 f); (b_ "g4.txt", fG4 f); (b_ "g5.txt", fG5 f); (b_ "g6.txt", fG6 f);
   (b_ "other.txt", fOther f)].
Definition quiz_paths (mr pr : list GroupRow) : list (bytes * CountModel.node) :=
  files_at (b_ "/home/kanji/data") (group_files mr pr) ++ [(b_ "/home/kanji/data/jukugo", CountModel.Dir (sample_entries jukugo_files))]
  ++ files_at (b_ "/home/kanji/data/jukugo") jukugo_files ++ sample_paths.
Definition quizFs (mr pr : list GroupRow) (p : bytes) : option CountModel.node := MapModel.mfind p (quiz_paths mr pr).
Definition sampleDir : bytes := b_ "/home/kanji/data".
