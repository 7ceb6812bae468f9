(** Property theorems about Jukugo (compound words). *)
From Verif Require Import BaseFacts JukugoModel JukugoSpec JukugoProofs JukugoLines JukugoLoad JukugoSample.
Open Scope N_scope.

(** C84: a word is accepted exactly when it has two or more Kanji and no multi-byte character
    of its reading is something else than Hiragana or the prolong mark *)
Theorem C84_accepted : forall name reading grade, bytes_ok name -> bytes_ok reading ->
  let j := MkJukugo name reading grade in
  (newJukugo name reading grade = Val j <-> good_word j)
  /\ (newJukugo name reading grade = Throw DomainError <-> ~ good_word j).
Proof.
  intros name reading grade H1 H2 j. destruct (new_jukugo name reading grade H1 H2) as [[G E]|[G E]]; fold j in G, E; rewrite E;
    split; split; intro X; auto; try discriminate; contradiction.
Qed.
Print Assumptions C84_accepted.
Example C84_case : newJukugo (b_ "朝ご飯") (b_ "あさごはん") 1 = Val (MkJukugo (b_ "朝ご飯") (b_ "あさごはん") 1)
  /\ newJukugo (b_ "ご飯") (b_ "ごはん") 1 = Throw DomainError
  /\ newJukugo (b_ "朝日") (b_ "アサヒ") 1 = Throw DomainError
  /\ newJukugo (b_ "一日") (b_ "いちー") 1 = Val (MkJukugo (b_ "一日") (b_ "いちー") 1).
Proof. repeat split; vm_compute; reflexivity. Qed.

(** C84: what counts as Kanji is the Unicode categories *)
Theorem C84_kanji : forall c, (is_kanji c = true <-> kanji c) /\ (is_hiragana c = true <-> hiragana c).
Proof. intro c. exact (conj (is_kanji_iff c) (is_hiragana_iff c)). Qed.
Print Assumptions C84_kanji.

(** C84: the documented "reading must be all Hiragana" is false: Ascii is not looked at *)
Theorem C84_reading_refuted : exists name reading, bytes_ok name /\ bytes_ok reading
  /\ Forall (fun b => b < 0x80) reading /\ reading <> []
  /\ newJukugo name reading 1 = Val (MkJukugo name reading 1).
Proof.
  exists (b_ "日本"), (b_ "nippon").
  split; [apply sample_ok; vm_compute; reflexivity|]. split; [apply sample_ok; vm_compute; reflexivity|].
  split; [apply Forall_forall; apply forallb_lt; vm_compute; reflexivity|]. split; [discriminate|vm_compute; reflexivity].
Qed.
Print Assumptions C84_reading_refuted.

(** C43: loading succeeds exactly when every line has the form of its file, every word is
    accepted and no word with the same reading is in files of different grades; otherwise
    there is a DomainError *)
Theorem C43_load : forall f, files_fit f ->
  ((exists d, loadJukugo f = Val d) <-> exists js, all_words f js /\ loadable js)
  /\ ((forall d, loadJukugo f <> Val d) -> loadJukugo f = Throw DomainError).
Proof.
  intros f F. destruct (load_cases f F) as [(js & d & A & E & H)|[E N]]; rewrite E.
  - split; [|intro X; exfalso; exact (X d eq_refl)]. split; [|intros _; exists d; reflexivity].
    intros _. exists js. split; [exact A|exact (h_loadable _ _ H)].
  - split; [|reflexivity]. split; [intros [d X]; discriminate|]. intros [js [A L]]. exfalso. exact (N js A L).
Qed.
Print Assumptions C43_load.

(** C43: the words of a set of files are determined *)
Theorem C43_words_unique : forall f a b, all_words f a -> all_words f b -> a = b.
Proof. exact all_words_unique. Qed.
Print Assumptions C43_words_unique.

(** C43: after loading, find gives the words in the order of their first lines, each as often
    as the Kanji occurs in it *)
Theorem C43_find_exact : forall f js d kf, files_fit f -> loadJukugo f = Val d -> all_words f js ->
  (forall j, In j js -> word_kanji (jName j) (kf j)) ->
  forall k, jFind d k = flat_map (fun j => repeat j (occurs k (kf j))) (distinct js).
Proof.
  intros f js d kf F E A K k. destruct (load_cases f F) as [(js' & d' & A' & E' & H)|[E' N]]; rewrite E in E'; [|discriminate].
  inversion E'; subst d'. rewrite (all_words_unique _ _ _ A A') in *. apply (h_find _ _ H). exact K.
Qed.
Print Assumptions C43_find_exact.

(** C43: where no word repeats a Kanji, find gives exactly the words with it, each once, in
    the order of their first lines *)
Theorem C43_find_partial : forall f js d kf, files_fit f -> loadJukugo f = Val d -> all_words f js ->
  (forall j, In j js -> word_kanji (jName j) (kf j) /\ NoDup (kf j)) ->
  forall k, jFind d k = filter (fun j => existsb (beq k) (kf j)) (distinct js) /\ NoDup (jFind d k).
Proof.
  intros f js d kf F E A K k. rewrite (C43_find_exact f js d kf F E A (fun j Hj => proj1 (K j Hj)) k).
  assert (X : flat_map (fun j => repeat j (occurs k (kf j))) (distinct js) = filter (fun j => existsb (beq k) (kf j)) (distinct js)).
  { apply once_each. intros j Hj. apply (K j). apply distinct_in. exact Hj. }
  rewrite X. split; [reflexivity|]. apply NoDup_filter. apply distinct_nodup.
Qed.
Print Assumptions C43_find_partial.

(** a word in two lines of one file, words sharing a Kanji, and one of the other file *)
Example C43_case : files_fit sample_files /\ all_words sample_files sample_words /\ loadable sample_words
  /\ exists d, loadJukugo sample_files = Val d
     /\ jFind d (b_ "日") = [sample_word1; sample_word2] /\ jFind d (b_ "本") = [sample_word2; sample_word3]
     /\ jFind d (b_ "x") = [].
Proof.
  split; [exact sample_fit|]. split; [exact sample_all|]. split; [exact sample_loadable|].
  eexists. split; [vm_compute; reflexivity|]. repeat split; vm_compute; reflexivity.
Qed.

(** C43: a word that repeats a Kanji is listed twice *)
Theorem C43_once_refuted : exists f d k j, files_fit f /\ loadJukugo f = Val d /\ jFind d k = [j; j].
Proof.
  exists twice_files. eexists. exists (b_ "人"), (MkJukugo (b_ "人人") (b_ "ひとびと") 1).
  split; [exact twice_fit|]. split; [vm_compute; reflexivity|vm_compute; reflexivity].
Qed.
Print Assumptions C43_once_refuted.
