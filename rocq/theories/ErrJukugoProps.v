(** Theorems about the messages about the Jukugo files. *)
From Verif Require Import BaseFacts StringModel DirPaths JukugoLines JukugoLoad ErrArgsProofs ErrListProofs ErrJukugoProofs ErrJukugoLoad.
From Verif Require Import ErrJukugoSpec.
Open Scope N_scope.
Arguments N.mul : simpl never.
Arguments N.add : simpl never.
Arguments N.sub : simpl never.

(** C127: apart from the texts these are the functions of C43, C84 and C115, whatever is printed *)
Theorem C127_same : forall std, (forall n r g, plain (newJukugoT std n r g) = newJukugo n r g)
  /\ (forall file c g d, plain (loadJukugoFileT std file c g d) = loadJukugoFile c g d)
  /\ forall fs mode f dir d, plain (newJukugoDataT std fs dir) = snd (newJukugoData fs mode f dir d).
Proof.
  intro std. split; [exact (newJukugoT_plain std)|]. split; [exact (loadFileT_plain std)|]. intros fs mode f dir d.
  assert (B : forall A B (m : L A) (k : A -> L B), snd (lbind m k) = obind (snd m) (fun x => snd (k x))).
  { intros A B [t [x|e| |]] k; cbn [lbind snd obind]; try reflexivity. destruct (k x). reflexivity. }
  unfold newJukugoData, newJukugoDataT. cbv zeta. rewrite B. cbn [lsay snd obind]. rewrite B.
  assert (K : forall files jd, plain (jukugoFilesT std fs (joinPath dir (b_ "jukugo")) files jd) = snd (jukugoFiles fs (isDebug mode) (joinPath dir (b_ "jukugo")) files jd)).
  { intros files. induction files as [|[file g] files IH]; intro jd; [reflexivity|]. cbn [jukugoFilesT jukugoFiles]. rewrite B. unfold jukugoFile. rewrite B. cbn [llift snd].
    rewrite plain_bind, getFile_plain. destruct (getFile fs _ file) as [p|e| |]; cbn [obind]; try reflexivity. rewrite B. cbn [llift snd].
    rewrite plain_bind, loadFileT_plain. destruct (loadJukugoFile (contentsOf fs p) g jd) as [jd'|e| |]; cbn [obind]; try reflexivity. rewrite B. cbn [lsay llift snd obind]. apply IH. }
  rewrite K. destruct (snd (jukugoFiles fs _ _ GradeFiles emptyJukugo)) as [jd|e| |]; cbn [obind]; try reflexivity.
Qed.
Print Assumptions C127_same.

Lemma grade_names : plain_names GradeFiles.
Proof.
  apply Forall_forall. intros x I. assert (K : forallb (fun f => negb (beq (fst f) []) && forallb (fun b => negb (b =? 47)) (fst f)) GradeFiles = true) by (vm_compute; reflexivity).
  rewrite forallb_forall in K. specialize (K x I). cbv beta in K. apply andb_true_iff in K. destruct K as [K1 K2]. split.
  - intro E. destruct x as [[|c n] g]; [discriminate K1|discriminate E].
  - intro S. rewrite forallb_forall in K2. specialize (K2 47 S). discriminate K2.
Qed.
(** C127: loading ends with a message exactly when a file is missing or a line is wrong, and the message is about the first of them *)
Theorem C127_message : forall std fs, (forall p c, is_file fs p c -> bytes_ok c /\ fits c) -> forall dir e w,
  newJukugoDataT std fs dir = Says e w <-> e = DomainError /\ files_say std fs (joinPath dir (b_ "jukugo")) GradeFiles w.
Proof.
  intros std fs H dir e w. unfold newJukugoDataT. split.
  - intro E. destruct (files_total std fs H (joinPath dir (b_ "jukugo")) GradeFiles grade_names) as [(ws & W & Lo)|[w' X]].
    + destruct (files_run std fs H _ GradeFiles [] emptyJukugo ws grade_names holds_start W Lo) as (d & G & _). rewrite G in E. discriminate E.
    + pose proof (files_fault std fs H _ _ _ grade_names X) as G. rewrite G in E.
      assert (K : e = DomainError /\ w' = w) by (clear - E; injection E as E1 E2; auto). destruct K as [-> ->]. auto.
  - intros [-> X]. exact (files_fault std fs H _ _ _ grade_names X).
Qed.
Print Assumptions C127_message.
(** C127: the words of all files are loaded, or there is exactly one message *)
Theorem C127_loaded_or_message : forall std fs, (forall p c, is_file fs p c -> bytes_ok c /\ fits c) -> forall dir,
  let j := joinPath dir (b_ "jukugo") in
  (exists ws d, newJukugoDataT std fs dir = Got d /\ files_words fs j GradeFiles ws /\ loadable ws /\ jUnique d = distinct ws
     /\ forall w, ~ files_say std fs j GradeFiles w)
  \/ exists w, files_say std fs j GradeFiles w /\ (forall w', files_say std fs j GradeFiles w' -> w' = w)
     /\ forall ws, files_words fs j GradeFiles ws -> ~ loadable ws.
Proof.
  intros std fs H dir j. destruct (files_total std fs H j GradeFiles grade_names) as [(ws & W & Lo)|[w X]].
  - left. destruct (files_run std fs H j GradeFiles [] emptyJukugo ws grade_names holds_start W Lo) as (d & G & Hd). exists ws, d.
    split; [exact G|]. split; [exact W|]. split; [exact Lo|]. split; [exact (h_unique _ _ Hd)|]. intros w X. rewrite (files_fault std fs H j _ w grade_names X) in G. discriminate G.
  - right. exists w. split; [exact X|]. pose proof (files_fault std fs H j _ w grade_names X) as E. split.
    + intros w' X'. pose proof (files_fault std fs H j _ w' grade_names X') as E'. rewrite E in E'. clear - E'. injection E' as E'. symmetry. exact E'.
    + intros ws W Lo. destruct (files_run std fs H j GradeFiles [] emptyJukugo ws grade_names holds_start W Lo) as (d & G & _). rewrite E in G. discriminate G.
Qed.
Print Assumptions C127_loaded_or_message.
(** C127: a word is refused by the constructor exactly when something is wrong with it *)
Theorem C127_word : forall std name reading g e w, bytes_ok name -> bytes_ok reading ->
  (newJukugoT std name reading g = Says e w <-> e = DomainError /\ exists why, word_says [] g name reading why /\ w = b_ "jukugo " ++ quoted name ++ b_ " " ++ why).
Proof.
  intros std name reading g e w Bn Br.
  assert (A : forall s, addJukugoT std name reading g emptyJukugo = Says DomainError s -> newJukugoT std name reading g = Says DomainError s).
  { intros s H. unfold addJukugoT in H. cbn [findUnique emptyJukugo jUnique find] in H. destruct (newJukugoT std name reading g) as [j|e' w'| |] eqn:E; cbn [rbind] in H; try discriminate H; [|clear - H; injection H as -> ->; reflexivity].
    exfalso. destruct (JukugoProofs.word_exists name Bn) as [ks K]. rewrite (JukugoProofs.kanjiOf_spec _ _ Bn K) in H. discriminate H. }
  split.
  - intro E. destruct (word_total [] emptyJukugo g name reading holds_start Bn Br) as [Lo|[why W]].
    + exfalso. destruct (add_step [] emptyJukugo (MkJukugo name reading g) holds_start (conj Bn Br)) as [[_ (d' & X & _)]|[NL _]]; [|contradiction].
      cbn [jName jReading jGrade] in X. rewrite <- (addJukugoT_plain std) in X. unfold addJukugoT in X. cbn [findUnique emptyJukugo jUnique find] in X. rewrite E in X. discriminate X.
    + pose proof (A _ (word_fault std [] emptyJukugo g name reading why holds_start Bn Br W)) as X. rewrite X in E.
      assert (K : e = DomainError /\ b_ "jukugo " ++ quoted name ++ b_ " " ++ why = w) by (clear - E; generalize dependent (b_ "jukugo " ++ quoted name ++ b_ " " ++ why); intros t E; injection E as E1 E2; auto).
      destruct K as [-> <-]. eauto.
  - intros [-> (why & W & ->)]. apply A. exact (word_fault std [] emptyJukugo g name reading why holds_start Bn Br W).
Qed.
Print Assumptions C127_word.

(** seven files, of which one is wrong *)
Definition jukugoFs (g2 other : bytes) (p : bytes) : option CountModel.node :=
  MapModel.mfind p
    [(b_ "/d/jukugo", CountModel.Dir []); (b_ "/d/jukugo/g1.txt", CountModel.File (b_ "一日 (いちにち)")); (b_ "/d/jukugo/g2.txt", CountModel.File g2);
     (b_ "/d/jukugo/g3", CountModel.File []); (b_ "/d/jukugo/g4.txt", CountModel.File []); (b_ "/d/jukugo/g5.txt", CountModel.File []);
     (b_ "/d/jukugo/g6.txt", CountModel.File []); (b_ "/d/jukugo/other.txt", CountModel.File other)].
Definition small (c : bytes) : bool := forallb (fun b => b <? 256) c && (len c <? 1000).
Lemma small_ok : forall c, small c = true -> bytes_ok c /\ fits c.
Proof.
  intros c H. apply andb_true_iff in H. destruct H as [A B]. split.
  - apply Forall_forall. intros b I. rewrite forallb_forall in A. specialize (A b I). apply N.ltb_lt. exact A.
  - unfold fits. apply N.ltb_lt in B. lia.
Qed.
Lemma jukugoFs_ok : forall g2 other, small g2 = true -> small other = true -> forall p c, is_file (jukugoFs g2 other) p c -> bytes_ok c /\ fits c.
Proof.
  intros g2 other A B p c (n & Hn & S). apply MapProofs.In_mfind in Hn. apply resolve_seen in S.
  repeat (destruct Hn as [Hn|Hn]; [injection Hn as _ <-; cbn in S; first [discriminate S|injection S as <-; first [apply small_ok; assumption|apply small_ok; vm_compute; reflexivity]]|]). destruct Hn.
Qed.
Example C127_case : forall std,
  let says g2 other w := files_say std (jukugoFs g2 other) (b_ "/d/jukugo") GradeFiles w in
  says (b_ "日本 (にほん)" ++ [10] ++ b_ "日本(にっぽん)") [] (b_ "open bracket should follow a space - line: 2, file: g2.txt")
  /\ says (b_ "日本 (ニホン)") [] (b_ "jukugo '日本' reading must be all Hiragana - line: 1, file: g2.txt")
  /\ says (b_ "一日 (いちにち)") [] (b_ "jukugo '一日' found in more than one file - line: 1, file: g2.txt")
  /\ says [] (b_ "本 ... 日本(にほん) 本や(ほんや)") (b_ "jukugo '本や' must contain two or more Kanji - line: 1, file: other.txt")
  /\ says [] (b_ "本 ...") (std StdOutOfRange ++ b_ " - line: 1, file: other.txt")
  /\ says [] (b_ "本 .. 日本(にほん)") (b_ "line is missing '...' - line: 1, file: other.txt").
Proof.
  intros std says.
  assert (K : forall g2 other w, small g2 = true -> small other = true -> newJukugoDataT std (jukugoFs g2 other) (b_ "/d") = Says DomainError w -> says g2 other w).
  { intros g2 other w A B H. apply (C127_message std _ (jukugoFs_ok g2 other A B)) in H. exact (proj2 H). }
  split; [apply K; vm_compute; reflexivity|]. split; [apply K; vm_compute; reflexivity|]. split; [apply K; vm_compute; reflexivity|].
  split; [apply K; vm_compute; reflexivity|]. split; [apply K; vm_compute; reflexivity|]. apply K; vm_compute; reflexivity.
Qed.
Example C127_loaded_case : forall std, exists d, newJukugoDataT std (jukugoFs (b_ "日本 (にほん)") (b_ "本 ... 本屋(ほんや)")) (b_ "/d") = Got d
  /\ map jName (jUnique d) = [b_ "一日"; b_ "日本"; b_ "本屋"].
Proof. intro std. eexists. split; [vm_compute; reflexivity|vm_compute; reflexivity]. Qed.
