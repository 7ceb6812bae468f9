(** C131: the messages of loading the Kanji. *)
From Coq Require Import Permutation Sorted.
From Verif Require Import BaseFacts ListProofs MapProofs DataProofs ErrTableProofs ErrListProofs ErrJukugoLoad DirProps DirPaths ErrUcdProps ErrOfficialTable ErrOfficialProps ErrListProps.
From Verif Require Import ErrLoadSame DataSpec DetailsModel.
From Verif Require Export ErrLoadSteps.
From Verif Require Import ErrBase.
Open Scope N_scope.
Arguments N.mul : simpl never. Arguments N.add : simpl never. Arguments N.sub : simpl never.

Lemma table_shows : forall load make rows says, table_gives load make rows says -> shows load (rows_of make rows says) eq.
Proof.
  intros load make rows says (G1 & G2 & G3 & G4). destruct load as [ks|x w| |].
  - destruct (G2 ks eq_refl) as (rs & Hr & F). exists (inl ks). split; [exists rs; auto|]. split; [|eauto]. intros [ks'|[x w]] H; cbn [rows_of] in H; [|apply G3 in H; discriminate H].
    destruct H as (rs' & Hr' & F'). destruct (G1 rs' Hr') as (ks2 & E & F2). injection E as <-. f_equal. clear - F' F2. revert F2. generalize dependent ks. induction F' as [|k r l l' H F' IH]; intros ks F2; inversion F2 as [|k2 r2 l2 l2' H2 F2']; subst; [reflexivity|].
    f_equal; [congruence|auto].
  - exists (inr (x, w)). split; [apply G3; reflexivity|]. split; [|reflexivity]. intros [ks|[x' w']] H; cbn [rows_of] in H; [destruct H as (rs & Hr & _); destruct (G1 rs Hr) as (ks2 & E & _); discriminate E|].
    apply G3 in H. injection H as -> ->. reflexivity.
  - exfalso. assert (N0 : ~ exists e w, says e w) by (intros (e & w & H); apply G3 in H; discriminate H). apply G4 in N0. destruct N0 as [rs Hr]. destruct (G1 rs Hr) as (ks & E & _). discriminate E.
  - exfalso. assert (N0 : ~ exists e w, says e w) by (intros (e & w & H); apply G3 in H; discriminate H). apply G4 in N0. destruct N0 as [rs Hr]. destruct (G1 rs Hr) as (ks & E & _). discriminate E.
Qed.
Lemma file_shows : forall fs dir name, name <> [] -> no_slash name ->
  shows (getFileT fs dir name) (file_of fs dir name) (fun q f => f = (fileName q, contentsOf fs q)).
Proof.
  intros fs dir name Hn Hs. destruct (getFileT fs dir name) as [q|x w| |] eqn:E.
  - exists (inl (fileName q, contentsOf fs q)). split; [apply (found_got fs); auto; exists q; auto|]. split; [|eauto]. intros [[f c]|[x w]] H; cbn [file_of] in H.
    + apply (found_got fs) in H; [|assumption..]. destruct H as (q' & G & -> & ->). assert (q' = q) by congruence. subst. reflexivity.
    + destruct H as [_ H]. apply getFile_says in H; [|assumption..]. congruence.
  - assert (x = DomainError) as ->.
    { clear - E. unfold getFileT in E. cbv zeta in E. destruct (negb (isDirectory fs dir)); [congruence|]. match type of E with (if ?b then _ else _) = _ => destruct b end; [congruence|].
      match type of E with (if ?b then _ else _) = _ => destruct b end; congruence. }
    exists (inr (DomainError, w)). split; [split; [reflexivity|apply getFile_says; assumption]|]. split; [|reflexivity]. intros [[f c]|[x w']] H; cbn [file_of] in H.
    + apply (found_got fs) in H; [|assumption..]. destruct H as (q' & G & _). congruence.
    + destruct H as [-> H]. apply getFile_says in H; [|assumption..]. congruence.
  - exfalso. destruct (C126_found_or_message fs dir name Hn Hs) as [(q & H & _)|(w & H & _)]; [congruence|]. apply getFile_says in H; [congruence|assumption..].
  - exfalso. destruct (C126_found_or_message fs dir name Hn Hs) as [(q & H & _)|(w & H & _)]; [congruence|]. apply getFile_says in H; [congruence|assumption..].
Qed.
Section Load.
Variable fs : bytes -> option CountModel.node.
Variable writable : bytes -> bool.
Variable reg : bytes -> registry.
Hypothesis Hfs : forall p c, is_file fs p c -> bytes_ok c.
Hypothesis Hreg : forall file, known (reg file).
Variable e : Env.
Variable rads : list RadicalRow.
Hypothesis Hrad : loadRadicals rads emptyRadicals = Val (envRadicals e).
Hypothesis Hread : forall s u, In (s, u) (ucdMap (envUcd e)) -> bytes_ok (ucdOn u) /\ bytes_ok (ucdKun u).
Lemma loads_shows : forall dir d ks, Books d ks -> shows (readKanjiT fs writable reg e dir d) (loads e fs writable dir ks) Books.
Proof.
  intros dir d ks HB. destruct (C130_kanji fs writable reg Hfs Hreg e rads Hrad dir) as (J1 & J2 & J3). apply table_shows in J1, J2, J3. unfold readKanjiT, loads.
  apply (shows_bind _ _ _ _ _ _ _ _ eq); [exact J1|]. intros jou jou' <-. apply (shows_bind _ _ _ _ _ _ _ _ Books); [apply same_each; [exact stores_shows|exact HB]|]. clear d ks HB. intros d ks HB. cbn [rbind].
  apply (shows_bind _ _ _ _ _ _ _ _ (fun q f => f = (fileName q, contentsOf fs q))); [apply file_shows; [discriminate|slashless]|]. intros q f ->. cbn [fst snd].
  apply (shows_ex _ _ _ _ (getlines 10 (contentsOf fs q))); [apply cut_getlines; reflexivity|intros y H; apply cut_getlines; exact H|].
  apply (shows_bind _ _ _ _ _ _ _ _ Books); [apply same_each; [intros l d' ks'; apply line_shows|]; eapply Books_same; [exact HB|reflexivity..]|]. clear d ks HB. intros d ks HB.
  destruct (order_is d ks HB) as [O1 O2]. apply (shows_ex _ _ _ _ (map snd (dNames d))); [exact O1|exact O2|]. clear O1 O2.
  apply (shows_bind _ _ _ _ _ _ _ _ Books).
  { apply (shows_each _ _ _ _ (fun p k => snd p = k)); [intros p k d' ks' H HB'; apply old_links_shows; assumption| |exact HB]. clear. induction (dNames d) as [|p m IH]; cbn [map]; constructor; [reflexivity|exact IH]. }
  clear d ks HB. intros d ks HB. apply (shows_bind _ _ _ _ _ _ _ _ eq); [exact J2|]. intros jin jin' <-.
  apply (shows_bind _ _ _ _ _ _ _ _ Books); [apply same_each; [intros k d' ks'; apply jinmei_shows|exact HB]|]. clear d ks HB. intros d ks HB. cbn [rbind].
  apply (shows_bind _ _ _ _ _ _ _ _ eq); [exact J3|]. intros ex ex' <-. apply (shows_bind _ _ _ _ _ _ _ _ Books); [apply same_each; [exact stores_shows|]; eapply Books_same; [exact HB|reflexivity..]|]. clear d ks HB. intros d ks HB. cbn [rbind].
  apply (shows_bind _ _ _ _ _ _ _ _ Books).
  { apply same_each; [intros p d' ks'; apply list_shows; exact (frequent_shows e Hread)|]. eapply Books_same; [exact HB|reflexivity..]. }
  clear d ks HB. intros d ks HB. apply (shows_bind _ _ _ _ _ _ _ _ Books); [apply list_shows; [exact (frequent_shows e Hread)|exact HB]|]. clear d ks HB. intros d ks HB.
  apply (shows_bind _ _ _ _ _ _ _ _ Books).
  { apply same_each; [intros p d' ks'; apply list_shows; intros i n; apply (examined_shows e Hread)|exact HB]. }
  clear d ks HB. intros d ks HB. apply entries_shows; [exact Hread|exact HB].
Qed.
End Load.
Lemma no_books : forall max, Books (newData max) [].
Proof. intro max. split; [|constructor]. destruct (insertAll_rep max []) as (d & E & R). injection E as <-. exact R. Qed.

(** The functions with texts are those of the other models. *)
Theorem C131_same : forall fs writable reg, (forall p c, is_file fs p c -> bytes_ok c) -> (forall file, known (reg file)) ->
  (forall e o n k, plain (makeLinkedT e o n k) = makeLinked e o n k)
  /\ (forall full e dir d, plain (readKanjiT fs writable reg e dir d) = snd (readKanji fs writable reg full e dir d))
  /\ (forall ltr dir st, plain (readEnvT fs writable reg ltr dir st) = readEnv fs writable reg ltr dir st)
  /\ (forall sort mode ltr dir st max, plain (loadDirT fs writable reg sort mode ltr dir st max) = snd (loadDir fs writable reg sort mode ltr dir st max)).
Proof.
  intros fs writable reg Hf Hk. split; [exact makeLinked_plain|]. split; [exact (readKanji_plain fs writable reg Hk)|]. split; [exact (readEnv_plain fs writable reg Hk Hf)|exact (loadDir_plain fs writable reg Hk Hf)].
Qed.
Print Assumptions C131_same.

(** Loading the Kanji of a directory has exactly one result, that of the steps in order: the Kanji that are stored, found by the
    names that lead to them, or the message of the first thing that is wrong. *)
Theorem C131_kanji : forall fs writable reg, (forall p c, is_file fs p c -> bytes_ok c) -> (forall file, known (reg file)) ->
  forall e radicals, loadRadicals radicals emptyRadicals = Val (envRadicals e) ->
  (forall s u, In (s, u) (ucdMap (envUcd e)) -> bytes_ok (ucdOn u) /\ bytes_ok (ucdKun u)) -> forall dir max,
  (exists r, loads e fs writable dir [] r /\ forall r', loads e fs writable dir [] r' -> r' = r)
  /\ (forall x w, readKanjiT fs writable reg e dir (newData max) = Says x w <-> loads e fs writable dir [] (inr (x, w)))
  /\ ((exists d, readKanjiT fs writable reg e dir (newData max) = Got d) <-> exists ks, loads e fs writable dir [] (inl ks))
  /\ forall d ks, readKanjiT fs writable reg e dir (newData max) = Got d -> loads e fs writable dir [] (inl ks) ->
     NoDup (map kName ks) /\ (forall n k, mfind n (dNames d) = Some k <-> In k ks /\ kName k = n) /\ (forall n k, findByName d n = Some k <-> reached ks n k).
Proof.
  intros fs writable reg Hf Hk e rads Hr Hd dir max. destruct (loads_shows fs writable reg Hf Hk e rads Hr Hd dir _ _ (no_books max)) as (r & L & U & H).
  split; [exists r; auto|]. destruct r as [ks|[x0 w0]].
  - destruct H as (d & E & HB). split; [|split].
    + intros x w. split; [congruence|]. intro X. apply U in X. discriminate X.
    + split; eauto.
    + intros d' ks' E' L'. apply U in L'. injection L' as ->. assert (d' = d) by congruence. subst d'. split; [apply HB|]. split; [exact (named_iff d ks HB)|]. intros n k. symmetry. exact (reached_iff d ks HB n k).
  - split; [|split].
    + intros x w. split; [intro X; assert (x = x0 /\ w = w0) as [-> ->] by (split; congruence); exact L|]. intro X. apply U in X. injection X as -> ->. exact H.
    + split; [intros [d X]; congruence|]. intros [ks X]. apply U in X. discriminate X.
    + intros d ks E. congruence.
Qed.
Print Assumptions C131_kanji.

(** Directories of a few lines: a file that is missing, a line of linked-jinmei.txt without a tab, one that begins with an unknown Kanji
    (both as in TextKanjiDataTest.cpp:443-460 for their testFile.txt), one whose old form has no Unicode entry; an Extra Kanji in the
    list of a level, for which the message tells neither the Kanji nor the file; and a directory that is loaded. *)
Definition dirFs (l : list (bytes * bytes)) (p : bytes) : option CountModel.node :=
  if beq p (b_ "/d") then Some (CountModel.Dir []) else option_map (fun q => CountModel.File (snd q)) (find (fun q => beq p (b_ "/d/" ++ fst q ++ b_ ".txt")) l).
Lemma dirFs_ok : forall l, forallb (fun q => small_bytes (snd q)) l = true -> forall p c, is_file (dirFs l) p c -> bytes_ok c.
Proof.
  intros l H p c (n & Hn & S1). apply resolve_seen in S1. unfold dirFs in Hn. destruct (beq p (b_ "/d")); [injection Hn as <-; discriminate S1|].
  destruct (find (fun q => beq p (b_ "/d/" ++ fst q ++ b_ ".txt")) l) as [q|] eqn:E; [|discriminate Hn]. apply find_some in E. destruct E as [I _]. injection Hn as <-. cbn in S1. injection S1 as <-.
  rewrite forallb_forall in H. apply H in I. unfold small_bytes in I. rewrite forallb_forall in I. apply Forall_forall. intros x Hx. apply N.ltb_lt. exact (I x Hx).
Qed.
Definition levelEnv (level : list bytes) : Env :=
  MkEnv emptyUcdData (envRadicals caseEnv) [(N5, MkList level (map (fun n => (n, 0)) level))] [] emptyList [] true.
Example C131_case :
  let loads5 level files := loads (levelEnv level) (dirFs files) every (b_ "/d") [] in
  let jouyou old := (b_ "jouyou", line_of jouyou_names ++ line_of [b_ "1"; b_ "亜"; b_ "一"; b_ "ア"; old; []; b_ "7"; b_ "S"; b_ "sub-"]) in
  let rest := [(b_ "jinmei", line_of jinmei_names); (b_ "linked-jinmei", []); (b_ "extra", line_of extra_names ++ line_of [b_ "1"; b_ "霙"; b_ "一"; b_ "エイ"; b_ "16"; b_ "sleet"])] in
  loads5 [] [jouyou []] (inr (DomainError, b_ "/d must contain 'linked-jinmei' (also tried '.txt' extension)"))
  /\ loads5 [] [jouyou []; (b_ "linked-jinmei", b_ "亜亞")] (inr (DomainError, b_ "bad line '亜亞' - file: linked-jinmei.txt"))
  /\ loads5 [] [jouyou []; (b_ "linked-jinmei", b_ "䌶" ++ 9 :: b_ "亞")] (inr (DomainError, b_ "'䌶' not found - file: linked-jinmei.txt"))
  /\ loads5 [] (jouyou (b_ "亞") :: rest) (inr (DomainError, b_ "UCD entry not found: 亞"))
  /\ loads5 [b_ "霙"] (jouyou [] :: rest) (inr (RangeError, b_ "index 'enum value 5' is out of range"))
  /\ exists ks, loads5 [b_ "亜"] (jouyou [] :: rest) (inl ks) /\ In (b_ "亜") (map kName ks) /\ In (b_ "霙") (map kName ks).
Proof.
  intros loads5 jouyou rest.
  assert (K : forall level files, forallb (fun q => small_bytes (snd q)) files = true ->
    shows (readKanjiT (dirFs files) every (fun _ => []) (levelEnv level) (b_ "/d") (newData 100)) (loads5 level files) Books).
  { intros level files A. apply (loads_shows _ every (fun _ => []) (dirFs_ok files A) (fun _ => none_known) (levelEnv level) [MkRadicalRow (b_ "1") (b_ "一") (b_ "いち") (b_ "いち")]).
    - vm_compute. reflexivity.
    - intros s u [].
    - apply no_books. }
  assert (K1 : forall level files x w, forallb (fun q => small_bytes (snd q)) files = true ->
    readKanjiT (dirFs files) every (fun _ => []) (levelEnv level) (b_ "/d") (newData 100) = Says x w -> loads5 level files (inr (x, w))).
  { intros level files x w A E. destruct (K level files A) as ([ks|[x' w']] & L & _ & H); [destruct H as (d & E' & _); congruence|]. assert (x' = x /\ w' = w) as [-> ->] by (split; congruence). exact L. }
  do 5 (split; [apply K1; vm_compute; reflexivity|]).
  destruct (K [b_ "亜"] (jouyou [] :: rest)) as (r & L & _ & H); [vm_compute; reflexivity|]. destruct r as [ks|[x w]].
  - exists ks. split; [exact L|]. destruct H as (d & E & HB).
    assert (M : forall n, (exists k, mfind n (dNames d) = Some k) -> In n (map kName ks)).
    { intros n [k M]. apply (named_iff d ks HB) in M. destruct M as [I <-]. apply in_map. exact I. }
    split; apply M; clear - E; revert E; vm_compute; intro E; injection E as <-; eexists; reflexivity.
  - exfalso. revert H. vm_compute. discriminate.
Qed.
(** The message of OfficialKanjiTest.cpp:342-348, for the link to a Kanji that is not a Jouyou one. *)
Example C131_link : forall k, kName k = b_ "呑" -> kType k = Extra ->
  linked caseEnv true (b_ "艷") k (inr (DomainError, b_ "OfficialLinkedKanji 艷 wanted type 'Jouyou' for link 呑, but got 'Extra'"))
  /\ linked caseEnv false (b_ "亙") k (inr (DomainError, b_ "OfficialLinkedKanji 亙 wanted type 'Jouyou' or 'Jinmei' for link 呑, but got 'Extra'")).
Proof.
  intros k H1 H2. split.
  - destruct (linked_shows caseEnv true (b_ "艷") k) as (r & L & _ & H). unfold makeLinkedT in H. rewrite H1, H2 in H. destruct r as [x|[x w]].
    + destruct H as (a & E & _). exfalso. revert E. vm_compute. discriminate.
    + revert H. vm_compute. intro H. injection H as <- <-. exact L.
  - destruct (linked_shows caseEnv false (b_ "亙") k) as (r & L & _ & H). unfold makeLinkedT in H. rewrite H1, H2 in H. destruct r as [x|[x w]].
    + destruct H as (a & E & _). exfalso. revert E. vm_compute. discriminate.
    + revert H. vm_compute. intro H. injection H as <- <-. exact L.
Qed.
