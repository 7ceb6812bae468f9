(** Theorems about the messages about files and lists. *)
From Verif Require Import BaseFacts StringModel StringSpec StringProofs DirPaths ErrArgsProps ErrListSpec ErrListProofs ErrListRun.
From Verif Require Import ErrBase.
From Verif Require Import ListModel ListSpec ListProofs.
Open Scope N_scope.

(** C126: apart from the texts these are the functions of C15, C16 and C110 *)
Theorem C126_same : forall fs, (forall dir file, ErrBase.plain (getFileT fs dir file) = getFile fs dir file)
  /\ forall k ft p given st st',
    (forall l, newListT fs k ft p given st = Val (st', inl l) <-> exists q, listFile fs p = Val q /\ construct k ft (contentsOf fs q) st = Val (st', inl l))
    /\ ((exists w, newListT fs k ft p given st = Val (st', inr w))
        <-> (listFile fs p = Throw DomainError /\ st' = st) \/ exists q e, listFile fs p = Val q /\ construct k ft (contentsOf fs q) st = Val (st', inr e)).
Proof.
  intro fs. split; [exact (getFile_plain fs)|]. intros k ft p given st st'. unfold newListT, listFile. cbv zeta.
  set (f := if negb (isRegular fs p) && negb (hasExtension p) then p ++ TextFileExtension else p). destruct (isRegular fs f); cbn [negb].
  - destruct (construct k ft (contentsOf fs f) st) as [[s [l|e]]|x| |] eqn:C; cbn [obind]; split; [intro l0|..| intro l0| |intro l0| |intro l0| |intro l0|];
      split; intro H.
    all: try discriminate H. all: try (match type of H with ex _ => destruct H as [? H]; discriminate H end).
    + injection H as -> ->. eauto.
    + destruct H as (q & Q & H). injection Q as <-. rewrite C in H. injection H as -> ->. reflexivity.
    + destruct H as [[H _]|(q & e & Q & H)]; [discriminate H|]. injection Q as <-. rewrite C in H. discriminate H.
    + destruct H as (q & Q & H). injection Q as <-. rewrite C in H. discriminate H.
    + destruct H as [w H]. injection H as -> _. right. eauto.
    + destruct H as [[H _]|(q & e' & Q & H)]; [discriminate H|]. injection Q as <-. rewrite C in H. injection H as -> ->. eauto.
    + destruct H as (q & Q & H). injection Q as <-. rewrite C in H. discriminate H.
    + destruct H as [[H _]|(q & e' & Q & H)]; [discriminate H|]. injection Q as <-. rewrite C in H. discriminate H.
    + destruct H as (q & Q & H). injection Q as <-. rewrite C in H. discriminate H.
    + destruct H as [[H _]|(q & e' & Q & H)]; [discriminate H|]. injection Q as <-. rewrite C in H. discriminate H.
    + destruct H as (q & Q & H). injection Q as <-. rewrite C in H. discriminate H.
    + destruct H as [[H _]|(q & e' & Q & H)]; [discriminate H|]. injection Q as <-. rewrite C in H. discriminate H.
  - split; [intro l|]; split; intro H; try discriminate H.
    + destruct H as (q & Q & _). discriminate Q.
    + destruct H as [w H]. injection H as -> _. left. auto.
    + destruct H as [[_ ->]|(q & e & Q & _)]; [eauto|discriminate Q].
Qed.
Print Assumptions C126_same.

(** C126: a file is not found exactly when something is wrong, and the message says what *)
Theorem C126_get_file : forall fs dir name w, name <> [] -> no_slash name ->
  (getFileT fs dir name = Says DomainError w <-> file_says fs dir name w).
Proof. exact getFile_says. Qed.
Print Assumptions C126_get_file.
(** C126: otherwise the path of a regular file is returned, with .txt only when the name has no extension and is not a file itself *)
Theorem C126_found : forall fs dir name q, name <> [] -> no_slash name ->
  (getFileT fs dir name = Got q <-> exists p c, is_dir fs dir /\ child dir name p
     /\ ((q = p /\ is_file fs p c) \/ (no_file fs p /\ ~ has_ext name /\ q = p ++ b_ ".txt" /\ is_file fs q c))).
Proof. exact getFile_got. Qed.
Print Assumptions C126_found.
(** C126: one of the two happens, and nothing else *)
Theorem C126_found_or_message : forall fs dir name, name <> [] -> no_slash name ->
  (exists q, getFileT fs dir name = Got q /\ forall w, ~ file_says fs dir name w)
  \/ exists w, file_says fs dir name w /\ forall w', file_says fs dir name w' -> w' = w.
Proof.
  intros fs dir name Hn Hs.
  assert (T : (exists q, getFileT fs dir name = Got q) \/ exists w, getFileT fs dir name = Says DomainError w).
  { unfold getFileT. cbv zeta. destruct (negb (isDirectory fs dir)); [right; eexists; reflexivity|].
    set (f := if negb (isRegular fs (joinPath dir name)) && negb (hasExtension name) then _ else _).
    destruct (negb (isThere fs f)); [right; destruct (hasExtension name); eexists; reflexivity|]. destruct (negb (isRegular fs f)); [right|left]; eexists; reflexivity. }
  destruct T as [[q Q]|[w W]].
  - left. exists q. split; [exact Q|]. intros w H. apply (getFile_says fs dir name w Hn Hs) in H. rewrite Q in H. discriminate H.
  - right. exists w. split; [apply (getFile_says fs dir name w Hn Hs); exact W|]. intros w' H. apply (getFile_says fs dir name w' Hn Hs) in H.
    rewrite W in H. clear -H. injection H as H. symmetry. exact H.
Qed.
Print Assumptions C126_found_or_message.

(** C126: a list is refused exactly with the message about the first thing wrong *)
Theorem C126_list : forall fs k ft p given st, (forall q c, is_file fs q c -> bytes_ok c) ->
  forall w, (exists st', newListT fs k ft p given st = Val (st', inr w))
    <-> list_says fs (kind_type k ft) (negb (kind_eqb k PlainList)) (uniqueOf st k) p given w.
Proof. intros fs k ft p given st H. exact (newList_says fs H k ft p given st). Qed.
Print Assumptions C126_list.
(** C126: a list is loaded, or exactly one message is given *)
Theorem C126_loaded_or_message : forall fs k ft p given st, (forall q c, is_file fs q c -> bytes_ok c) ->
  let says := list_says fs (kind_type k ft) (negb (kind_eqb k PlainList)) (uniqueOf st k) p given in
  (exists st' l, newListT fs k ft p given st = Val (st', inl l) /\ forall w, ~ says w) \/ exists w, says w /\ forall w', says w' -> w' = w.
Proof.
  intros fs k ft p given st H says. destruct (newList_cases fs H k ft p given st) as [(st' & l & E)|[w W]].
  - left. exists st', l. split; [exact E|]. intros w W. apply (newList_says fs H k ft p given st) in W. destruct W as [s W]. rewrite E in W. discriminate W.
  - right. exists w. split; [exact W|]. intros w' W'. apply (newList_says fs H k ft p given st) in W, W'. destruct W as [s W], W' as [s' W'].
    rewrite W in W'. injection W' as _ E. symmetry. exact E.
Qed.
Print Assumptions C126_loaded_or_message.

(** a directory with a list, a directory with the name of a list and a list with a word twice *)
Definition exampleFs (p : bytes) : option CountModel.node :=
  MapModel.mfind p
    [(b_ "/d", CountModel.Dir [(b_ "n5.txt", CountModel.File (b_ "一 二")); (b_ "sub.txt", CountModel.Dir []); (b_ "twice.txt", CountModel.File [])]);
     (b_ "/d/n5.txt", CountModel.File (b_ "一 二")); (b_ "/d/sub.txt", CountModel.Dir []);
     (b_ "/d/twice.txt", CountModel.File (b_ "一 二" ++ [10] ++ b_ "三 二" ++ [10] ++ b_ "abc"))].
Lemma example_ok : forall q c, is_file exampleFs q c -> bytes_ok c.
Proof.
  intros q c (n & H & S). unfold exampleFs in H. apply MapProofs.In_mfind in H. apply resolve_seen in S.
  assert (C : forall x, existsb (fun e => match CountModel.resolve (snd e) with Some (CountModel.File t) => negb (forallb (fun b => b <? 256) t) | _ => false end) x = false ->
    In (q, n) x -> bytes_ok c).
  { intros x E I. apply Forall_forall. intros b B. destruct (b <? 256) eqn:Lt; [apply N.ltb_lt; exact Lt|]. exfalso.
    assert (existsb (fun e => match CountModel.resolve (snd e) with Some (CountModel.File t) => negb (forallb (fun b => b <? 256) t) | _ => false end) x = true); [|congruence].
    apply existsb_exists. exists (q, n). split; [exact I|]. cbn [snd]. rewrite S. apply negb_true_iff. destruct (forallb (fun b => b <? 256) c) eqn:F; [|reflexivity].
    rewrite forallb_forall in F. specialize (F b B). congruence. }
  eapply C; [|exact H]. vm_compute. reflexivity.
Qed.
Example C126_file_case : file_says exampleFs (b_ "/e") (b_ "n5") (b_ "/e is not a directory")
  /\ file_says exampleFs (b_ "/d") (b_ "n6") (b_ "/d must contain 'n6' (also tried '.txt' extension)")
  /\ file_says exampleFs (b_ "/d") (b_ "n6.txt") (b_ "/d must contain 'n6.txt'")
  /\ file_says exampleFs (b_ "/d") (b_ "sub") (b_ "sub must be a regular file") /\ getFileT exampleFs (b_ "/d") (b_ "n5") = Got (b_ "/d/n5.txt").
Proof.
  assert (K : forall d n w, forallb (fun b => negb (b =? 47)) n = true -> n <> [] -> getFileT exampleFs d n = Says DomainError w -> file_says exampleFs d n w).
  { intros d n w F N H. apply getFile_says; [exact N| |exact H]. intro I. rewrite forallb_forall in F. specialize (F 47 I). discriminate F. }
  split; [|split; [|split; [|split]]]; [apply K; [reflexivity|discriminate|vm_compute; reflexivity]..|vm_compute; reflexivity].
Qed.
Definition takenStatic : list_static := MkStatic (fun _ => [b_ "二"]) (fun _ => true).
Example C126_list_case :
  list_says exampleFs MultiplePerLine false [] (b_ "/d/twice") [] (b_ "got duplicate token '二 - line: 2, file: /d/twice.txt")
  /\ list_says exampleFs OnePerLine false [] (b_ "/d/twice") [] (b_ "got multiple tokens - line: 1, file: /d/twice.txt")
  /\ list_says exampleFs MultiplePerLine false [b_ "二"] (b_ "/d/n5.txt") [] (b_ "found globally non-unique entry '二' - line: 1, file: /d/n5.txt")
  /\ list_says exampleFs MultiplePerLine true [b_ "二"] (b_ "/d/n5") (b_ "N5") (b_ "found 1 duplicates in N5: 二, file: /d/n5.txt")
  /\ list_says exampleFs MultiplePerLine true [b_ "二"] (b_ "/d/twice") [] (b_ "invalid multi-byte token 'abc' - line: 3, file: /d/twice.txt")
  /\ list_says exampleFs MultiplePerLine true [] (b_ "/d/n6") [] (b_ "can't open /d/n6.txt")
  /\ exists st' l, newListT exampleFs KyuList MultiplePerLine (b_ "/d/n5") [] initStatic = Val (st', inl l) /\ listOf l = [b_ "一"; b_ "二"].
Proof.
  assert (K : forall k ft st p g w, match newListT exampleFs k ft p g st with Val (_, inr v) => beq v w | _ => false end = true ->
    list_says exampleFs (kind_type k ft) (negb (kind_eqb k PlainList)) (uniqueOf st k) p g w).
  { intros k ft st p g w H. apply (newList_says exampleFs example_ok). destruct (newListT exampleFs k ft p g st) as [[s [l|v]]|x| |]; try discriminate H.
    apply beq_eq in H. subst v. eauto. }
  split; [apply (K PlainList MultiplePerLine initStatic); vm_compute; reflexivity|].
  split; [apply (K PlainList OnePerLine initStatic); vm_compute; reflexivity|].
  split; [apply (K PlainList MultiplePerLine takenStatic); vm_compute; reflexivity|].
  split; [apply (K KyuList MultiplePerLine takenStatic); vm_compute; reflexivity|].
  split; [apply (K LevelList MultiplePerLine takenStatic); vm_compute; reflexivity|].
  split; [apply (K LevelList MultiplePerLine initStatic); vm_compute; reflexivity|].
  do 2 eexists. split; vm_compute; reflexivity.
Qed.
