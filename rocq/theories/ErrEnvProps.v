(** C132: the one result of loading a data directory. *)
From Verif Require Import BaseFacts ErrUcdProps ErrOfficialProps DirProps LoadSpec ReportSpec DetailsModel DetailsSpec KanjiModel.
From Verif Require Export ErrEnvProofs.
From Verif Require Import ErrLoadSpec ErrListSpec ErrBase.
Open Scope N_scope.
Arguments N.mul : simpl never. Arguments N.add : simpl never. Arguments N.sub : simpl never.

(** The lists, the Unicode data, the radicals and the extra readings are read in this order, and either all of them are as in their files or
    there is exactly one message, that of the first file that is wrong. *)
Theorem C132_parts : forall fs writable reg, (forall p c, is_file fs p c -> bytes_ok c) -> (forall file, known (reg file)) -> forall ltr dir st,
  let env := readEnvT fs writable reg ltr dir st in
  let reads := ErrEnvSpec.reads fs writable ltr (uniqueOf st ListModel.LevelList) (uniqueOf st ListModel.KyuList) (uniqueOf st PlainList) dir in
  (forall x w, env = Says x w <-> reads (inr (x, w)))
  /\ (forall e, env = Got e -> exists p, reads (inl p) /\ env_is ltr e p)
  /\ (forall p, reads (inl p) -> exists e, env = Got e /\ env_is ltr e p)
  /\ ((exists p, reads (inl p)) \/ exists x w, reads (inr (x, w))) /\ ~ ((exists p, reads (inl p)) /\ exists x w, reads (inr (x, w))).
Proof.
  intros fs writable reg Hf Hr ltr dir st env reads. destruct (env_views fs writable reg Hf Hr ltr dir st) as (V1 & V2 & V3 & V4). fold env reads in V1, V2, V3, V4.
  split; [exact V3|]. split; [intros e E; destruct (V1 e E) as (p & P & Q & _); eauto|]. split; [intros p P; destruct (V2 p P) as (e & E & Q & _); eauto|].
  split; [destruct V4 as [[e E]|(x & w & E)]; [left; destruct (V1 e E) as (p & P & _); eauto|right; exists x, w; apply V3; exact E]|].
  intros [[p P] (x & w & W)]. destruct (V2 p P) as (e & E & _). apply V3 in W. congruence.
Qed.
Print Assumptions C132_parts.

(** Loading a directory: it ends with a message exactly if one of the files read first is wrong, or loading the Kanji ends with it, or, with
    -debug, the last report does; otherwise all the Kanji are stored.  Nothing else can happen. *)
Theorem C132_directory : forall fs writable reg, (forall p c, is_file fs p c -> bytes_ok c) -> (forall file, known (reg file)) ->
  forall sort mode ltr dir st max, sorts orderByStrokes sort ->
  let load := loadDirT fs writable reg sort mode ltr dir st max in
  let reads := ErrEnvSpec.reads fs writable ltr (uniqueOf st ListModel.LevelList) (uniqueOf st ListModel.KyuList) (uniqueOf st PlainList) dir in
  (forall x w, load = Says x w <-> reads (inr (x, w))
     \/ exists e p, readEnvT fs writable reg ltr dir st = Got e /\ reads (inl p) /\ env_is ltr e p
          /\ (loads e fs writable dir [] (inr (x, w)) \/ exists ks, loads e fs writable dir [] (inl ks) /\ reports mode e ks (inr (x, w))))
  /\ (forall e d, load = Got (e, d) -> exists p ks, reads (inl p) /\ env_is ltr e p /\ loads e fs writable dir [] (inl ks) /\ reports mode e ks (inl tt)
        /\ NoDup (map kName ks) /\ (forall n k, mfind n (dNames d) = Some k <-> In k ks /\ kName k = n) /\ forall n k, findByName d n = Some k <-> reached ks n k)
  /\ ((exists e d, load = Got (e, d)) \/ exists x w, load = Says x w).
Proof.
  intros fs writable reg Hf Hr sort mode ltr dir st max Hs load reads. destruct (env_views fs writable reg Hf Hr ltr dir st) as (V1 & V2 & V3 & V4). fold reads in V1, V2, V3.
  unfold load, loadDirT. destruct (readEnvT fs writable reg ltr dir st) as [e|x w| |] eqn:Ee; [| |exfalso; destruct V4 as [[a E]|(x & w & E)]; discriminate E..].
  2:{ cbn [rbind]. split; [|split; [discriminate|eauto]]. intros x' w'. split; [intro H; left; apply V3; congruence|]. intros [H|(e & p & E & _)]; [apply V3 in H; congruence|discriminate E]. }
  cbn [rbind]. destruct (V1 e eq_refl) as (p & Hp & Hi & Hk & rows & Hrows).
  destruct (C131_kanji fs writable reg Hf Hr e rows Hrows Hk dir max) as ((r & Lr & Ur) & K2 & K3 & K4).
  destruct (readKanjiT fs writable reg e dir (newData max)) as [d|x w| |] eqn:Ed; cbn [rbind].
  - destruct (proj1 K3 (ex_intro _ d eq_refl)) as [ks Lk].
    assert (HB : Books d ks).
    { destruct (loads_shows fs writable reg Hf Hr e rows Hrows Hk dir _ _ (no_books max)) as (r' & L' & U' & H'). apply U' in Lk. subst r'. destruct H' as (d' & E' & HB). assert (d' = d) by congruence. subst d'. exact HB. }
    destruct (finished_views fs writable reg Hf Hr sort mode ltr dir st max e d ks Hs Ee Ed HB) as (W1 & W2 & W3 & W4).
    assert (Uk : forall ks', loads e fs writable dir [] (inl ks') -> ks' = ks) by (intros ks' L'; pose proof (Ur _ Lk); pose proof (Ur _ L'); congruence).
    split; [|split].
    + intros x w. split.
      * intro H. right. exists e, p. split; [reflexivity|]. split; [exact Hp|]. split; [exact Hi|]. right. exists ks. split; [exact Lk|]. apply W3.
        destruct (finishedT sort mode e d) as [u|x' w'| |]; cbn [rbind] in H; try discriminate H. congruence.
      * intros [H|(e' & p' & E' & _ & _ & [H|(ks' & L' & H)])].
        -- apply V3 in H. discriminate H.
        -- assert (e' = e) by congruence. subst e'. apply K2 in H. discriminate H.
        -- assert (e' = e) by congruence. subst e'. apply Uk in L'. subst ks'. apply W3 in H. rewrite H. reflexivity.
    + intros e' d' H. destruct (finishedT sort mode e d) as [[]|x' w'| |] eqn:Ef; cbn [rbind] in H; try discriminate H. assert (e' = e /\ d' = d) as [-> ->] by (split; congruence).
      exists p, ks. split; [exact Hp|]. split; [exact Hi|]. split; [exact Lk|]. destruct (W1 tt eq_refl) as ([] & Rp & _). split; [exact Rp|]. exact (K4 d ks eq_refl Lk).
    + destruct W4 as [[u Eu]|(x & w & E)]; [rewrite Eu|rewrite E]; cbn [rbind]; eauto.
  - split; [|split; [discriminate|eauto]]. intros x' w'. split.
    + intro H. right. exists e, p. split; [reflexivity|]. split; [exact Hp|]. split; [exact Hi|]. left. apply K2. congruence.
    + intros [H|(e' & p' & E' & _ & _ & [H|(ks' & L' & H)])]; [apply V3 in H; discriminate H| |]; assert (e' = e) by congruence; subst e'; [apply K2 in H; congruence|].
      assert (X : exists ks, loads e fs writable dir [] (inl ks)) by eauto. apply K3 in X. destruct X as [d X]. discriminate X.
  - exfalso. destruct r as [ks|[x w]]; [destruct (proj2 K3 (ex_intro _ ks Lr)) as [d E]; discriminate E|apply K2 in Lr; discriminate Lr].
  - exfalso. destruct r as [ks|[x w]]; [destruct (proj2 K3 (ex_intro _ ks Lr)) as [d E]; discriminate E|apply K2 in Lr; discriminate Lr].
Qed.
Print Assumptions C132_directory.

(** The options -info and none at all give the same result.  With -debug the data are the same too, but a directory that is loaded without it
    ends with a message exactly if a Kanji with a variation selector has no Unicode entry. *)
Theorem C132_debug : forall fs writable reg, (forall p c, is_file fs p c -> bytes_ok c) -> (forall file, known (reg file)) ->
  forall sort ltr dir st max, sorts orderByStrokes sort ->
  let load mode := loadDirT fs writable reg sort mode ltr dir st max in
  load DebugInfo = load DebugNone
  /\ (forall x w, load DebugNone = Says x w -> load DebugFull = Says x w)
  /\ forall e d, load DebugNone = Got (e, d) ->
       (selectors_found (envUcd e) d -> load DebugFull = Got (e, d))
       /\ (~ selectors_found (envUcd e) d -> exists k, In k (selected_kanji d) /\ ~ entry_for e k /\ load DebugFull = Says DomainError (b_ "UCD not found for " ++ quoted (kName k))).
Proof.
  intros fs writable reg Hf Hr sort ltr dir st max Hs load.
  assert (I0 : load DebugInfo = load DebugNone).
  { unfold load, loadDirT. destruct (readEnvT fs writable reg ltr dir st) as [e|x w| |]; reflexivity. }
  split; [exact I0|]. split.
  - intros x w. unfold load, loadDirT. destruct (readEnvT fs writable reg ltr dir st) as [e|x' w'| |]; cbn [rbind]; try (intro H; exact H). destruct (readKanjiT fs writable reg e dir (newData max)) as [d|x' w'| |]; cbn [rbind]; try (intro H; exact H).
    intro H. discriminate H.
  - intros e d H. destruct (C132_directory fs writable reg Hf Hr sort DebugNone ltr dir st max Hs) as (_ & G & _). destruct (G e d H) as (p & ks & _ & _ & _ & _ & Nd & Nm & _). clear G.
    unfold load, loadDirT in H. destruct (readEnvT fs writable reg ltr dir st) as [e'|x w| |] eqn:Ee; cbn [rbind] in H; try discriminate H.
    destruct (readKanjiT fs writable reg e' dir (newData max)) as [d'|x w| |] eqn:Ed; cbn [rbind] in H; try discriminate H.
    assert (e' = e /\ d' = d) as [-> ->] by (cbn [finishedT finishedLoadingData quiet rbind] in H; split; congruence). clear H.
    assert (HB : exists ks, Books d ks).
    { destruct (env_views fs writable reg Hf Hr ltr dir st) as (V1 & _). destruct (V1 e Ee) as (p' & _ & _ & Hk & rows & Hrows).
      destruct (loads_shows fs writable reg Hf Hr e rows Hrows Hk dir _ _ (no_books max)) as (r' & L' & U' & H'). destruct r' as [ks'|[x w]]; [|congruence]. destruct H' as (d' & E' & HB). assert (d' = d) by congruence. subst d'. eauto. }
    destruct HB as [ks' HB]. destruct (order_is d ks' HB) as [[P _] U].
    assert (Sel : forall k, In k (selected_kanji d) <-> In k ks' /\ selected_name k = true).
    { intro k. unfold selected_kanji. rewrite filter_In. split; intros [X Y]; split; try exact Y; [exact (Permutation.Permutation_in k (Permutation.Permutation_sym P) X)|exact (Permutation.Permutation_in k P X)]. }
    assert (X : load DebugFull = rbind (finishedT sort DebugFull e d) (fun _ => Got (e, d))) by (unfold load, loadDirT; rewrite Ee; cbn [rbind]; rewrite Ed; reflexivity).
    destruct (finished_views fs writable reg Hf Hr sort DebugFull ltr dir st max e d ks' Hs Ee Ed HB) as (W1 & W2 & W3 & W4). rewrite X. split; intro F.
    + destruct (W2 tt) as (u & -> & _); [|reflexivity]. intros _ k I S0. unfold selectors_found in F. rewrite Forall_forall in F. apply F. apply Sel. auto.
    + destruct W4 as [[u Eu]|(x & w & E)].
      * exfalso. apply F. apply Forall_forall. intros k I. apply Sel in I. destruct (W1 u Eu) as (u' & R & _). exact (R eq_refl k (proj1 I) (proj2 I)).
      * pose proof (proj1 (W3 x w) E) as (_ & -> & l & bf & k & af & Ol & Ef & _ & Nk & ->). exists k. rewrite E. split; [|split; [exact Nk|reflexivity]].
        unfold selected_kanji. rewrite <- (U l Ol), Ef. apply in_or_app. right. left. reflexivity.
Qed.
Print Assumptions C132_debug.

Lemma entry_decided : forall e k, entry_for e k \/ ~ entry_for e k.
Proof. intros e k. unfold entry_for. destruct (ucdFind (envUcd e) (kName k)) as [[u|]| | |]; [left; eauto|right; intros [u H]; discriminate H..]. Qed.
(** The text of all reports (C100) for any directory: the names are known to be bytes. *)
Theorem C132_reports : forall fs writable reg, (forall p c, is_file fs p c -> bytes_ok c) -> (forall file, known (reg file)) ->
  forall sort ltr dir st max e d, sorts orderByStrokes sort -> loadDirT fs writable reg sort DebugFull ltr dir st max = Got (e, d) ->
  selectors_found (envUcd e) d /\ exists t, finishedLoadingData sort DebugFull e d = Val t /\ full_report e d t.
Proof.
  intros fs writable reg Hf Hr sort ltr dir st max e d Hs H.
  assert (H0 : loadDirT fs writable reg sort DebugNone ltr dir st max = Got (e, d)).
  { destruct (C132_debug fs writable reg Hf Hr sort ltr dir st max Hs) as (_ & A & B0). destruct (C132_directory fs writable reg Hf Hr sort DebugNone ltr dir st max Hs) as (_ & _ & [(e' & d' & E)|(x & w & E)]).
    - destruct (B0 e' d' E) as [B1 B2]. clear - H E. unfold loadDirT in *. destruct (readEnvT fs writable reg ltr dir st) as [e1|x w| |]; cbn [rbind] in *; try discriminate H.
      destruct (readKanjiT fs writable reg e1 dir (newData max)) as [d1|x w| |]; cbn [rbind] in *; try discriminate H. destruct (finishedT sort DebugFull e1 d1) as [u|x w| |]; cbn [rbind] in H; try discriminate H.
      rewrite <- H. reflexivity.
    - apply A in E. congruence. }
  assert (L : snd (loadDir fs writable reg sort DebugNone ltr dir st max) = Val (e, d)) by (rewrite <- (ErrLoadSame.loadDir_plain fs writable reg Hr Hf), H0; reflexivity).
  pose proof (DirProofs.loaded_dir fs writable reg Hr _ _ _ _ _ _ _ L) as (f & D). rewrite (DirProofs.load_dir fs writable reg Hr _ _ _ _ _ _ _ D) in L. apply LoadLogProps.C110_same_data in L.
  destruct (MainProofs.dir_ok fs writable Hf dir f D) as [O B]. destruct (MainNames.dir_names fs writable Hf dir f ltr st max e d D L) as [Gd _].
  assert (Hb : forall k, loaded_kanji d k -> bytes_ok (kName k) /\ kanji_ok k) by (intros k I; destruct (Gd k I) as (X & Y & _); auto).
  destruct (ReportUcd.full_spec ltr f st max e d sort O B L Hb Hs) as [F1 F2].
  assert (S0 : selectors_found (envUcd e) d).
  { assert (X : forall k, In k (selected_kanji d) -> entry_for e k); [|apply Forall_forall; exact X]. intros k I.
    destruct (entry_decided e k) as [Y|Y]; [exact Y|]. exfalso. assert (N0 : ~ selectors_found (envUcd e) d) by (unfold selectors_found; rewrite Forall_forall; intro Z; exact (Y (Z k I))).
    destruct (C132_debug fs writable reg Hf Hr sort ltr dir st max Hs) as (_ & _ & B0). destruct (B0 e d H0) as [_ B2]. destruct (B2 N0) as (k' & _ & _ & E). congruence. }
  split; [exact S0|exact (F1 S0)].
Qed.
Print Assumptions C132_reports.

(** What lists the program made before, and whether they could be read, does not matter. *)
Definition same_static (st st' : list_static) : Prop := forall k, uniqueOf st k = uniqueOf st' k.
Lemma construct_same : forall k ft c st st', same_static st st' ->
  match construct k ft c st, construct k ft c st' with
  | Val (a, x), Val (b, y) => same_static a b /\ x = y
  | Throw e, Throw e' => e = e' | Ub, Ub => True | Fuel, Fuel => True | _, _ => False end.
Proof.
  intros k ft c st st' H. unfold construct. rewrite (H k). destruct (ListModel.load _ _ _ _) as [v|e| |]; cbn [obind]; auto.
  destruct v; (split; [|reflexivity]; intro k'; cbn [setUnique uniqueOf]; destruct (kind_eqb k' k); [reflexivity|apply H]).
Qed.
Section Same.
Variable fs : bytes -> option CountModel.node.
Definition same_got {A} (x y : res (list_static * A)) : Prop :=
  match x, y with Got (a, v), Got (b, w) => same_static a b /\ v = w | Says e w, Says e' w' => e = e' /\ w = w' | Undefined, Undefined => True | Unfinished, Unfinished => True | _, _ => False end.
Lemma list_same : forall k ft p given st st', same_static st st' -> same_got (listT fs k ft p given st) (listT fs k ft p given st').
Proof.
  intros k ft p given st st' H. unfold listT, newListT. cbv zeta. match goal with |- context [negb (isRegular fs ?f)] => destruct (negb (isRegular fs f)) end; [split; reflexivity|].
  match goal with |- context [construct k ft ?c st] => pose proof (construct_same k ft c st st' H) as X; destruct (construct k ft c st) as [[a x]|e| |], (construct k ft c st') as [[b y]|e'| |] end;
    cbn [obind quiet rbind] in *; try contradiction; try exact I; [|subst; split; reflexivity]. destruct X as [X ->]. destruct y; split; auto.
Qed.
Lemma lists_same : forall k A (path name : A -> bytes) l st st', same_static st st' -> same_got (readListsT fs k path name l st) (readListsT fs k path name l st').
Proof.
  intros k A path name l. induction l as [|a l IH]; intros st st' H; cbn [readListsT]; [split; auto|].
  pose proof (list_same k MultiplePerLine (path a) (name a) st st' H) as X. destruct (listT fs k MultiplePerLine (path a) (name a) st) as [[s1 f]| | |], (listT fs k MultiplePerLine (path a) (name a) st') as [[s2 g]| | |];
    cbn [same_got rbind] in *; try contradiction; try exact X. destruct X as [X ->]. pose proof (IH s1 s2 X) as Y.
  destruct (readListsT fs k path name l s1) as [[s3 fs3]| | |], (readListsT fs k path name l s2) as [[s4 fs4]| | |]; cbn [same_got rbind] in *; try contradiction; try exact Y. destruct Y as [Y ->]. auto.
Qed.
Lemma env_same : forall writable reg ltr dir st st', same_static st st' -> readEnvT fs writable reg ltr dir st = readEnvT fs writable reg ltr dir st'.
Proof.
  intros writable reg ltr dir st st' H. unfold readEnvT.
  pose proof (lists_same ListModel.LevelList _ (levelPath dir) levelToString AllLevels st st' H) as X.
  destruct (readListsT fs ListModel.LevelList (levelPath dir) levelToString AllLevels st) as [[s1 f]| | |], (readListsT fs ListModel.LevelList (levelPath dir) levelToString AllLevels st') as [[s2 g]| | |];
    cbn [same_got rbind] in *; try contradiction; try reflexivity; [|destruct X as [-> ->]; reflexivity]. destruct X as [X ->].
  pose proof (lists_same ListModel.KyuList _ (kyuPath dir) kyuToString AllKyus s1 s2 X) as Y.
  destruct (readListsT fs ListModel.KyuList (kyuPath dir) kyuToString AllKyus s1) as [[s3 f3]| | |], (readListsT fs ListModel.KyuList (kyuPath dir) kyuToString AllKyus s2) as [[s4 g4]| | |];
    cbn [same_got rbind] in *; try contradiction; try reflexivity; [|destruct Y as [-> ->]; reflexivity]. destruct Y as [Y ->].
  pose proof (list_same PlainList OnePerLine (joinPath dir (b_ "frequency")) [] s3 s4 Y) as W.
  destruct (listT fs PlainList OnePerLine (joinPath dir (b_ "frequency")) [] s3) as [[s5 f5]| | |], (listT fs PlainList OnePerLine (joinPath dir (b_ "frequency")) [] s4) as [[s6 g6]| | |];
    cbn [same_got rbind] in *; try contradiction; try reflexivity; [|destruct W as [-> ->]; reflexivity]. destruct W as [W ->]. reflexivity.
Qed.
End Same.
Theorem C132_fresh : forall fs writable reg sort mode ltr dir max ops st rs, Forall op_ok ops -> list_run ops initStatic = Val (st, rs) ->
  newTextDataT fs writable reg sort mode ltr dir st max = loadDirT fs writable reg sort mode ltr dir initStatic max.
Proof.
  intros fs writable reg sort mode ltr dir max ops st rs Ho H. unfold newTextDataT, loadDirT. rewrite (env_same fs writable reg ltr dir (clearUnique st) initStatic); [reflexivity|].
  intro k. apply ListProofs.clear_empties. exact (ListProofs.list_run_static_ok ops initStatic st rs Ho ListProofs.init_static_ok H).
Qed.
Print Assumptions C132_fresh.
Example C132_fresh_case : exists st x st2 y, construct ListModel.LevelList MultiplePerLine (b_ "亜") initStatic = Val (st, x) /\ uniqueOf st ListModel.LevelList <> []
  /\ list_run [Construct ListModel.LevelList MultiplePerLine (b_ "亜")] initStatic = Val (st, [(ListModel.LevelList, x)])
  /\ construct ListModel.LevelList MultiplePerLine (b_ "亜") st = Val (st2, inr y).
Proof. do 4 eexists. split; [reflexivity|]. split; [vm_compute; discriminate|]. split; vm_compute; reflexivity. Qed.

(** Directories of a few lines: a level without file, a Kanji in two levels, two Kanji in a line of the frequency list, a bad table, and an
    Extra Kanji with a variation selector that is loaded without -debug only. *)
Definition smallDir (n5 n4 freq ucd extra : bytes) : list (bytes * bytes) :=
  (b_ "jlpt/n5", n5) :: (b_ "jlpt/n4", n4) :: map (fun f => (f, []))
    [b_ "jlpt/n3"; b_ "jlpt/n2"; b_ "jlpt/n1"; b_ "kentei/k10"; b_ "kentei/k9"; b_ "kentei/k8"; b_ "kentei/k7"; b_ "kentei/k6"; b_ "kentei/k5"; b_ "kentei/k4"; b_ "kentei/k3";
     b_ "kentei/kJ2"; b_ "kentei/k2"; b_ "kentei/kJ1"; b_ "kentei/k1"]
  ++ [(b_ "frequency", freq); (b_ "ucd", line_of ucd_names ++ ucd); (b_ "radicals", line_of radical_names ++ line_of [b_ "1"; b_ "一"; b_ "いち"; b_ "いち"]);
      (b_ "frequency-readings", line_of reading_names);
      (b_ "jouyou", line_of jouyou_names ++ line_of [b_ "1"; b_ "亜"; b_ "一"; b_ "ア"; []; []; b_ "7"; b_ "S"; b_ "sub-"]); (b_ "linked-jinmei", []);
      (b_ "jinmei", line_of jinmei_names); (b_ "extra", line_of extra_names ++ extra)].
Definition selectedRow : bytes := line_of [b_ "1"; b_ "霙" ++ [239; 184; 128]; b_ "一"; b_ "エイ"; b_ "16"; b_ "sleet"].
Example C132_case :
  let load l mode := loadDirT (dirFs l) every (fun _ => []) ReportProps.byStrokes mode true (b_ "/d") initStatic 100 in
  sorts orderByStrokes ReportProps.byStrokes
  /\ (forall a b c u x, forallb (fun q => small_bytes (snd q)) (smallDir a b c u x) = true -> forall p s, is_file (dirFs (smallDir a b c u x)) p s -> bytes_ok s)
  /\ load [] DebugNone = Says DomainError (b_ "can't open /d/jlpt/n5.txt")
  /\ load (smallDir (b_ "亜") (b_ "亜") [] [] []) DebugNone = Says DomainError (b_ "found 1 duplicates in N4: 亜, file: /d/jlpt/n4.txt")
  /\ load (smallDir [] [] (b_ "亜 霙") [] []) DebugNone = Says DomainError (b_ "got multiple tokens - line: 1, file: /d/frequency.txt")
  /\ load (smallDir [] [] [] (one_row (b_ "一二") (b_ "1") (b_ "1") [] (b_ "Y") [] [] [] []) []) DebugNone = Says DomainError (b_ "name more than 4 bytes - file: ucd.txt, row: 1")
  /\ (exists x, load (smallDir (b_ "亜") [] [] [] selectedRow) DebugNone = Got x)
  /\ load (smallDir (b_ "亜") [] [] [] selectedRow) DebugFull = Says DomainError (b_ "UCD not found for '霙" ++ [239; 184; 128] ++ b_ "'").
Proof.
  intro load. split; [apply DetailsFacts.insertion_sorts|]. split; [intros a b c u x H; apply dirFs_ok; exact H|].
  do 4 (split; [vm_compute; reflexivity|]). split; [|vm_compute; reflexivity].
  assert (X : match load (smallDir (b_ "亜") [] [] [] selectedRow) DebugNone with Got _ => true | _ => false end = true) by (vm_compute; reflexivity).
  destruct (load (smallDir (b_ "亜") [] [] [] selectedRow) DebugNone) as [x|x w| |]; [eauto|discriminate X..].
Qed.
