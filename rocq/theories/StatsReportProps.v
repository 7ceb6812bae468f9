(** Property theorems about the program kanjiStats. *)
From Verif Require Import BaseFacts MapProofs ArgsProofs CountSpec CountProofs DataModel LoadModel LoadSpec LoadSample UcdSpec StatsProofs.
From Verif Require Import StatsReportModel StatsReportRows StatsReportProofs StatsReportLoaded StatsReportSpec.
Open Scope N_scope.

(** * A small collection for the examples *)
Definition known : list (bytes * Entry) :=
  [(b_ "乃", {| eFrequency := 0; eType := 1; eLevel := 5 |}); (b_ "日", {| eFrequency := 1; eType := 0; eLevel := 0 |});
   (b_ "本", {| eFrequency := 10; eType := 0; eLevel := 0 |}); (b_ "語", {| eFrequency := 301; eType := 0; eLevel := 0 |})].
Definition some_entry (s : bytes) : option Entry := mfind s known.
Definition some_ucd (s : bytes) : bool := match some_entry s with Some _ => true | None => false end.
Definition some_node : node :=
  Dir [(b_ "a.txt", File (b_ "日本（にほん）語はにほんごです。" ++ [10] ++ b_ "乃 A ２" ++ [10])); (b_ "b.txt", File (b_ "龘日"))].
Definition some_fs (p : bytes) : option node :=
  if beq p (b_ "text/") then Some some_node else if beq p (b_ "one") then Some (File (b_ "は")) else None.
Definition some_stats (l : list bytes) : bytes * out unit :=
  stats some_ucd some_entry (some_order 2502) some_fs 20 (argsOf (b_ "kanjiStats" :: l)) false.
Lemma bytes_check : forall s, forallb (fun c => c <? 256) s = true -> bytes_ok s.
Proof. intros s H. apply Forall_forall. intros c Hc. rewrite forallb_forall in H. apply N.ltb_lt. exact (H c Hc). Qed.
Lemma some_fs_ok : forall p n, some_fs p = Some n -> node_ok n.
Proof.
  intros p n H. unfold some_fs in H. destruct (beq p (b_ "text/")); [|destruct (beq p (b_ "one")); [|discriminate]]; injection H as <-;
  cbn [node_ok some_node]; repeat split; apply bytes_check; vm_compute; reflexivity.
Qed.

(** * C103: the command line decides what is printed *)
Theorem C103_session : forall mf ucd findByName order fs I fuel prog l debug, mf < 65535 ->
  (forall ks, exists t, built (less mf) ks t /\ order ks = inorder t) -> reader I -> (forall p n, fs p = Some n -> node_ok n) ->
  len (prog :: l) < 65535 -> (S (List.length (prog :: l)) < fuel)%nat -> Forall bytes_ok (file_names (kept l)) ->
  let r := stats ucd findByName order fs fuel (argsOf (prog :: l)) debug in
  session mf ucd findByName I fs debug (kept l) (fst r) (snd r).
Proof.
  intros mf ucd findByName order fs I fuel prog l debug Hmf Horder HI Hfs.
  exact (stats_session mf Hmf ucd findByName order Horder fs I HI Hfs fuel prog l debug).
Qed.
Print Assumptions C103_session.
Example C103_example :
  session 2502 some_ucd some_entry read some_fs false [b_ "one"; b_ "-b"; b_ "--"; b_ "-h"] (fst (some_stats [b_ "-data"; b_ "x"; b_ "one"; b_ "-b"; b_ "--"; b_ "-h"]))
    (Throw DomainError)
  /\ snd (some_stats [b_ "-b"; b_ "text/"]) = Val tt /\ snd (some_stats [b_ "-bv"]) = Throw DomainError
  /\ some_stats [b_ "one"; b_ "-h"] = (HelpText, Val tt) /\ snd (some_stats []) = Throw DomainError.
Proof.
  split; [|repeat split; vm_compute; reflexivity].
  pose proof (C103_session 2502 some_ucd some_entry (some_order 2502) some_fs read 20 (b_ "kanjiStats") [b_ "-data"; b_ "x"; b_ "one"; b_ "-b"; b_ "--"; b_ "-h"] false
    ltac:(lia) (some_order_built 2502) read_reader some_fs_ok ltac:(vm_compute; reflexivity) ltac:(vm_compute; lia)
    ltac:(apply Forall_forall; intros x Hx; cbn in Hx; destruct Hx as [<-|[<-|[]]]; apply bytes_check; vm_compute; reflexivity)) as H.
  cbv zeta in H. fold (some_stats [b_ "-data"; b_ "x"; b_ "one"; b_ "-b"; b_ "--"; b_ "-h"]) in H.
  replace (snd (some_stats [b_ "-data"; b_ "x"; b_ "one"; b_ "-b"; b_ "--"; b_ "-h"])) with (@Throw unit DomainError) in H by (vm_compute; reflexivity).
  exact H.
Qed.

(** * C104: percentages *)
Theorem C104_nearest : forall d a t, (0 < d)%nat -> 0 < t -> a <= t -> t * 10 ^ N.of_nat d < 2 ^ 46 ->
  exists v, nearest_percent d a t v /\ shows d v (percent d a t).
Proof. exact percent_shows. Qed.
Print Assumptions C104_nearest.
Theorem C104_all : forall t, 0 < t -> t * 100 < 2 ^ 46 -> percent 2 t t = b_ "100.00".
Proof. exact percent_all. Qed.
Print Assumptions C104_all.
Theorem C104_sum : forall d t l vs, 0 < t -> Forall2 (fun a v => nearest_percent d a t v) l vs -> total l = t ->
  (2 * Z.abs (Z.of_N (total vs) - 100 * 10 ^ Z.of_nat d) <= Z.of_nat (List.length l))%Z.
Proof. exact percent_sum. Qed.
Print Assumptions C104_sum.
Example C104_example : percent 2 1 3 = b_ "33.33" /\ percent 2 2 3 = b_ "66.67" /\ percent 1 1 2000 = b_ "0.1" /\ percent 1 1 1999 = b_ "0.1"
  /\ percent 2 12345678 98765432 = b_ "12.50" /\ nearest_percent 2 1 3 3333.
Proof. repeat split; vm_compute; congruence. Qed.

(** * C105: the report about a file or directory *)
Theorem C105_report : forall mf ucd findByName order fs I breakdown verbose p n t, mf < 65535 ->
  (forall ks, exists t, built (less mf) ks t /\ order ks = inorder t) -> reader I -> (forall p n, fs p = Some n -> node_ok n) ->
  fs p = Some n -> resolve n = Some t -> bytes_ok p ->
  exists s name shown, countKanji ucd findByName order fs breakdown verbose p = (s, Val tt)
    /\ counted_name p name /\ shown_name p shown
    /\ report mf ucd findByName I t name shown breakdown verbose s.
Proof.
  intros mf ucd findByName order fs I b v p n t Hmf Horder HI Hfs Hp Hr Hb.
  destruct (count_ok mf Hmf ucd findByName order Horder fs I HI Hfs b v p n t Hp Hr (filename_ok p Hb)) as [s [Q1 Q2]].
  exists s, (filename p), (shownOf p). split; [exact Q1|]. split; [apply filename_spec|]. split; [apply shown_ok|exact Q2].
Qed.
Print Assumptions C105_report.
Theorem C105_missing : forall ucd findByName order fs breakdown verbose p, missing fs p ->
  countKanji ucd findByName order fs breakdown verbose p = ([], Throw DomainError).
Proof. exact count_missing. Qed.
Print Assumptions C105_missing.
(** a listing has each different character of the row once, with its number *)
Theorem C105_listing : forall mf findByName I top name verbose row l, listing mf findByName I top name verbose row l ->
  total (map kCount l) = len (row_chars I top name verbose row)
  /\ len l = len (nodup bytes_eq_dec (row_chars I top name verbose row))
  /\ forall c, In c l -> kCount c = occurs (kName c) (row_chars I top name verbose row).
Proof.
  intros mf fbn I top name verbose row l H. destruct (listing_total _ _ _ _ _ _ _ _ H) as [Q1 Q2]. split; [exact Q1|]. split; [exact Q2|].
  intros c Hc. exact (proj1 (proj2 (listed_char _ _ _ _ _ _ _ _ _ H Hc))).
Qed.
Print Assumptions C105_listing.
Definition lines (l : list bytes) : bytes := flat_map (fun s => s ++ [10]) l.
Example C105_example : some_stats [b_ "-b"; b_ "-v"; b_ "text/"] = (lines
  [b_ ">>> Showing all Furigana replacements:";
   b_ "Tag 'a.txt'";
   b_ "  1 : 日本（にほん）語はにほんごです。";
   b_ "    : 日本語はにほんごです。";
   b_ ">>> Stats for: 'text' (2 files) - showing top 5 Kanji per type";
   b_ ">>> Furigana Removed: 1, Combining Marks Replaced: 0, Variation Selectors: 0";
   b_ ">>>         Hiragana:      7, unique:    7";
   b_ ">>>     Common Kanji:      5, unique:    4, 100.00%";
   b_ ">>>        [Jouyou] :      4, unique:    3,  80.00%  (日 2, 本 1, 語 1)";
   b_ ">>>        [Jinmei] :      1, unique:    1,  20.00%  (乃 1)";
   b_ ">>> Showing Breakdown for 'Common Kanji':";
   b_ "  Rank  [Val Num] Freq, LV, Type";
   b_ "  1     [日    2]    1, N5, Jouyou";
   b_ "  2     [本    1]   10, N5, Jouyou";
   b_ "  3     [語    1]  301, N5, Jouyou";
   b_ "  4     [乃    1]    0, --, Jinmei";
   b_ ">>>    Non-UCD Kanji:      1, unique:    1           (龘 1)";
   b_ ">>> Showing Breakdown for 'Non-UCD Kanji':";
   b_ "  Rank  [Val Num], Unicode, Highest Count File";
   b_ "  1     [龘    1],  U+9F98, b.txt";
   b_ ">>>   MB-Punctuation:      1, unique:    1";
   b_ ">>>        MB-Letter:      1, unique:    1";
   b_ ">>> Total Kana+Kanji: 13 (Hiragana: 53.8%, Kanji: 46.2%)"], Val tt).
Proof. vm_compute. reflexivity. Qed.

(** * C106: the lines of the types *)
(** they share out the numbers of their row *)
Theorem C106_types_add_up : forall mf d I top name verbose row l, listing mf (loadedEntry d) I top name verbose row l ->
  total (map (fun t => total (map kCount (of_type (fst t) l))) type_titles) = len (row_chars I top name verbose row)
  /\ total (map (fun t => len (of_type (fst t) l)) type_titles) = len (nodup bytes_eq_dec (row_chars I top name verbose row)).
Proof.
  intros mf d I top name verbose row l H. destruct (listing_total _ _ _ _ _ _ _ _ H) as [<- <-]. apply types_sum.
  intros c Hc. destruct (listed_char _ _ _ _ _ _ _ _ _ H Hc) as [_ [_ E]].
  destruct (about_kanji (row_name row)); [exact (loaded_type d _ c E)|]. unfold type. rewrite E. reflexivity.
Qed.
Print Assumptions C106_types_add_up.
(** each Kanji of the rows for Kanji in the Unicode data is listed with the loaded Kanji of its
    name.  Missing: Kanji with a variation selector (more than 4 bytes), where it fails. *)
Theorem C106_loaded_partial : forall ltr f st m e d mf I top name verbose row l c, files_ok f -> Forall row_bytes (ucdRows f) ->
  loadData ltr f st m = Val (e, d) -> In row (rows (loadedUcd e)) -> row_name row = b_ "Common Kanji" \/ row_name row = b_ "Rare Kanji" ->
  listing mf (loadedEntry d) I top name verbose row l -> In c l ->
  4 < len (kName c) \/ exists k, DataModel.findByName d (kName c) = Some k /\ kEntry c = Some (entryOf k).
Proof. exact loaded_listing. Qed.
Print Assumptions C106_loaded_partial.
(** with another variation selector a Kanji is found in the Unicode data, but no Kanji is loaded
    for it, and the report counts it for the type None *)
Theorem C106_none_refuted : exists f e d, files_ok f /\ Forall row_bytes (ucdRows f) /\ loadData true f initStatic 0 = Val (e, d)
  /\ exists s, loadedUcd e s = true /\ DataModel.findByName d s = None
  /\ countKanji (loadedUcd e) (loadedEntry d) (some_order 2502) (fun _ => Some (File (b_ "一" ++ s))) false false (b_ "t") = (lines
      [b_ ">>> Stats for: 't' - showing top 5 Kanji per type";
       b_ ">>> Furigana Removed: 0, Combining Marks Replaced: 0, Variation Selectors: 1";
       b_ ">>>     Common Kanji:      2, unique:    2, 100.00%";
       b_ ">>>        [Jouyou] :      1, unique:    1,  50.00%  (一 1)";
       b_ ">>>          [None] :      1, unique:    1,  50.00%  (" ++ s ++ b_ " 1)";
       b_ ">>> Total Kana+Kanji: 2 (Kanji: 100.0%)"], Val tt).
Proof.
  exists selector_files.
  assert (A : files_ok selector_files).
  { pose proof (sample_ok sample_jouyou) as K. exact K. }
  assert (B : Forall row_bytes (ucdRows selector_files)).
  { apply Forall_forall. intros r H. assert (K : forallb (fun r => forallb (fun c => c <? 256) (rName r) && forallb (fun c => c <? 256) (rLinkNames r)) (ucdRows selector_files) = true) by (vm_compute; reflexivity).
    rewrite forallb_forall in K. specialize (K r H). apply andb_true_iff in K. split; apply bytes_check; apply K. }
  eexists. eexists. split; [exact A|]. split; [exact B|]. split; [vm_compute; reflexivity|].
  exists selected. repeat split; vm_compute; reflexivity.
Qed.
Print Assumptions C106_none_refuted.
Example C106_example : exists e d, loadData true (sample_files sample_jouyou) initStatic 0 = Val (e, d)
  /\ fst (countKanji (loadedUcd e) (loadedEntry d) (some_order 2502) (fun _ => Some (File (b_ "歩歩一万丑"))) false false (b_ "t")) = lines
      [b_ ">>> Stats for: 't' - showing top 5 Kanji per type";
       b_ ">>>     Common Kanji:      5, unique:    4, 100.00%";
       b_ ">>>        [Jouyou] :      3, unique:    2,  60.00%  (歩 2, 一 1)";
       b_ ">>>        [Jinmei] :      1, unique:    1,  20.00%  (丑 1)";
       b_ ">>>           [Ucd] :      1, unique:    1,  20.00%  (万 1)";
       b_ ">>> Total Kana+Kanji: 5 (Kanji: 100.0%)"].
Proof. eexists. eexists. split; [vm_compute; reflexivity|]. vm_compute. reflexivity. Qed.
