(** The program kanjiStats with the data that was loaded. *)
From Verif Require Import BaseFacts MapProofs CountSpec CountProofs DataModel LoadModel LoadSpec LoadWhole LoadMade LoadFacts LoadSample UcdSpec UcdProofs.
From Verif Require Import StatsProofs StatsReportModel StatsReportRows StatsReportProofs StatsReportSpec.
Open Scope N_scope.

(** KanjiData.cpp:66-68 findUcd, as Stats.cpp:66-71 use it (found or not) *)
Definition loadedUcd (e : Env) (s : bytes) : bool := match ucdFind (envUcd e) s with Val (Some _) => true | _ => false end.
(** Stats.cpp:163 findByName: what the report uses of a Kanji *)
Definition entryOf (k : Kanji) : Entry :=
  {| eFrequency := kFrequency k; eType := kanjiTypeNumber (kType k); eLevel := levelNumber (kLevel k) |}.
Definition loadedEntry (d : Data) (s : bytes) : option Entry := option_map entryOf (DataModel.findByName d s).

Lemma entry_found : forall ltr f st m e d s, files_ok f -> Forall row_bytes (ucdRows f) -> loadData ltr f st m = Val (e, d) ->
  len s <= 4 -> loadedUcd e s = true -> exists k, DataModel.findByName d s = Some k /\ loadedEntry d s = Some (entryOf k).
Proof.
  intros ltr f st m e d s Hf Hb Hl Hs H. unfold loadedUcd in H. rewrite (short_plain _ _ Hs) in H.
  destruct (mfind s (ucdMap (envUcd e))) as [u|] eqn:E; [|discriminate].
  destruct (env_unicode ltr f st m e d Hf Hl Hb) as [us [_ [[U _] _]]]. pose proof (proj1 (U s u) E) as [_ En].
  destruct (loadData_loaded _ _ _ _ _ _ Hf Hl) as [O [M [js [ms [xs [lss [kss L]]]]]]].
  pose proof (lo_found_ucd _ _ _ _ _ _ _ _ L s u (In_mfind _ _ _ E)) as F. rewrite En in F. unfold loadedEntry.
  destruct (DataModel.findByName d s) as [k|]; [|congruence]. exists k. auto.
Qed.

(** the row asks for data only with characters that it takes *)
Lemma chars_taken : forall I top name verbose row x, In x (row_chars I top name verbose row) -> takes row x = true.
Proof.
  intros I top name verbose row x H. unfold row_chars in H. apply in_flat_map in H. destruct H as [t [_ H]].
  unfold counted in H. apply filter_In in H. exact (proj2 H).
Qed.
Lemma taken_ucd : forall ucd row x, In row (rows ucd) -> row_name row = b_ "Common Kanji" \/ row_name row = b_ "Rare Kanji" ->
  takes row x = true -> ucd x = true.
Proof.
  intros ucd row x Hr Hn Ht.
  assert (K : forall o, match oand o (ucd x) with Val b => b | _ => false end = true -> ucd x = true).
  { intros o H. unfold oand in H. destruct o as [b|?| |]; cbn [obind] in H; try discriminate. apply andb_true_iff in H. exact (proj2 H). }
  assert (C : Forall (fun r => (row_name r = b_ "Common Kanji" \/ row_name r = b_ "Rare Kanji") -> takes r x = true -> ucd x = true) (rows ucd)).
  { unfold rows. repeat (apply Forall_cons; [intros Hn' Ht'|]); [..|apply Forall_nil];
    try (destruct Hn' as [Hn'|Hn']; vm_compute in Hn'; discriminate Hn'); exact (K _ Ht'). }
  rewrite Forall_forall in C. exact (C row Hr Hn Ht).
Qed.
Lemma listed_char : forall mf findByName I top name verbose row l c, listing mf findByName I top name verbose row l -> In c l ->
  In (kName c) (row_chars I top name verbose row)
  /\ kCount c = occurs (kName c) (row_chars I top name verbose row)
  /\ kEntry c = if about_kanji (row_name row) then findByName (kName c) else None.
Proof.
  intros mf fbn I top name verbose row l c [P [F _]] H. rewrite Forall_forall in F. split; [|split]; [| |exact (F c H)].
  all: pose proof (Permutation_in _ P (in_map (fun c => (kName c, kCount c)) _ _ H)) as K; unfold tally in K; apply in_map_iff in K; destruct K as [k [K1 K2]];
    injection K1 as K1 K3; subst k; apply nodup_In in K2.
  - exact K2.
  - symmetry. exact K3.
Qed.
Lemma total_perm : forall a b, Permutation a b -> total a = total b.
Proof. intros a b H. unfold total. induction H; cbn [fold_right]; lia. Qed.
Lemma listing_total : forall mf findByName I top name verbose row l, listing mf findByName I top name verbose row l ->
  total (map kCount l) = len (row_chars I top name verbose row)
  /\ len l = len (nodup bytes_eq_dec (row_chars I top name verbose row)).
Proof.
  intros mf fbn I top name verbose row l [P _]. split.
  - transitivity (map_total (incs (row_chars I top name verbose row) [])).
    + unfold map_total. rewrite (total_perm _ _ (Permutation_map snd (tally_perm (row_chars I top name verbose row)))).
      rewrite <- (total_perm _ _ (Permutation_map snd P)). rewrite map_map. reflexivity.
    + rewrite incs_total. reflexivity.
  - rewrite <- tally_len. unfold len. rewrite <- (Permutation_length P), map_length. reflexivity.
Qed.

(** the lines of the types share out what the first line of the row says *)
Lemma types_sum : forall l, (forall c, In c l -> type c < 9) ->
  total (map (fun t => total (map kCount (of_type (fst t) l))) type_titles) = total (map kCount l)
  /\ total (map (fun t => len (of_type (fst t) l)) type_titles) = len l.
Proof.
  intros l H.
  assert (K : forall f : SCount -> N, total (map (fun t => total (map f (of_type (fst t) l))) type_titles) = total (map f l)).
  { intro f. rewrite <- (types_partition f l (map fst type_titles)).
    - rewrite map_map. f_equal. apply map_ext. intros [t title]. cbn [fst]. unfold of_type. clear. induction l as [|c l IH]; [reflexivity|].
      cbn [filter map]. destruct (type c =? t); cbn [map total fold_right]; unfold total in IH |- *; rewrite IH; lia.
    - cbn. repeat constructor; cbn; intuition discriminate.
    - intros c Hc. pose proof (H c Hc). cbn. lia. }
  split; [apply K|].
  assert (L : forall x : list SCount, total (map (fun _ => 1) x) = len x).
  { unfold len. induction x as [|c x IH]; [reflexivity|]. cbn [map total fold_right List.length]. unfold total in IH. rewrite IH. lia. }
  rewrite <- (L l), <- (K (fun _ => 1)). f_equal. apply map_ext. intro t. symmetry. apply L.
Qed.
Lemma loaded_type : forall d k c, kEntry c = loadedEntry d k -> type c < 9.
Proof.
  intros d k c H. unfold type. rewrite H. unfold loadedEntry. destruct (DataModel.findByName d k) as [x|]; cbn; [|unfold TypeNone; lia].
  destruct (kType x); cbn; lia.
Qed.
Lemma loaded_listing : forall ltr f st m e d mf I top name verbose row l c, files_ok f -> Forall row_bytes (ucdRows f) ->
  loadData ltr f st m = Val (e, d) -> In row (rows (loadedUcd e)) -> row_name row = b_ "Common Kanji" \/ row_name row = b_ "Rare Kanji" ->
  listing mf (loadedEntry d) I top name verbose row l -> In c l ->
  4 < len (kName c) \/ exists k, DataModel.findByName d (kName c) = Some k /\ kEntry c = Some (entryOf k).
Proof.
  intros ltr f st m e d mf I top name verbose row l c Hf Hb Hl Hr Hn HL Hc.
  destruct (listed_char _ _ _ _ _ _ _ _ _ HL Hc) as [Q1 [_ Q2]].
  destruct (N.le_gt_cases (len (kName c)) 4) as [S4|S4]; [|left; exact S4]. right.
  assert (A : about_kanji (row_name row) = true) by (destruct Hn as [-> | ->]; reflexivity). rewrite A in Q2. rewrite Q2.
  apply (entry_found ltr f st m e d _ Hf Hb Hl S4). apply (taken_ucd _ row _ Hr Hn). eapply chars_taken. exact Q1.
Qed.

(** * A Kanji with another variation selector *)
Definition selector_ucd : list UcdRow :=
  sample_ucd ++
  [urow (b_ "6D77") (b_ "海") (b_ "1") (b_ "9") [];
   MkUcdRow (b_ "FA45") [239; 169; 133] (b_ "CJK") (b_ "1.1") (b_ "1") (b_ "10") [] (b_ "hai") (b_ "1") (b_ "2") (b_ "GHJKTV")
     (b_ "J0-437A") [] (b_ "Y") (b_ "6D77") (b_ "海") (b_ "Jinmei*") (b_ "sea") (b_ "KAI") [] []].
Definition selector_files : Files :=
  match sample_files sample_jouyou with
  | MkFiles a b c _ r l j x n y => MkFiles a b c selector_ucd r l j x n y
  end.
Definition selected : bytes := b_ "海" ++ [239; 184; 129].
