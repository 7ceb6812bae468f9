(** Lemmas about the report on the Unicode data and all reports. *)
From Verif Require Import BaseFacts MapProofs Utf8Lemmas UcdSpec UcdProofs UcdLinkProofs TextProofs RadicalSpec RadicalProofs DataProofs LoadModel LoadSpec LoadProofs
  LoadAttr LoadPhases LoadLists LoadEnv LoadWhole LoadMade LoadFacts
  KanjiSpec KanjiProofs DetailsSpec DetailsReview DetailsFacts ReportModel ReportSpec ReportProofs ReportRadicals.
Arguments N.mul : simpl never. Arguments N.add : simpl never. Arguments N.sub : simpl never.
Arguments N.div : simpl never.

(** * Counts *)

Definition class_count (c : ucd_class) (us : list Ucd) (p : Ucd -> bool) : N := count (fun u => in_class c u && p u) us.
Definition class_counts (c : ucd_class) (us : list Ucd) : list N := map (fun l => class_count c us (snd l)) ucdLabels.
Lemma joyo_class : forall u, joyo u = in_class IsJouyou u.
Proof.
  intro u. unfold joyo, in_class, class_of. change Joyo_bit with (2 ^ 6). rewrite flag_bit.
  destruct (N.testbit (ucdBits u) 6), (N.testbit (ucdBits u) 7); reflexivity.
Qed.
Lemma jinmei_class : forall u, joyo u = false -> jinmei u = in_class IsJinmei u.
Proof.
  intros u H. rewrite joyo_class in H. unfold jinmei, in_class, class_of in *. change Jinmei_bit with (2 ^ 7). rewrite flag_bit.
  destruct (N.testbit (ucdBits u) 6), (N.testbit (ucdBits u) 7); try reflexivity; discriminate.
Qed.
Definition counted (c : ucd_class) (us : list Ucd) (l : list N) : list N :=
  map (fun '(n, (_, p)) => n + class_count c us p) (combine l ucdLabels).
Lemma ucdAdd_counted : forall c u us l, List.length l = List.length ucdLabels ->
  counted c (u :: us) l = counted c us (if in_class c u then ucdAdd u l else l).
Proof.
  intros c u us l H. unfold counted, ucdAdd, class_count. destruct (in_class c u) eqn:E.
  - generalize ucdLabels as ls, H. clear H. induction l as [|n l IH]; intros [|[s p] ls] H; try discriminate; [reflexivity|].
    cbn [combine map]. f_equal; [|apply IH; cbn in H; lia]. rewrite count_cons, E. cbn [andb]. lia.
  - apply map_ext. intros [n [s p]]. rewrite count_cons, E. cbn [andb]. lia.
Qed.
Lemma ucdAdd_length : forall u l, List.length l = List.length ucdLabels -> List.length (ucdAdd u l) = List.length ucdLabels.
Proof. intros u l H. unfold ucdAdd. rewrite map_length, combine_length, H. apply Nat.min_id. Qed.
Lemma one_class : forall u, in_class IsJouyou u = true -> in_class IsJinmei u = false /\ in_class IsOther u = false.
Proof. intro u. unfold in_class. destruct (class_of u); auto; discriminate. Qed.
Lemma ucdCount_spec : forall es j m o, List.length j = List.length ucdLabels -> List.length m = List.length ucdLabels -> List.length o = List.length ucdLabels ->
  ucdCount es j m o = (counted IsJouyou (map snd es) j, counted IsJinmei (map snd es) m, counted IsOther (map snd es) o).
Proof.
  assert (Z : forall c l, List.length l = List.length ucdLabels -> counted c [] l = l).
  { intros c l. unfold counted. generalize ucdLabels as ls. induction l as [|n l IH]; intros [|[s p] ls] H; try discriminate; [reflexivity|].
    cbn [combine map]. f_equal; [change (n + 0 = n); lia|apply IH; cbn in H; lia]. }
  induction es as [|[n u] es IH]; intros j m o H1 H2 H3; [cbn [ucdCount map]; rewrite !Z by assumption; reflexivity|].
  cbn [ucdCount map snd]. rewrite !ucdAdd_counted by assumption. destruct (joyo u) eqn:J.
  - rewrite IH by (try apply ucdAdd_length; assumption). rewrite joyo_class in J. destruct (one_class u J) as [-> ->]. rewrite J. reflexivity.
  - pose proof (jinmei_class u J) as Jm. rewrite joyo_class in J. rewrite J, Jm. destruct (in_class IsJinmei u) eqn:M.
    + rewrite IH by (try apply ucdAdd_length; assumption). replace (in_class IsOther u) with false; [reflexivity|]. unfold in_class in *. destruct (class_of u); auto; discriminate.
    + rewrite IH by (try apply ucdAdd_length; assumption). replace (in_class IsOther u) with true; [reflexivity|]. unfold in_class in *. destruct (class_of u); auto; discriminate.
Qed.
Lemma class_sum : forall us p, class_count IsJouyou us p + class_count IsJinmei us p + class_count IsOther us p = count p us.
Proof.
  intros us p. unfold class_count. induction us as [|u us IH]; [reflexivity|]. rewrite !count_cons. unfold in_class at 1 3 5. destruct (class_of u), (p u); cbn [andb]; lia.
Qed.
Lemma ucdLines_spec : forall us, let '(j, m, o) := (counted IsJouyou us (map (fun _ => 0) ucdLabels), counted IsJinmei us (map (fun _ => 0) ucdLabels), counted IsOther us (map (fun _ => 0) ucdLabels)) in
  ucdLines ucdLabels j m o = flat_map (fun '(s, p) => ucd_line us s p) ucdLabels.
Proof.
  intro us. unfold counted. generalize ucdLabels as ls. induction ls as [|[s p] ls IH]; [reflexivity|]. cbn [map combine ucdLines flat_map]. rewrite IH. rewrite !N.add_0_l, class_sum.
  unfold ucd_line, line, logText, class_count. rewrite <- !app_assoc. reflexivity.
Qed.
Lemma ucd_line_ext : forall us s p q, (forall u, p u = q u) -> ucd_line us s p = ucd_line us s q.
Proof.
  intros us s p q H. unfold ucd_line. rewrite (count_ext _ p q) by exact H.
  rewrite (count_ext _ (fun u => in_class IsJouyou u && p u) (fun u => in_class IsJouyou u && q u)) by (intro u; rewrite H; reflexivity).
  rewrite (count_ext _ (fun u => in_class IsJinmei u && p u) (fun u => in_class IsJinmei u && q u)) by (intro u; rewrite H; reflexivity).
  rewrite (count_ext _ (fun u => in_class IsOther u && p u) (fun u => in_class IsOther u && q u)) by (intro u; rewrite H; reflexivity). reflexivity.
Qed.
Lemma labels_spec : forall us, flat_map (fun '(s, p) => ucd_line us s p) ucdLabels = ucd_counts us.
Proof.
  intro us. unfold ucdLabels, ucd_counts. cbn [flat_map]. rewrite app_nil_r.
  rewrite (ucd_line_ext us (b_ "VStrokes") _ (fun u => 0 <? snd (ucdStrokes u))) by (intro u; apply not_zero).
  rewrite (ucd_line_ext us (b_ "Morohashi Ids") _ (fun u => 0 <? fst (ucdMorohashi u))) by (intro u; apply not_zero). reflexivity.
Qed.
Lemma counts_of_ucd : forall us es, us = map snd es ->
  (let zero := map (fun _ => 0) ucdLabels in let '(j, m, o) := ucdCount es zero zero zero in ucdLines ucdLabels j m o) = ucd_counts us.
Proof.
  intros us es ->. cbn zeta. rewrite ucdCount_spec by (rewrite map_length; reflexivity). rewrite <- labels_spec. exact (ucdLines_spec (map snd es)).
Qed.

(** * Links *)

(** an entry made from a row *)
Definition row_entry (u : Ucd) : Prop := exists r, row_bytes r /\ row_is r u.
Definition entries (ucd : UcdData) : Prop := msorted (ucdMap ucd) /\ forall n u, mfind n (ucdMap ucd) = Some u -> row_entry u.
Lemma loadUcd_entries : forall rows d d', Forall row_bytes rows -> entries d -> loadUcd rows d = Val d' -> entries d'.
Proof.
  induction rows as [|r rows IH]; intros d d' Hb Hd H; cbn [loadUcd] in H; [inversion H; subst; exact Hd|]. inversion Hb as [|? ? B1 B2]; subst.
  peel H d1 E. apply (IH d1 d' B2); [|exact H]. rewrite loadRow_add in E by exact B1. pose proof (exact_row r B1) as [X _].
  destruct (rowUcd r) as [u|e| |]; try discriminate. pose proof (proj1 (X u) eq_refl) as R. unfold addUcd in E. peel E d2 E2. pose proof (processLinks_map _ _ _ _ _ E2) as M.
  rewrite M in E. destruct Hd as [S Hd]. destruct (mfind (ucdName u) (ucdMap d)); [discriminate|]. inversion E; subst. cbn [ucdMap]. split; cbn [ucdMap].
  - apply mupdate_sorted. exact S.
  - intros n v. destruct (beq n (ucdName u)) eqn:B.
    + apply beq_eq in B. subst n. rewrite mupdate_same by exact S. intros [= <-]. exists r. auto.
    + apply beq_neq in B. rewrite mupdate_other by exact B. apply Hd.
Qed.
Lemma entry_texts : forall u, row_entry u ->
  (exists a, entryCodeAndName (ucdName u) = Val a /\ code_and_name (ucdName u) a)
  /\ exists ts, Forall2 code_and_name (ucdLinks u) ts /\ linkCodeAndNames u = Val (separated (b_ ", ") ts).
Proof.
  intros u [r [B R]]. split; [|eapply link_texts; eassumption]. destruct (is_name r u R) as [-> [L [c [_ [Hk Hu]]]]].
  apply (entry_text _ c); [apply B|]. apply short_name; auto.
Qed.
Lemma link_name : forall u, row_entry u -> ucdLinks u <> [] -> exists s, nth_error LinkTypeNames (N.to_nat (ucdLinkType u)) = Some s.
Proof.
  intros u [r [B R]] H. pose proof (proj1 (has_links r u R)) as L. unfold hasLinks in L. destruct (ucdLinks u) eqn:E; [congruence|]. specialize (L eq_refl).
  destruct (is_links r u R) as [_ [_ K]]. specialize (K L). destruct (is_link_type r u R) as [[T _]|T]; [congruence|eauto].
Qed.
Lemma linkLines_spec : forall ucd l, entries ucd -> exists ts, Forall2 (link_line ucd) l ts /\ linkLines ucd l = Val (concat ts).
Proof.
  intros ucd l [_ He]. induction l as [|k l [ts [F E]]]; [exists []; split; [constructor|reflexivity]|].
  cbn [linkLines]. rewrite E. destruct (mfind (kName k) (ucdMap ucd)) as [u|] eqn:Fk.
  - pose proof (He _ _ Fk) as Hu. unfold hasLinks. destruct (ucdLinks u) as [|x xs] eqn:L.
    + cbn [obind]. exists ([] :: ts). split; [|reflexivity]. constructor; [|exact F]. unfold link_line. rewrite Fk, L. reflexivity.
    + destruct (entry_texts u Hu) as [[a [E1 C1]] [bs [C2 E2]]]. rewrite E1. cbn [obind]. rewrite E2. cbn [obind].
      destruct (link_name u Hu) as [s Hs]; [congruence|]. eexists (_ :: ts). split; cycle 1; [reflexivity|]. constructor; [|exact F]. unfold link_line. rewrite Fk, L.
      exists a, bs. split; [exact C1|]. split; [rewrite <- L; exact C2|]. rewrite (nth_error_nth _ _ (b_ "None") Hs), (nth_error_nth _ _ ([] : bytes) Hs). reflexivity.
  - cbn [obind]. eexists (_ :: ts). split; cycle 1; [reflexivity|]. constructor; [|exact F]. unfold link_line. rewrite Fk. reflexivity.
Qed.
Lemma printLinks_spec : forall ucd name l, entries ucd -> exists t, printLinks ucd name l = Val t /\ links_report ucd name l t.
Proof.
  intros ucd name l He. destruct (linkLines_spec ucd l He) as [ts [F E]]. unfold printLinks. rewrite E. cbn [obind]. eexists. split; [reflexivity|].
  exists ts. split; [exact F|]. rewrite countIf_spec. unfold line, logText, entry. rewrite <- !app_assoc.
  rewrite (count_ext _ (fun i => match mfind (kName i) (ucdMap ucd) with Some j => hasLinks j | None => false end)
             (fun k => match linked_entry ucd k with Some _ => true | None => false end)); [reflexivity|].
  intro k. unfold linked_entry, hasLinks. destruct (mfind (kName k) (ucdMap ucd)) as [u|]; [|reflexivity]. destruct (ucdLinks u); reflexivity.
Qed.

(** * Variation selectors *)

Lemma unicode_any : forall s, bytes_ok s -> exists cs us, fromUtf8 s 0 = Val cs /\ Forall2 shown_code us cs
  /\ toUnicode_string s Square = Val (b_ "[" ++ join 32 us ++ b_ "]").
Proof.
  intros s H. destruct (decoder_total s 0 H) as [cs [E _]]. destruct (unicode_loop cs []) as [us [F E']]. exists cs, us. split; [exact E|]. split; [exact F|].
  unfold toUnicode_string, toUnicode_codes. rewrite E. cbn [obind]. rewrite E'. cbn [obind]. destruct us; reflexivity.
Qed.
Lemma find_entry : forall ucd s u, entries ucd -> ucdFind ucd s = Val (Some u) -> row_entry u.
Proof.
  intros ucd s u [_ He] H. unfold ucdFind in H. peel H v E. destruct v.
  - peel H n E2. destruct (mfind n (linkedJinmei ucd)); [|discriminate]. injection H as H. eapply He. exact H.
  - injection H as H. eapply He. exact H.
Qed.
Lemma selectorLines_spec : forall ucd es i, entries ucd -> Forall (fun e => bytes_ok (kName (snd e))) es ->
  let l := filter selected_name (map snd es) in
  (Forall (fun k => exists u, ucdFind ucd (kName k) = Val (Some u)) l ->
     exists ts, Forall2 (fun p t => selector_line ucd (N.of_nat (fst p)) (snd p) t) (combine (seq (S i) (List.length l)) l) ts
       /\ selectorLines ucd es (N.of_nat i) = Val (concat ts))
  /\ (~ Forall (fun k => exists u, ucdFind ucd (kName k) = Val (Some u)) l -> selectorLines ucd es (N.of_nat i) = Throw DomainError).
Proof.
  intros ucd es i He. revert i. induction es as [|[n k] es IH]; intros i Hb; cbn [map filter snd].
  { split; [intros _; exists []; split; [constructor|reflexivity]|intro K; exfalso; apply K; constructor]. }
  inversion Hb as [|? ? B1 B2]; subst. cbn [snd] in B1. cbn [selectorLines]. rewrite variant_total. cbn [obind]. destruct (selected_name k) eqn:V; [|apply IH; exact B2].
  destruct (unicode_any (kName k) B1) as [cs [us [U1 [U2 U3]]]]. rewrite U3. cbn [obind].
  assert (Nv : nonVariantName k = Val (firstn (List.length (kName k) - 3) (kName k))).
  { unfold nonVariantName, noVariationSelector. pose proof (variant_total k) as W. unfold variant in W. rewrite W, V. reflexivity. }
  rewrite Nv. cbn [obind]. destruct (ucdFind_total ucd (kName k)) as [o Fo]. rewrite Fo. cbn [obind].
  replace (N.of_nat i + 1) with (N.of_nat (S i)) by lia. destruct (IH (S i) B2) as [IH1 IH2]. destruct o as [u|].
  - destruct (entry_texts u (find_entry _ _ _ He Fo)) as [[a [E1 C1]] [bs [C2 E2]]]. rewrite E1. cbn [obind].
    assert (X : exists t, (if hasLinks u then x <- linkCodeAndNames u ;; Val (b_ " variant of " ++ x) else Val []) = Val t
                 /\ t = match bs with [] => [] | _ => b_ " variant of " ++ separated (b_ ", ") bs end).
    { unfold hasLinks. destruct (ucdLinks u) as [|x xs]; inversion C2; subst; [eauto|]. rewrite E2. cbn [obind]. eauto. }
    destruct X as [t [X ->]]. rewrite X. cbn [obind]. split.
    + intro K. inversion K as [|? ? K1 K2]; subst. destruct (IH1 K2) as [ts [F E]]. rewrite E. cbn [obind].
      exists (line (b_ "    " ++ to_string (N.of_nat (S i)) ++ repeat 32 (3 - List.length (to_string (N.of_nat (S i)))) ++ b_ "    [" ++ join 32 us ++ b_ "] " ++ kName k
                 ++ b_ " variant of " ++ firstn (List.length (kName k) - 3) (kName k) ++ b_ "    " ++ a
                 ++ match bs with [] => [] | _ => b_ " variant of " ++ separated (b_ ", ") bs end) :: ts). split.
      * cbn [List.length seq combine]. constructor; [|exact F]. cbn [fst snd]. exists cs, us, u, a, bs. do 5 (split; [assumption|]). reflexivity.
      * cbn [concat]. unfold line, logText, putSetw. rewrite <- !app_assoc. reflexivity.
    + intro K. rewrite IH2; [reflexivity|]. intro K2. apply K. constructor; [eauto|exact K2].
  - split; [|reflexivity]. intro K. exfalso. inversion K as [|? ? [u Hu] _]; subst. congruence.
Qed.
Lemma printUcd_spec : forall ucd d, entries ucd -> Forall (fun e => bytes_ok (kName (snd e))) (dNames d) ->
  (selectors_found ucd d -> exists t, printUcd ucd d = Val t /\ ucd_report ucd d t)
  /\ (~ selectors_found ucd d -> printUcd ucd d = Throw DomainError).
Proof.
  intros ucd d He Hb. unfold printUcd, printSelectors. pose proof (counts_of_ucd _ (ucdMap ucd) eq_refl) as C. cbn zeta in C.
  destruct (ucdCount (ucdMap ucd) _ _ _) as [[j m] o].
  destruct (printLinks_spec ucd (b_ "Frequency") (typeList d FrequencyType) He) as [a [Ea Ra]].
  destruct (printLinks_spec ucd (b_ "Extra") (typeList d Extra) He) as [b [Eb Rb]]. rewrite Ea. cbn [obind]. rewrite Eb. cbn [obind].
  destruct (selectorLines_spec ucd (dNames d) 0 He Hb) as [S1 S2]. change (N.of_nat 0) with 0 in *. split; intro K.
  - destruct (S1 K) as [ts [F E]]. rewrite E. cbn [obind]. eexists. split; [reflexivity|]. eexists a, b, _. split; [exact Ra|]. split; [exact Rb|].
    split; [exists ts; split; [exact F|reflexivity]|]. rewrite C. unfold line, logText. rewrite <- !app_assoc. reflexivity.
  - rewrite S2 by exact K. reflexivity.
Qed.

(** * All reports *)

Section All.
  Variables (ltr : bool) (f : Files) (st : list_static) (m : N) (e : Env) (d : Data) (sort : list Kanji -> list Kanji).
  Hypothesis Hf : files_ok f.
  Hypothesis Hu : Forall row_bytes (ucdRows f).
  Hypothesis H : loadData ltr f st m = Val (e, d).
  Hypothesis Hb : forall k, loaded_kanji d k -> bytes_ok (kName k) /\ kanji_ok k.
  Lemma loaded_entries : entries (envUcd e).
  Proof.
    destruct (loadData_loaded ltr f st m e d Hf H) as [O _]. apply (loadUcd_entries (ucdRows f) emptyUcdData); [exact Hu| |apply (en_ucd f e O)].
    split; [apply msorted_nil|discriminate].
  Qed.
  Lemma names_loaded : forall n k, In (n, k) (dNames d) -> n = kName k /\ loaded_kanji d k.
  Proof.
    intros n k Hk. destruct (loadData_loaded ltr f st m e d Hf H) as [O [M [js [ms [xs [lss [kss L]]]]]]]. assert (W : Wf d) by (apply L).
    pose proof (wf_names d W) as Ws. assert (F : mfind n (dNames d) = Some k) by (apply mfind_In; assumption). pose proof (wf_own d W n k F) as E. subst n. auto.
  Qed.
  Lemma names_bytes : Forall (fun e => bytes_ok (kName (snd e))) (dNames d).
  Proof. apply Forall_forall. intros [n k] Hk. destruct (names_loaded n k Hk) as [_ L]. apply (Hb k L). Qed.
  Lemma full_spec : sorts orderByStrokes sort ->
    (selectors_found (envUcd e) d -> exists t, finishedLoadingData sort DebugFull e d = Val t /\ full_report e d t)
    /\ (~ selectors_found (envUcd e) d -> finishedLoadingData sort DebugFull e d = Throw DomainError).
  Proof.
    intro Hs. destruct (printUcd_spec (envUcd e) d loaded_entries names_bytes) as [U1 U2].
    destruct (radicals_loaded ltr f st m e d sort Hf H Hb Hs) as [r [Er Rr]].
    unfold finishedLoadingData. rewrite strokes_spec. cbn [obind]. rewrite counts_spec. cbn [obind]. rewrite Er. cbn [obind]. split; intro K.
    - destruct (U1 K) as [u [Eu Ru]]. rewrite Eu. cbn [obind]. eexists. split; [reflexivity|]. exists r, u. split; [exact Rr|]. split; [exact Ru|].
      rewrite grades_spec, level_stats, kyu_stats. unfold logText, line. rewrite <- !app_assoc. reflexivity.
    - rewrite U2 by exact K. reflexivity.
  Qed.
End All.
Lemma info_spec : forall sort e d, finishedLoadingData sort DebugInfo e d = Val (info_report d).
Proof. intros sort e d. unfold finishedLoadingData. rewrite counts_spec. cbn [obind]. rewrite app_nil_r, grades_spec. reflexivity. Qed.
