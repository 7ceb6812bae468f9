(** Lemmas about the reports on loaded data. *)
From Verif Require Import BaseFacts MapProofs DataProofs LoadModel LoadSpec LoadProofs LoadAttr LoadPhases LoadLists LoadEnv LoadWhole LoadMade LoadFacts
  LoadProps ReportModel ReportSpec ReportProofs.

Section Loaded.
  Variables (ltr : bool) (f : Files) (st : list_static) (m : N) (e : Env) (d : Data).
  Hypothesis Hf : files_ok f.
  Hypothesis H : loadData ltr f st m = Val (e, d).
  Lemma loaded_wf : Wf d.
  Proof. destruct (loadData_loaded ltr f st m e d Hf H) as [O [M [js [ms [xs [lss [kss L]]]]]]]. apply L. Qed.
  Lemma names_own : forall n k, In (n, k) (dNames d) -> n = kName k /\ loaded_kanji d k.
  Proof.
    intros n k Hk. pose proof loaded_wf as W. pose proof (wf_names d W) as Ws. assert (F : mfind n (dNames d) = Some k) by (apply mfind_In; assumption).
    pose proof (wf_own d W n k F) as E. subst n. auto.
  Qed.
  Lemma real_type : forall k, loaded_kanji d k -> In (kType k) real_types.
  Proof.
    intros k Hk. destruct (loadData_loaded ltr f st m e d Hf H) as [O [M [js [ms [xs [lss [kss L]]]]]]].
    pose proof (lo_attr _ _ _ _ _ _ _ _ L _ _ (proj1 (loaded_iff d k loaded_wf) Hk)) as A. apply at_type in A. destruct (kType k); cbn; auto 10.
  Qed.
  Lemma type_cases : forall t, In t real_types -> (t = Jouyou \/ t = Jinmei \/ t = Extra) \/ made_singly t.
  Proof. intros t Ht. unfold made_singly. cbn in Ht. intuition. Qed.
  Lemma names_listed : forall s, In s (map fst (dNames d)) <-> In s (map kName (all_kanji d)).
  Proof.
    intro s. destruct (C79_rows_partial ltr f st m e d Hf H) as [_ [_ [_ [R1 R2]]]]. split; intro Hs; apply in_map_iff in Hs; destruct Hs as [x [<- Hx]].
    - destruct x as [n k]. cbn [fst]. destruct (names_own n k Hx) as [-> Hk]. apply in_map. unfold all_kanji. apply in_flat_map. exists (kType k).
      pose proof (real_type k Hk) as T. split; [exact T|]. destruct (type_cases _ T) as [C|C]; [apply R1; assumption|].
      apply (C79_made_singly ltr f st m e d (kType k) Hf H C). auto.
    - unfold all_kanji in Hx. apply in_flat_map in Hx. destruct Hx as [t [Ht Hx]].
      assert (K : exists k, loaded_kanji d k /\ kName k = kName x).
      { destruct (type_cases _ Ht) as [C|C]; [exact (R2 t x C Hx)|]. exists x. split; [|reflexivity]. apply (C79_made_singly ltr f st m e d t Hf H C). exact Hx. }
      destruct K as [k [Hk <-]]. apply in_map_iff. exists (kName k, k). auto.
  Qed.
  Lemma names_nodup : NoDup (map fst (dNames d)).
  Proof. apply msorted_nodup. apply (wf_names d loaded_wf). Qed.
  Lemma sizes_add_up : NoDup (map kName (all_kanji d)) -> sum (map (fun t => len (type_list d t)) real_types) = len (dNames d).
  Proof.
    intro N1. pose proof (NoDup_Permutation names_nodup N1 names_listed) as P. apply Permutation_length in P. rewrite !map_length in P.
    transitivity (len (all_kanji d)); [|unfold len; rewrite P; reflexivity]. unfold all_kanji. rewrite len_flat. reflexivity.
  Qed.
  Lemma jouyou_graded : grade_line (type_list d Jouyou) NoGrade = [] /\ len (type_list d Jouyou) = len (jouyouRows f).
  Proof.
    destruct (C79_rows_partial ltr f st m e d Hf H) as [J _]. split.
    - unfold grade_line. replace (filter (grade_is NoGrade) (type_list d Jouyou)) with (@nil Kanji); [reflexivity|].
      induction J as [|r k rs ks [_ [_ [G _]]] _ IH]; [reflexivity|]. cbn [filter]. rewrite <- IH.
      assert (E : grade_is NoGrade k = false) by (unfold grade_is; destruct (kGrade k); try reflexivity; congruence). rewrite E. reflexivity.
    - clear -J. induction J as [|r k rs ks _ _ IH]; [reflexivity|]. rewrite !len_cons, IH. reflexivity.
  Qed.
End Loaded.
