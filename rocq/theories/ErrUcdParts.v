(** Lemmas about the messages about the Unicode data: strokes, sources, ids and links that are taken. *)
From Verif Require Import BaseFacts EnumSpec EnumProofs ListProofs MapProofs ColumnFileProofs ColumnFileLemmas IdsProofs ErrTableProofs ErrDetailsProofs ErrArgsProps ErrJukugoLoad.
From Verif Require Export ErrUcdProofs.
From Verif Require Import ErrBase.
Open Scope N_scope.
Arguments N.mul : simpl never.
Arguments N.add : simpl never.
Arguments N.sub : simpl never.
Arguments N.div : simpl never.
Arguments N.modulo : simpl never.
Arguments N.land : simpl never.
Arguments N.lor : simpl never.
Arguments N.pow : simpl never.

(** ** Strokes *)
Lemma range_text : forall what v, out_of_range what v (what ++ b_ "strokes '" ++ to_string v ++ b_ "' out of range").
Proof. intros what v. exists (to_string v). split; [apply to_string_written|]. unfold quoted. rewrite <- !app_assoc. reflexivity. Qed.
Lemma range_fun : forall what v w w', out_of_range what v w -> out_of_range what v w' -> w = w'.
Proof. intros what v w w' (n & W & ->) (n' & W' & ->). rewrite <- (number_of _ _ W), <- (number_of _ _ W'). reflexivity. Qed.
Lemma strokes_stage : forall v, stage (newStrokesT v) (fun s => 1 <= v <= 64 /\ s = (v, 0)) (strokes_wrong v None).
Proof.
  intro v. unfold newStrokesT, MaxStrokes. destruct ((v =? 0) || (64 <? v)) eqn:E.
  - rewrite orb_true_iff, N.eqb_eq, N.ltb_lt in E. right. eexists. eexists. split; [reflexivity|]. pose proof (range_text [] v) as T. split; [apply kw_one; [lia|exact T]|].
    split; [|intros s [H _]; lia]. intros w' X. inversion X; subst. eapply range_fun; eassumption.
  - rewrite orb_false_iff, N.eqb_neq, N.ltb_ge in E. left. eexists. split; [reflexivity|]. split; [split; [lia|reflexivity]|]. intros w X. inversion X; subst. lia.
Qed.
Lemma strokes2_stage : forall v x, stage (newStrokes2T v x) (fun s => 2 <= v <= 64 /\ 3 <= x <= 33 /\ v <> x /\ s = (v, x)) (strokes_wrong v (Some x)).
Proof.
  intros v x. unfold newStrokes2T, MaxStrokes, MaxVariant. destruct ((v <? 2) || (64 <? v)) eqn:E.
  { rewrite orb_true_iff, !N.ltb_lt in E. right. eexists. eexists. split; [reflexivity|]. pose proof (range_text [] v) as T. split; [apply kw_first; [lia|exact T]|].
    split; [|intros s [H _]; lia]. intros w' X. inversion X as [|x' w0 H O| |]; subst; [eapply range_fun; eassumption|lia..]. }
  rewrite orb_false_iff, !N.ltb_ge in E. destruct ((x <? 3) || (33 <? x)) eqn:E2.
  { rewrite orb_true_iff, !N.ltb_lt in E2. right. eexists. eexists. split; [reflexivity|]. pose proof (range_text (b_ "variant ") x) as T. split; [apply kw_second; [lia|lia|exact T]|].
    split; [|intros s [_ [H _]]; lia]. intros w' X. inversion X as [|x' w0 H O| |]; subst; [lia|eapply range_fun; eassumption|lia]. }
  rewrite orb_false_iff, !N.ltb_ge in E2. destruct (N.eqb_spec v x) as [->|Ne].
  - right. eexists. eexists. split; [reflexivity|].
    assert (T : b_ "strokes and variant strokes are the same '" ++ to_string x ++ b_ "'" = b_ "strokes and variant strokes are the same " ++ quoted (to_string x)) by (unfold quoted; rewrite <- ?app_assoc; reflexivity).
    rewrite T. split; [apply kw_same; [lia|lia|apply to_string_written]|]. split; [|intros s (_ & _ & H & _); contradiction].
    intros w' X. inversion X as [|x' w0 H O|x' w0 A0 H O|n A1 A2 Wn]; subst; [lia|lia|]. rewrite <- (number_of _ _ Wn). reflexivity.
  - left. eexists. split; [reflexivity|]. split; [split; [lia|split; [lia|split; [exact Ne|reflexivity]]]|]. intros w X. inversion X; subst; lia.
Qed.

(** ** Sources *)
Lemma loopT_sources : forall s l a r, NoDup a -> incl a source_letters -> (forall i, N.testbit r i = letterBits a i) ->
  stage (sourcesLoopT s l r) (fun _ => NoDup (a ++ l) /\ incl (a ++ l) source_letters)
    (fun w => exists b c d, l = b ++ c :: d /\ NoDup (a ++ b) /\ incl (a ++ b) source_letters
      /\ ((In c (a ++ b) /\ w = b_ "sources " ++ quoted s ++ b_ " " ++ b_ "has duplicate value: " ++ [c])
          \/ (~ In c source_letters /\ w = b_ "sources " ++ quoted s ++ b_ " " ++ b_ "has unrecognized value: " ++ [c]))).
Proof.
  intro s. induction l as [|c l IH]; intros a r Nd Inc Hr; cbn [sourcesLoopT].
  { left. exists r. rewrite app_nil_r. split; [reflexivity|]. split; [auto|]. intros w (b & c & d & E & _). destruct b; discriminate E. }
  assert (T : forall m, @sourcesError N s m = Says DomainError (b_ "sources " ++ quoted s ++ b_ " " ++ m)) by (intro m; unfold sourcesError, quoted; rewrite <- ?app_assoc; reflexivity).
  rewrite letterBit_index. destruct (letterIndex c) as [i|] eqn:E; cbn [option_map].
  - assert (Ic : In c source_letters) by (apply letter_In; congruence).
    rewrite land_pow, Hr. assert (B : letterBits a i = true <-> In c a).
    { unfold letterBits. rewrite existsb_exists. split.
      - intros (x & I & X). destruct (letterIndex x) as [j|] eqn:Ex; [|discriminate X]. apply N.eqb_eq in X. subst j. rewrite <- (letterIndex_inj x c i Ex E). exact I.
      - intro I. exists c. split; [exact I|]. rewrite E. apply N.eqb_refl. }
    destruct (letterBits a i); cbn [negb].
    + rewrite T. pose proof (proj1 B eq_refl) as Ia. right. eexists. eexists. split; [reflexivity|]. split.
      { exists [], c, l. rewrite app_nil_r. split; [reflexivity|]. split; [exact Nd|]. split; [exact Inc|]. left. auto. }
      split.
      * intros w' (b & x & d & El & N2 & I2 & H). destruct b as [|y b].
        -- cbn [app] in El. injection El as -> ->. destruct H as [[_ ->]|[H _]]; [reflexivity|contradiction].
        -- cbn [app] in El. injection El as -> ->. apply NoDup_remove_2 in N2. exfalso. apply N2. apply in_or_app. auto.
      * intros v [N2 _]. apply NoDup_remove_2 in N2. apply N2. apply in_or_app. auto.
    + assert (Na : ~ In c a) by (intro I; apply B in I; discriminate I).
      assert (Nd2 : NoDup (a ++ [c])) by (apply NoDup_app_iff; split; [exact Nd|split; [constructor; [intros []|constructor]|intros x Hx [<-|[]]; contradiction]]).
      assert (Inc2 : incl (a ++ [c]) source_letters) by (intros x Hx; apply in_app_iff in Hx; destruct Hx as [Hx|[<-|[]]]; [apply Inc; exact Hx|exact Ic]).
      assert (Hr2 : forall j, N.testbit (N.lor r (2 ^ i)) j = letterBits (a ++ [c]) j).
      { intro j. rewrite lor_pow, Hr. unfold letterBits. rewrite existsb_app. cbn [existsb]. rewrite E, orb_false_r. reflexivity. }
      specialize (IH (a ++ [c]) (N.lor r (2 ^ i)) Nd2 Inc2 Hr2). rewrite <- app_assoc in IH. cbn [app] in IH.
      assert (Shift : forall b, (a ++ [c]) ++ b = a ++ c :: b) by (intro b; rewrite <- app_assoc; reflexivity).
      destruct IH as [(v & Ev & Pv & Nw)|(e & w & Ew & Ww & U & Np)].
      * left. exists v. split; [exact Ev|]. split; [exact Pv|]. intros w (b & x & d & El & N2 & I2 & H). destruct b as [|y b].
        -- rewrite app_nil_r in *. cbn [app] in El. injection El as -> ->. destruct H as [[H _]|[H _]]; contradiction.
        -- cbn [app] in El. injection El as -> ->. apply (Nw w). exists b, x, d. rewrite Shift. auto.
      * right. exists e, w. split; [exact Ew|]. split; [destruct Ww as (b & x & d & -> & N2 & I2 & H); exists (c :: b), x, d; rewrite Shift in *; auto|]. split; [|exact Np].
        intros w' (b & x & d & El & N2 & I2 & H). destruct b as [|y b].
        -- rewrite app_nil_r in *. cbn [app] in El. injection El as -> ->. destruct H as [[H _]|[H _]]; contradiction.
        -- cbn [app] in El. injection El as -> ->. apply U. exists b, x, d. rewrite Shift. auto.
  - assert (Ic : ~ In c source_letters) by (intro I; apply letter_In in I; congruence). rewrite T. right. eexists. eexists. split; [reflexivity|]. split.
    { exists [], c, l. rewrite app_nil_r. split; [reflexivity|]. split; [exact Nd|]. split; [exact Inc|]. right. auto. }
    split.
    + intros w' (b & x & d & El & N2 & I2 & H). destruct b as [|y b].
      * rewrite app_nil_r in *. cbn [app] in El. injection El as -> ->. destruct H as [[H _]|[_ ->]]; [destruct (Ic (Inc _ H))|reflexivity].
      * cbn [app] in El. injection El as -> ->. exfalso. apply Ic, I2. apply in_or_app. right. left. reflexivity.
    + intros v [_ I2]. apply Ic, I2. apply in_or_app. right. left. reflexivity.
Qed.
Lemma sources_stage : forall s j n, stage (getSourcesT s j n) (fun _ => good_sources s) (fun w => exists why, sources_wrong s why /\ w = b_ "sources " ++ quoted s ++ b_ " " ++ why).
Proof.
  intros s j n. unfold getSourcesT. change (len SourceLetterMap) with 6. destruct (6 <? len s) eqn:L.
  - rewrite N.ltb_lt in L. right. eexists. eexists. assert (T : forall m, @sourcesError N s m = Says DomainError (b_ "sources " ++ quoted s ++ b_ " " ++ m)) by (intro m; unfold sourcesError, quoted; rewrite <- ?app_assoc; reflexivity).
    split; [apply T|]. split; [eexists; split; [apply sw_long; exact L|reflexivity]|]. split.
    + intros w' (why & X & ->). destruct X; [reflexivity|lia|lia].
    + intros v G. apply good_len in G. lia.
  - rewrite N.ltb_ge in L.
    assert (Eq : forall w, (exists why, sources_wrong s why /\ w = b_ "sources " ++ quoted s ++ b_ " " ++ why) <->
      exists b c d, s = b ++ c :: d /\ NoDup ([] ++ b) /\ incl ([] ++ b) source_letters
      /\ ((In c ([] ++ b) /\ w = b_ "sources " ++ quoted s ++ b_ " " ++ b_ "has duplicate value: " ++ [c])
          \/ (~ In c source_letters /\ w = b_ "sources " ++ quoted s ++ b_ " " ++ b_ "has unrecognized value: " ++ [c]))).
    { intro w. split.
      - intros (why & X & ->). destruct X as [X|a c b _ E Nd Inc I|a c b _ E Nd Inc I]; [lia|exists a, c, b; auto 6..].
      - intros (b & c & d & E & Nd & Inc & H). destruct H as [[I ->]|[I ->]]; eexists; (split; [|reflexivity]); [exact (sw_twice s b c d L E Nd Inc I)|exact (sw_unknown s b c d L E Nd Inc I)]. }
    destruct (loopT_sources s s [] 0 (NoDup_nil _) (incl_nil_l _) (fun i => N.bits_0 i)) as [(v & -> & G & Nw)|(e & w & -> & Ww & U & Np)]; cbn [rbind].
    + left. eexists. split; [reflexivity|]. split; [exact G|]. intros w X. apply Eq in X. exact (Nw w X).
    + right. exists e, w. split; [reflexivity|]. split; [apply Eq; exact Ww|]. split; [intros w' X; apply Eq in X; exact (U w' X)|]. intros v G. exact (Np v G).
Qed.
Lemma getSourcesT_plain : forall s j n, plain (getSourcesT s j n) = getSources s j n.
Proof.
  intros s j n. unfold getSourcesT, getSources. destruct (len SourceLetterMap <? len s); [reflexivity|].
  assert (X : forall l r, plain (sourcesLoopT s l r) = sourcesLoop l r).
  { induction l as [|c l IH]; intro r; [reflexivity|]. cbn [sourcesLoopT sourcesLoop]. destruct (letterBit SourceLetterMap c) as [b|]; [|reflexivity]. destruct (negb (N.land r b =? 0)); [reflexivity|apply IH]. }
  rewrite plain_bind, X. destruct (sourcesLoop s 0); reflexivity.
Qed.

(** ** Link types *)
Lemma type_stage : forall s, stage (fromStringAllowEmptyT AllUcdLinkTypes s) (fun _ => s = [] \/ In s LinkTypeNames)
  (fun w => s <> [] /\ ~ In s LinkTypeNames /\ w = b_ "name " ++ quoted s ++ b_ " not found").
Proof.
  intro s. destruct (exact_linktype s) as [X1 X2]. unfold fromStringAllowEmptyT, fromStringAllowEmpty in *. destruct (isEmpty s) eqn:E.
  - assert (Es : s = []) by (destruct s; [reflexivity|discriminate E]). left. eexists. split; [reflexivity|]. split; [left; exact Es|]. intros w [H _]. contradiction.
  - assert (Es : s <> []) by (intros ->; discriminate E). unfold enumFromStringT. destruct X2 as [[v Ev]|[e Ev]]; rewrite Ev.
    + left. exists v. split; [reflexivity|]. assert (I : In s LinkTypeNames) by (apply X1 in Ev; destruct Ev as [[H _]|H]; [contradiction|eapply nth_error_In; exact H]).
      split; [right; exact I|]. intros w (_ & H & _). contradiction.
    + right. eexists. eexists. split; [reflexivity|].
      assert (T : b_ "name '" ++ s ++ b_ "' not found" = b_ "name " ++ quoted s ++ b_ " not found") by (unfold quoted; rewrite <- ?app_assoc; reflexivity). rewrite T.
      assert (No : ~ In s LinkTypeNames).
      { intro I. apply In_nth_error in I. destruct I as [m Hm]. assert (Y : Throw e = Val (N.of_nat m)) by (rewrite <- Ev; apply X1; right; rewrite Nnat.Nat2N.id; exact Hm). discriminate Y. }
      split; [auto|]. split; [intros w' (_ & _ & ->); reflexivity|]. intros v [H|H]; contradiction.
Qed.
Lemma typeT_plain : forall s, plain (fromStringAllowEmptyT AllUcdLinkTypes s) = fromStringAllowEmpty AllUcdLinkTypes s.
Proof. intro s. unfold fromStringAllowEmptyT, fromStringAllowEmpty, enumFromStringT. destruct (isEmpty s); [reflexivity|]. destruct (enumFromString AllUcdLinkTypes s); reflexivity. Qed.

(** ** Ids *)
Lemma moro_stage : forall s, stage (newMorohashiT s) (fun m => morohashi s (fst m) (snd m)) (fun w => exists why, id_wrong s why /\ w = id_message s why).
Proof.
  intro s. destruct (id_wrong_or_not s) as [(i & t & E & M)|(why & W)].
  - left. exists (i, t). split; [exact E|]. split; [exact M|]. intros w X. assert (Y : newMorohashiT s = Says DomainError w) by (apply id_says; auto). congruence.
  - right. assert (Y : newMorohashiT s = Says DomainError (id_message s why)) by (apply id_says; eauto). exists DomainError, (id_message s why). split; [exact Y|].
    split; [eauto|]. split.
    + intros w' X. assert (Z : newMorohashiT s = Says DomainError w') by (apply id_says; auto). rewrite Y in Z. apply says_inj in Z. destruct Z as [_ Z]. symmetry. exact Z.
    + intros [i t] M. apply morohashi_iff in M. rewrite <- newMorohashiT_plain, Y in M. discriminate M.
Qed.

(** ** Links that are taken *)
Section Taken.
Variables (file : bytes) (k : N).
Hypothesis K : k <> 0.
Lemma processLinksT_plain : forall links n j d, plain (processLinksT file k links n j d) = processLinks links n j d.
Proof.
  induction links as [|l ls IH]; intros n j d; [reflexivity|]. cbn [processLinksT processLinks]. destruct (negb j); [apply IH|]. destruct (mfind l (linkedJinmei d)); [reflexivity|apply IH].
Qed.
Lemma processT_other : forall links n d, exists d', processLinksT file k links n false d = Got d'.
Proof. induction links as [|l ls IH]; intros n d; [eexists; reflexivity|]. cbn [processLinksT negb]. apply IH. Qed.
(** [a]: the links of the row that were already added to [d] *)
Lemma taken_stage : forall us n links a d, sorted_data d -> NoDup (map fst (jinmei_links us)) -> NoDup a -> (forall x, In x a -> ~ In x (map fst (jinmei_links us))) ->
  (forall l m, mfind l (linkedJinmei d) = Some m <-> (In l a /\ m = n) \/ In (l, m) (jinmei_links us)) ->
  stage (processLinksT file k links n true d) (fun _ => NoDup (a ++ links) /\ forall l, In l (a ++ links) -> ~ In l (map fst (jinmei_links us)))
    (fun w => exists b l c m, links = b ++ l :: c /\ NoDup (a ++ b) /\ (forall x, In x (a ++ b) -> ~ In x (map fst (jinmei_links us)))
      /\ ((In l (a ++ b) /\ m = n) \/ In (l, m) (jinmei_links us))
      /\ w = (b_ "jinmei entry " ++ quoted n ++ b_ " with link " ++ quoted l ++ b_ " failed - link already points to " ++ quoted m) ++ in_row file k).
Proof.
  intros us n. induction links as [|x links IH]; intros a d Sd Nj Na Fr Hd; cbn [processLinksT negb].
  { left. exists d. rewrite app_nil_r. split; [reflexivity|]. split; [auto|]. intros w (b & l & c & m & E & _). destruct b; discriminate E. }
  assert (Uj : forall l m m', In (l, m) (jinmei_links us) -> In (l, m') (jinmei_links us) -> m = m').
  { intros l m m' A B. assert (X : mfind l (linkedJinmei d) = Some m) by (apply Hd; auto). assert (Y : mfind l (linkedJinmei d) = Some m') by (apply Hd; auto). congruence. }
  assert (Ij : forall l m, In (l, m) (jinmei_links us) -> In l (map fst (jinmei_links us))) by (intros l m A; apply in_map_iff; exists (l, m); auto).
  destruct (mfind x (linkedJinmei d)) as [m|] eqn:F.
  - pose proof (proj1 (Hd x m) F) as Hm. rewrite table_msg by exact K. right. eexists. eexists. split; [reflexivity|].
    assert (T : b_ "jinmei entry '" ++ n ++ b_ "' with link '" ++ x ++ b_ "' failed - link already points to '" ++ m ++ b_ "'"
      = b_ "jinmei entry " ++ quoted n ++ b_ " with link " ++ quoted x ++ b_ " failed - link already points to " ++ quoted m) by (unfold quoted; rewrite <- ?app_assoc; reflexivity).
    rewrite T. split; [exists [], x, links, m; rewrite app_nil_r; auto 6|]. split.
    + intros w' (b & l & c & m' & E & Nb & Fb & H & ->). destruct b as [|y b].
      * rewrite app_nil_r in *. cbn [app] in E. injection E as -> ->.
        assert (Em : m' = m) by (assert (X : mfind l (linkedJinmei d) = Some m') by (apply Hd; exact H); congruence). rewrite Em. reflexivity.
      * cbn [app] in E. injection E as -> ->. exfalso. destruct Hm as [[I _]|I].
        -- apply NoDup_remove_2 in Nb. apply Nb. apply in_or_app. auto.
        -- apply (Fb y); [apply in_or_app; right; left; reflexivity|exact (Ij _ _ I)].
    + intros v [Nb Fb]. destruct Hm as [[I _]|I].
      * apply NoDup_remove_2 in Nb. apply Nb. apply in_or_app. auto.
      * apply (Fb x); [apply in_or_app; right; left; reflexivity|exact (Ij _ _ I)].
  - assert (Nx : ~ In x a) by (intro I; assert (X : mfind x (linkedJinmei d) = Some n) by (apply Hd; auto); congruence).
    assert (Nx2 : ~ In x (map fst (jinmei_links us))).
    { intro I. apply in_map_iff in I. destruct I as ([l m] & El & I). cbn [fst] in El. subst l. assert (X : mfind x (linkedJinmei d) = Some m) by (apply Hd; auto). congruence. }
    set (d1 := MkUcdData (ucdMap d) (mupdate (fun _ => n) x (linkedJinmei d)) (linkedOther d)).
    assert (Sd1 : sorted_data d1) by (destruct Sd as [S1 [S2 S3]]; split; [exact S1|split; [apply mupdate_sorted; exact S2|exact S3]]).
    assert (Na1 : NoDup (a ++ [x])) by (apply NoDup_app_iff; split; [exact Na|split; [constructor; [intros []|constructor]|intros y Hy [<-|[]]; contradiction]]).
    assert (Fr1 : forall y, In y (a ++ [x]) -> ~ In y (map fst (jinmei_links us))) by (intros y Hy; apply in_app_iff in Hy; destruct Hy as [Hy|[<-|[]]]; [exact (Fr y Hy)|exact Nx2]).
    assert (Hd1 : forall l m, mfind l (linkedJinmei d1) = Some m <-> (In l (a ++ [x]) /\ m = n) \/ In (l, m) (jinmei_links us)).
    { intros l m. cbn [d1 linkedJinmei]. rewrite in_app_iff. cbn [In]. destruct (beq l x) eqn:B.
      - apply beq_eq in B. subst l. rewrite mupdate_same by (destruct Sd as [_ [S2 _]]; exact S2). split.
        + intros [= <-]. auto.
        + intros [[_ ->]|I]; [reflexivity|]. destruct (Nx2 (Ij _ _ I)).
      - apply beq_neq in B. rewrite mupdate_other by exact B. rewrite Hd. split; [intros [[I E]|I]; auto|]. intros [[[I|[I|[]]] E]|I]; [auto|congruence|auto]. }
    specialize (IH (a ++ [x]) d1 Sd1 Nj Na1 Fr1 Hd1).
    assert (Shift : forall b, (a ++ [x]) ++ b = a ++ x :: b) by (intro b; rewrite <- app_assoc; reflexivity). rewrite Shift in IH.
    destruct IH as [(v & Ev & Pv & Nw)|(e & w & Ew & Ww & U & Np)].
    + left. exists v. split; [exact Ev|]. split; [exact Pv|]. intros w (b & l & c & m & E & Nb & Fb & H & Ew). destruct b as [|y b].
      * rewrite app_nil_r in *. cbn [app] in E. injection E as -> ->. destruct H as [[I _]|I]; [contradiction|]. exact (Nx2 (Ij _ _ I)).
      * cbn [app] in E. injection E as -> ->. apply (Nw w). exists b, l, c, m. rewrite Shift. auto 6.
    + right. exists e, w. split; [exact Ew|]. split; [destruct Ww as (b & l & c & m & -> & Nb & Fb & H & X); exists (x :: b), l, c, m; rewrite Shift in *; auto 6|].
      split; [|exact Np]. intros w' (b & l & c & m & E & Nb & Fb & H & Ew'). destruct b as [|y b].
      * rewrite app_nil_r in *. cbn [app] in E. injection E as -> ->. destruct H as [[I _]|I]; [contradiction|]. destruct (Nx2 (Ij _ _ I)).
      * cbn [app] in E. injection E as -> ->. apply U. exists b, l, c, m. rewrite Shift. auto 6.
Qed.
End Taken.
