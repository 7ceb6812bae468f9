(** Lemmas about the messages about the Unicode data: a whole row. *)
From Verif Require Import BaseFacts ListProofs MapProofs ColumnFileProofs ColumnFileLemmas IdsProofs ErrTableProofs ErrDetailsProofs ErrArgsProps ErrJukugoLoad.
From Verif Require Export ErrUcdParts.
From Verif Require Import ErrBase.
Open Scope N_scope.
Arguments N.mul : simpl never.
Arguments N.add : simpl never.
Arguments N.sub : simpl never.

(** what is known about the data after some rows *)
Definition loaded (d : UcdData) (us : list Ucd) : Prop :=
  sorted_data d /\ holds d us /\ NoDup (map ucdName us) /\ NoDup (map fst (jinmei_links us)).
Lemma loaded_nothing : loaded emptyUcdData [].
Proof.
  split; [split; [constructor|split; constructor]|]. split; [|split; constructor]. split; [|split].
  - intros n u. cbn. split; [discriminate|intros [[] _]].
  - intros l n. cbn. split; [discriminate|intros []].
  - intro l. reflexivity.
Qed.

Lemma flag_fun : forall s a b, flag s a -> flag s b -> a = b.
Proof. intros s a b A B. destruct (exact_bool s) as [X _]. apply X in A, B. congruence. Qed.
Lemma u8_small : forall v, v <= 255 -> u8 v = v.
Proof. intros v H. unfold u8. apply N.mod_small. lia. Qed.
Lemma just_fun : forall at_row t w, just at_row t w -> w = t ++ at_row.
Proof. intros at_row t w H. exact H. Qed.

Section Row.
Variable ltr : bool.
Variables (file : bytes) (k : N).
Hypothesis K : k <> 0.
Variable r : UcdRow.
Hypothesis Hb : row_bytes r.
Let at_row := in_row file k.

Lemma caught_stop : forall A e w (c : check) cs, ~ fst c -> snd c (w ++ at_row) -> (forall w', snd c w' -> w' = w ++ at_row) ->
  tells (asErrorT file k (@Says A e w)) (c :: cs).
Proof. intros A e w c cs N0 H U. cbn [asErrorT]. rewrite table_msg by exact K. apply tells_stop; assumption. Qed.
(** a value that is checked inside the try block *)
Lemma caught : forall A B (x : res A) (f : A -> res B) P W (c : check) cs, stage x P W -> (fst c <-> exists v, P v) ->
  (forall w, snd c w <-> exists w0, W w0 /\ w = w0 ++ at_row) ->
  (forall v, x = Got v -> P v -> tells (asErrorT file k (f v)) cs) -> tells (asErrorT file k (rbind x f)) (c :: cs).
Proof.
  intros A B x f P W c cs [(v & -> & Pv & Nw)|(e & w & -> & Ww & U & Np)] Hc Hw Hf; cbn [rbind].
  - apply tells_pass; [apply Hc; eauto|auto].
  - apply caught_stop; [rewrite Hc; intros [v Pv]; exact (Np v Pv)|apply Hw; eauto|]. intros w' X. apply Hw in X. destruct X as (w0 & X & ->). rewrite (U w0 X). reflexivity.
Qed.
Lemma rbind_assoc : forall A B C (x : res A) (f : A -> res B) (g : B -> res C), rbind (rbind x f) g = rbind x (fun a => rbind (f a) g).
Proof. intros A B C [v|e w| |] f g; reflexivity. Qed.

(** the last part: what is added to the map *)
Lemma last_tells : forall B us j n (f : N -> N * IdType -> res B),
  (forall bits moro, tells (asErrorT file k (f bits moro)) [(~ In (rName r) (map ucdName us), just at_row (b_ "duplicate entry " ++ quoted (rName r)))]) ->
  tells (asErrorT file k (rbind (getSourcesT (rSources r) j n) (fun bits => rbind (newMorohashiT (rMorohashi r)) (fun moro => f bits moro)))) (last_checks at_row us r).
Proof.
  intros B us j n f Hf. unfold last_checks. eapply caught; [apply sources_stage| | |].
  - cbn [fst]. split; [intro G; exists 0; exact G|intros [_ G]; exact G].
  - intro w. cbn [snd]. split.
    + intros (why & X & E). exists (b_ "sources " ++ quoted (rSources r) ++ b_ " " ++ why). split; [eauto|exact E].
    + intros (w0 & (why & X & ->) & E). exists why. split; [exact X|exact E].
  - intros bits _ _. eapply caught; [apply moro_stage| | |].
    + cbn [fst]. split; [intros (i & t & M); exists (i, t); exact M|intros ([i t] & M); exists i, t; exact M].
    + intro w. cbn [snd]. split.
      * intros (why & X & E). exists (id_message (rMorohashi r) why). split; [eauto|exact E].
      * intros (w0 & (why & X & ->) & E). exists why. split; [exact X|exact E].
    + intros moro _ _. apply Hf.
Qed.
Lemma code_tells : forall B (f : bytes -> res B) cs, (forall n, tells (asErrorT file k (f n)) cs) ->
  tells (asErrorT file k (rbind (fieldChar32T file k (b_ "Code") (rCode r)) (fun c => rbind (newEntryT c (rName r)) f))) (code_checks at_row r ++ cs).
Proof.
  intros B f cs Hf. unfold code_checks. cbn [app]. eapply caught; [apply char_stage; exact K| | |].
  - reflexivity.
  - intro w. cbn [snd]. split.
    + intros (why & X & ->). eexists. split; [eauto|]. rewrite <- ?app_assoc. reflexivity.
    + intros (w0 & (why & X & ->) & ->). exists why. split; [exact X|]. rewrite <- ?app_assoc. reflexivity.
  - intros c _ Hc. cbv beta in Hc. eapply caught; [apply entry_stage; exact (proj1 Hb)| | |].
    + cbn [fst]. split; [intros (x & Hx & Kx); exists (rName r); rewrite (hex_fun _ _ _ Hc Hx); auto|intros (v & _ & Kx); exists c; auto].
    + intro w. cbn [snd]. split.
      * intros (x & why & Hx & X & E). rewrite (hex_fun _ _ _ Hx Hc) in X. exists why. split; [exact X|exact E].
      * intros (w0 & X & E). exists c, w0. split; [exact Hc|]. split; [exact X|exact E].
    + intros v _ _. apply Hf.
Qed.
Lemma type_tells : forall B (f : N -> res B) cs, (forall n, tells (asErrorT file k (f n)) cs) ->
  tells (asErrorT file k (rbind (fromStringAllowEmptyT AllUcdLinkTypes (rLinkType r)) f)) (type_checks at_row r ++ cs).
Proof.
  intros B f cs Hf. unfold type_checks. cbn [app]. destruct (type_stage (rLinkType r)) as [(v & -> & P & _)|(e & w & -> & (Ne & Ni & ->) & U & Np)]; cbn [rbind].
  - apply tells_pass; [exact P|apply Hf].
  - apply caught_stop; [exact (Np 0)|reflexivity|]. intros w' X. exact X.
Qed.
Lemma type_or_code : forall B (f : bytes * N -> res B) cs, (forall n l, tells (asErrorT file k (f (n, l))) cs) ->
  tells (asErrorT file k (rbind (entryAndType ltr file k r) f)) ((if ltr then code_checks at_row r ++ type_checks at_row r else type_checks at_row r ++ code_checks at_row r) ++ cs).
Proof.
  intros B f cs Hf. unfold entryAndType. cbv zeta. destruct ltr; rewrite <- app_assoc, !rbind_assoc.
  - apply code_tells. intro n. rewrite rbind_assoc. apply type_tells. intro l. cbn [rbind]. apply Hf.
  - apply type_tells. intro l. rewrite !rbind_assoc. apply code_tells. intro n. cbn [rbind]. apply Hf.
Qed.
Lemma number_wrap : forall col value w, (exists why, number_wrong 255 value why /\ w = why ++ at_row ++ in_column col value ++ at_row) <->
  exists w0, (exists why, number_wrong 255 value why /\ w0 = why ++ at_row ++ in_column col value) /\ w = w0 ++ at_row.
Proof.
  intros col value w. split.
  - intros (why & X & ->). eexists. split; [eauto|]. rewrite <- ?app_assoc. reflexivity.
  - intros (w0 & (why & X & ->) & ->). exists why. split; [exact X|]. rewrite <- ?app_assoc. reflexivity.
Qed.
Lemma strokes_tells : forall B (f : N * N -> res B) cs, (forall s, tells (asErrorT file k (f s)) cs) ->
  tells (asErrorT file k (rbind (rowStrokesT file k r) f)) (stroke_checks at_row r ++ cs).
Proof.
  intros B f cs Hf. unfold stroke_checks, rowStrokesT. cbn [app]. destruct (isEmptyField (rVStrokes r)) eqn:E.
  - apply isEmptyField_iff in E. rewrite rbind_assoc. eapply caught; [apply u64_stage; exact K|reflexivity|intro w; apply number_wrap|].
    intros v _ [Hv Hl]. assert (Lv : v <= 255) by lia. rewrite (u8_small v Lv). apply tells_pass; [cbn [fst]; intro; contradiction|].
    eapply caught; [apply strokes_stage| | |intros s _ _; apply Hf].
    + cbn [fst]. unfold row_strokes. rewrite E. split.
      * intros (s & v' & Hv' & X). rewrite (number_fun _ _ _ Hv' Hv) in X. exists s. exact X.
      * intros (s & X). exists s, v. auto.
    + intro w. cbn [snd]. split.
      * intros (v' & x & why & Hv' & Hx & X & Ew). rewrite (number_fun _ _ _ Hv' Hv) in X. destruct x as [x|]; [destruct Hx as [Hx _]; contradiction|]. exists why. split; [exact X|exact Ew].
      * intros (w0 & X & Ew). exists v, None, w0. split; [exact Hv|]. split; [exact E|]. split; [exact X|exact Ew].
  - apply isEmptyField_false in E. rewrite rbind_assoc. eapply caught; [apply u64_stage; exact K|reflexivity|intro w; apply number_wrap|].
    intros v _ [Hv Hl]. assert (Lv : v <= 255) by lia. rewrite rbind_assoc.
    eapply caught; [apply u64_stage; exact K| |intro w; apply number_wrap|].
    { cbn [fst]. split; [intro X; exact (X E)|intros X _; exact X]. }
    intros x _ [Hx Hlx]. assert (Lx : x <= 255) by lia. rewrite (u8_small v Lv), (u8_small x Lx).
    eapply caught; [apply strokes2_stage| | |intros s _ _; apply Hf].
    + cbn [fst]. unfold row_strokes. destruct (rVStrokes r) as [|b bs] eqn:Ev; [contradiction|]. split.
      * intros (s & v' & Hv' & x' & Hx' & X). rewrite (number_fun _ _ _ Hv' Hv), (number_fun _ _ _ Hx' Hx) in X. exists s. exact X.
      * intros (s & X). exists s, v. split; [exact Hv|]. exists x. auto.
    + intro w. cbn [snd]. split.
      * intros (v' & x' & why & Hv' & Hx' & X & Ew). rewrite (number_fun _ _ _ Hv' Hv) in X. destruct x' as [x'|]; [|contradiction]. destruct Hx' as [_ Hx']. rewrite (number_fun _ _ _ Hx' Hx) in X.
        exists why. split; [exact X|exact Ew].
      * intros (w0 & X & Ew). exists v, (Some x), w0. split; [exact Hv|]. split; [auto|]. split; [exact X|exact Ew].
Qed.
(** the try block *)
Lemma try_tells : forall d us rad j n links, holds d us ->
  tells (asErrorT file k (u <~ makeUcdT ltr file k r rad j n links ;;
                  match mfind (rName r) (ucdMap d) with
                  | Some _ => Says DomainError (b_ "duplicate entry '" ++ rName r ++ b_ "'")
                  | None => Got (MkUcdData (mupdate (fun _ => u) (rName r) (ucdMap d)) (linkedJinmei d) (linkedOther d))
                  end))
    (stroke_checks at_row r ++ (if ltr then code_checks at_row r ++ type_checks at_row r else type_checks at_row r ++ code_checks at_row r) ++ last_checks at_row us r).
Proof.
  intros d us rad j n links Hh. unfold makeUcdT. rewrite !rbind_assoc. apply strokes_tells. intro s. rewrite !rbind_assoc. apply type_or_code. intros nm l. rewrite !rbind_assoc.
  pose proof (map_find_none d us (rName r) Hh) as Fm.
  assert (T : b_ "duplicate entry '" ++ rName r ++ b_ "'" = b_ "duplicate entry " ++ quoted (rName r)) by (unfold quoted; rewrite <- ?app_assoc; reflexivity). rewrite T.
  match goal with |- tells (asErrorT file k (rbind ?x ?g)) _ =>
    replace (rbind x g) with (rbind x (fun bits => rbind (newMorohashiT (rMorohashi r)) (fun moro =>
      (fun bits moro => match mfind (rName r) (ucdMap d) with
       | Some _ => Says DomainError (b_ "duplicate entry " ++ quoted (rName r))
       | None => Got (MkUcdData (mupdate (fun _ => MkUcd nm (rBlock r) (rVersion r) (rPinyin r) bits l (u16 rad) s moro links (rNelson r) (rJSource r) (rMeaning r) (rOn r) (rKun r)) (rName r) (ucdMap d)) (linkedJinmei d) (linkedOther d))
       end) bits moro))) by (destruct x; cbn [rbind]; [rewrite !rbind_assoc; reflexivity|reflexivity..]) end.
  apply last_tells. intros bits moro. cbv beta. destruct (mfind (rName r) (ucdMap d)) as [v|] eqn:F.
  - apply caught_stop; [cbn [fst]; intro X; apply Fm in X; discriminate X|reflexivity|intros w' X; exact X].
  - cbn [asErrorT]. apply tells_pass; [cbn [fst]; apply Fm; reflexivity|apply tells_got].
Qed.

(** the links *)
Lemma links_tells : forall B us d j n (f : UcdData -> list bytes -> res B) cs, loaded d us -> flag (rJoyo r) j -> flag (rJinmei r) n ->
  (forall links d', processLinksT file k links (rName r) n d = Got d' -> tells (f d' links) cs) ->
  tells (links <~ loadLinksT file k r j ;; d' <~ processLinksT file k links (rName r) n d ;; f d' links) (link_checks at_row us r ++ cs).
Proof.
  intros B us d j n f cs (Sd & Hh & N1 & N2) Fj Fn Hf. unfold link_checks. cbn [app].
  assert (Last : forall cs', cs' = cs -> tells (d' <~ processLinksT file k (getlines 44 (rLinkNames r)) (rName r) n d ;; f d' (getlines 44 (rLinkNames r)))
    ((flag (rJinmei r) true -> forall ls, cut 44 (rLinkNames r) ls -> NoDup ls /\ (forall l, In l ls -> ~ In l (map fst (jinmei_links us))),
      fun w => exists ls why, cut 44 (rLinkNames r) ls /\ link_taken us (rName r) ls why /\ just at_row why w) :: cs')).
  { intros cs' ->. destruct n.
    - eapply tells_bind.
      + apply (taken_stage file k K us (rName r) (getlines 44 (rLinkNames r)) [] d Sd N2 (NoDup_nil _)); [intros x []|].
        intros l m. destruct Hh as (_ & Hh & _). rewrite Hh. cbn [In]. tauto.
      + cbn [fst app]. split.
        * intro X. exists d. apply (X Fn). apply cut_getlines. reflexivity.
        * intros [_ X] _ ls C. apply cut_getlines in C. subst ls. exact X.
      + intros w _. cbn [snd app]. split.
        * intros (ls & why & C & X & Ew). apply cut_getlines in C. subst ls. inversion X as [a l b m E Na Fr H Ey]. subst why. exists a, l, b, m. auto 6.
        * intros (a & l & b & m & E & Na & Fr & H & Ew). exists (getlines 44 (rLinkNames r)). eexists. split; [apply cut_getlines; reflexivity|]. split; [exact (lt_taken us (rName r) _ a l b m E Na Fr H)|exact Ew].
      + intros d' E _. apply Hf. exact E.
    - apply tells_pass; [cbn [fst]; intro X; pose proof (flag_fun _ _ _ X Fn) as Y; discriminate Y|].
      destruct (processT_other file k (getlines 44 (rLinkNames r)) (rName r) d) as [d' E]. rewrite E. cbn [rbind]. apply Hf. exact E. }
  unfold loadLinksT. destruct (isEmptyField (rLinkNames r)) eqn:E; cbn [negb].
  - apply isEmptyField_iff in E. apply tells_pass.
    { cbn [fst]. exists (getlines 44 (rLinkNames r)). split; [apply cut_getlines; reflexivity|]. exists [], (getlines 44 (rLinkCodes r)). split; [apply cut_getlines; reflexivity|]. rewrite E. constructor. }
    apply tells_pass; [cbn [fst]; intro; contradiction|]. apply tells_pass; [cbn [fst]; intro; contradiction|].
    destruct (isEmptyField (rLinkType r)) eqn:E2; cbn [negb].
    2:{ apply isEmptyField_false in E2. rewrite table_msg by exact K. cbn [rbind]. apply tells_stop; [cbn [fst]; intro X; exact (E2 (X E))|reflexivity|intros w' X; exact X]. }
    apply isEmptyField_iff in E2. apply tells_pass; [cbn [fst]; intro; exact E2|]. destruct (isEmptyField (rLinkCodes r)) eqn:E3; cbn [negb].
    2:{ apply isEmptyField_false in E3. rewrite table_msg by exact K. cbn [rbind]. apply tells_stop; [cbn [fst]; intro X; exact (E3 (X E))|reflexivity|intros w' X; exact X]. }
    apply isEmptyField_iff in E3. apply tells_pass; [cbn [fst]; intro; exact E3|]. cbn [rbind]. pose proof (Last cs eq_refl) as Y. assert (G0 : getlines 44 (rLinkNames r) = []) by (rewrite E; reflexivity). rewrite G0 in Y. exact Y.
  - apply isEmptyField_false in E. rewrite rbind_assoc.
    assert (Hok : Forall bytes_ok (getlines 44 (rLinkNames r))) by (apply getlines_generic_ok; [exact (proj2 Hb)|constructor]).
    eapply tells_bind; [exact (zip_stage file k K _ (getlines 44 (rLinkCodes r)) Hok)| | |].
    + cbn [fst]. split.
      * intros (links & C & codes & ex & C2 & F). apply cut_getlines in C. apply cut_getlines in C2. exists links. split; [exact C|]. exists codes, ex. rewrite <- C2, <- C. split; [reflexivity|exact F].
      * intros (v & _ & codes & ex & C2 & F). exists (getlines 44 (rLinkNames r)). split; [apply cut_getlines; reflexivity|]. exists codes, ex. split; [apply cut_getlines; symmetry; exact C2|exact F].
    + intros w _. cbn [snd]. split.
      * intros (ns & cds & C & C2 & X). apply cut_getlines in C. apply cut_getlines in C2. rewrite <- C, <- C2. exact X.
      * intro X. exists (getlines 44 (rLinkNames r)), (getlines 44 (rLinkCodes r)). split; [apply cut_getlines; reflexivity|]. split; [apply cut_getlines; reflexivity|exact X].
    + intros v _ [-> _]. destruct j.
      { rewrite table_msg by exact K. cbn [rbind]. apply tells_stop; [cbn [fst]; intro X; exact (X E Fj)|reflexivity|intros w' X; exact X]. }
      apply tells_pass; [cbn [fst]; intros _ X; pose proof (flag_fun _ _ _ X Fj) as Y; discriminate Y|].
      destruct (isEmptyField (rLinkType r)) eqn:E2.
      { apply isEmptyField_iff in E2. rewrite table_msg by exact K. cbn [rbind]. apply tells_stop; [cbn [fst]; intro X; exact (X E E2)|reflexivity|intros w' X; exact X]. }
      apply isEmptyField_false in E2. apply tells_pass; [cbn [fst]; intro; exact E2|]. apply tells_pass; [cbn [fst]; intro; contradiction|]. apply tells_pass; [cbn [fst]; intro; contradiction|].
      cbn [rbind]. apply Last. reflexivity.
Qed.
Lemma row_tells : forall d us, loaded d us -> tells (loadRowT ltr file k d r) (row_checks ltr at_row us r).
Proof.
  intros d us Ld. unfold row_checks, loadRowT, first_checks. cbn [app]. rewrite !table_msg by exact K. fold at_row.
  apply tells_if; [| intros _; reflexivity|intros w' _ X; exact X|].
  { cbn [fst]. destruct (isEmptyField (rOn r)) eqn:E1; [apply isEmptyField_iff in E1|apply isEmptyField_false in E1; cbn [andb]; tauto].
    destruct (isEmptyField (rKun r)) eqn:E2; [apply isEmptyField_iff in E2|apply isEmptyField_false in E2; cbn [andb]; tauto].
    destruct (isEmptyField (rMorohashi r)) eqn:E3; [apply isEmptyField_iff in E3|apply isEmptyField_false in E3; cbn [andb]; tauto].
    destruct (isEmptyField (rJSource r)) eqn:E4; [apply isEmptyField_iff in E4|apply isEmptyField_false in E4; cbn [andb]; tauto].
    cbn [andb]. split; [intros [H|[H|[H|H]]]; contradiction|discriminate]. }
  intros _. apply tells_if; [cbn [fst]; rewrite N.ltb_ge; reflexivity|intros _; reflexivity|intros w' _ X; exact X|].
  intros _. eapply tells_bind; [apply u64_stage; exact K|reflexivity| |].
  { intros w _. cbn [snd]. unfold number_said. split; intros (why & X & ->); exists why; (split; [exact X|]); rewrite ?app_nil_r; reflexivity. }
  intros v _ [Hv _]. rewrite !table_msg by exact K. fold at_row.
  assert (T : b_ "radical '" ++ to_string v ++ b_ "' out of range" = b_ "radical " ++ quoted (to_string v) ++ b_ " out of range") by (unfold quoted; rewrite <- ?app_assoc; reflexivity). rewrite T.
  apply tells_if.
  { cbn [fst]. unfold MaxRadicals. rewrite orb_false_iff, !N.ltb_ge. split; [intros (v' & Hv' & X); rewrite (number_fun _ _ _ Hv' Hv) in X; lia|intro X; exists v; split; [exact Hv|lia]]. }
  { intros _. cbn [snd]. exists v, (to_string v). split; [exact Hv|]. split; [apply to_string_written|reflexivity]. }
  { intros w' _ (v' & n & Hv' & Wn & X). rewrite (number_fun _ _ _ Hv' Hv) in Wn. rewrite <- (number_of _ _ Wn) in X. exact X. }
  intros _. eapply tells_bind; [apply bool_stage; exact K|reflexivity|intros w _; reflexivity|]. intros j _ Fj. cbv beta in Fj.
  eapply tells_bind; [apply bool_stage; exact K|reflexivity|intros w _; reflexivity|]. intros n _ Fn. cbv beta in Fn.
  rewrite ?table_msg by exact K. fold at_row.
  apply tells_if; [|intros _; reflexivity|intros w' _ X; exact X|].
  { cbn [fst]. rewrite andb_false_iff. split.
    - intro X. destruct j; [|auto]. destruct n; [|auto]. destruct (X (conj Fj Fn)).
    - intros [->| ->] [A B]; [pose proof (flag_fun _ _ _ A Fj) as Y|pose proof (flag_fun _ _ _ B Fn) as Y]; discriminate Y. }
  intros _. apply tells_if; [|intros _; reflexivity|intros w' _ X; exact X|].
  { cbn [fst]. rewrite andb_false_iff, isEmptyField_false. split.
    - intro X. destruct j; [right; exact (X Fj)|auto].
    - intros [->|X] A; [pose proof (flag_fun _ _ _ A Fj) as Y; discriminate Y|exact X]. }
  intros _. apply (links_tells _ us d j n (fun d' links => asErrorT file k (u <~ makeUcdT ltr file k r v j n links ;;
                  match mfind (rName r) (ucdMap d') with
                  | Some _ => Says DomainError (b_ "duplicate entry '" ++ rName r ++ b_ "'")
                  | None => Got (MkUcdData (mupdate (fun _ => u) (rName r) (ucdMap d')) (linkedJinmei d') (linkedOther d'))
                  end))); [exact Ld|exact Fj|exact Fn|].
  intros links d' E. assert (Em : ucdMap d' = ucdMap d).
  { apply (processLinks_map links (rName r) n d d'). rewrite <- (processLinksT_plain file k), E. reflexivity. }
  assert (Hx : forall x : UcdData, x = MkUcdData (ucdMap x) (linkedJinmei x) (linkedOther x)) by (intros []; reflexivity).
  pose proof (try_tells d us v j n links (proj1 (proj2 Ld))) as Y. rewrite Em.
  destruct (mfind (rName r) (ucdMap d)) as [z|] eqn:F; [exact Y|].
  (* the maps of links do not matter *)
  clear - Y. destruct (makeUcdT ltr file k r v j n links) as [u|e w| |]; cbn [rbind asErrorT] in *; try exact Y.
  destruct Y as [(x & _ & Al)|(e & w & Ew & _)]; [|discriminate Ew]. left. eexists. split; [reflexivity|exact Al].
Qed.
End Row.
