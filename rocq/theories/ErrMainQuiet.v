(** Lemmas about the messages of the programs: the texts about a Kanji and the reports about groups do not throw. *)
From Verif Require TextProofs.
From Verif Require Import BaseFacts Utf8Model Utf8CharModel StringModel DisplayModel KanjiModel UcdModel DetailsModel GroupReportModel QuizDataModel LoadAttr ReportUcd.
Open Scope N_scope.

Create HintDb nt.
Definition nothrow {A} (x : out A) : Prop := forall e, x <> Throw e.
Lemma nt_val : forall A (x : A), nothrow (Val x).
Proof. intros A x e. discriminate. Qed.
Lemma nt_ub : forall A, nothrow (Ub : out A).
Proof. intros A e. discriminate. Qed.
Lemma nt_fuel : forall A, nothrow (Fuel : out A).
Proof. intros A e. discriminate. Qed.
Lemma nt_bind : forall A B (x : out A) (k : A -> out B), nothrow x -> (forall v, x = Val v -> nothrow (k v)) -> nothrow (obind x k).
Proof. intros A B [v|e| |] k H K e'; cbn [obind]; [apply (K v eq_refl)|destruct (H e eq_refl)|discriminate..]. Qed.
Ltac nt := repeat match goal with
  | |- nothrow (Val _) => apply nt_val
  | |- nothrow Ub => apply nt_ub
  | |- nothrow Fuel => apply nt_fuel
  | |- nothrow (obind _ _) => apply nt_bind; [|intros ? _]
  | |- nothrow (match ?x with _ => _ end) => destruct x
  end; auto with nt.


Lemma nt_deref : forall u, nothrow (deref u). Proof. intro u. unfold deref. nt. Qed.
Lemma nt_incr : forall u, nothrow (incr u). Proof. intro u. unfold incr. nt. Qed.
Lemma nt_next : forall u, nothrow (next_ u). Proof. intro u. unfold next_. nt. Qed.
#[local] Hint Resolve nt_deref nt_incr nt_next : nt.
Lemma nt_getNext : forall u, nothrow (getNextByte u). Proof. intro u. unfold getNextByte. nt. Qed.
#[local] Hint Resolve nt_getNext : nt.
Lemma nt_one : forall u, nothrow (convertOneUtf8 u).
Proof. intro u. unfold convertOneUtf8. cbv zeta. nt. Qed.
#[local] Hint Resolve nt_one : nt.
Lemma nt_loop : forall f u m a, nothrow (convertLoop f u m a).
Proof. induction f as [|f IH]; intros; cbn [convertLoop]; cbv zeta; nt. Qed.
#[local] Hint Resolve nt_loop : nt.
Lemma nt_from : forall s m, nothrow (fromUtf8 s m).
Proof. intros. unfold fromUtf8, convertFromUtf8. nt. Qed.
#[local] Hint Resolve nt_from : nt.
Lemma nt_selector : forall s, nothrow (isVariationSelector s). Proof. intro. unfold isVariationSelector. nt. Qed.
Lemma nt_mark : forall s, nothrow (isCombiningMark s). Proof. intro. unfold isCombiningMark. nt. Qed.
Lemma nt_skip : forall s, nothrow (skip3 s). Proof. intro. unfold skip3. nt. Qed.
#[local] Hint Resolve nt_selector nt_mark nt_skip : nt.
Lemma nt_size : forall f i b n, nothrow (sizeLoop f i b n).
Proof. induction f as [|f IH]; intros; cbn [sizeLoop]; cbv zeta; nt. Qed.
#[local] Hint Resolve nt_size : nt.
Lemma nt_display : forall s, nothrow (displaySize s). Proof. intro. unfold displaySize. nt. Qed.
#[local] Hint Resolve nt_display : nt.
Lemma nt_wide : forall s n, nothrow (wideSetw s n). Proof. intros. unfold wideSetw. nt. Qed.
#[local] Hint Resolve nt_wide : nt.
Lemma nt_qualified : forall k, nothrow (qualifiedName k). Proof. intros. unfold qualifiedName. nt. Qed.
#[local] Hint Resolve nt_qualified : nt.
Lemma nt_unicode : forall s, nothrow (toUnicode_string s Square).
Proof.
  intro s. unfold toUnicode_string. apply nt_bind; [apply nt_from|]. intros cs _. destruct (TextProofs.unicode_loop cs []) as [us [_ E]]. unfold toUnicode_codes. rewrite E. nt.
Qed.
#[local] Hint Resolve nt_unicode : nt.
Lemma nt_ucd : forall u s, nothrow (ucdFind u s).
Proof. intros u s e. destruct (ReportProofs.ucdFind_total u s) as [x ->]. discriminate. Qed.
#[local] Hint Resolve nt_ucd : nt.
(** ** Details *)
Lemma nt_similar : forall k l, nothrow (similarNames k l).
Proof. induction l as [|j l IH]; cbn [similarNames]; nt. Qed.
#[local] Hint Resolve nt_similar : nt.
Lemma nt_col : forall l i ws, nothrow (colWidths i l ws).
Proof. induction l as [|j l IH]; intros; cbn [colWidths]; cbv zeta; nt. Qed.
Lemma nt_cells : forall l i ws, nothrow (jukugoCells i l ws).
Proof. induction l as [|j l IH]; intros; cbn [jukugoCells]; cbv zeta; nt. Qed.
#[local] Hint Resolve nt_col nt_cells : nt.
Lemma nt_list : forall n l, nothrow (jukugoList n l).
Proof. intros. unfold jukugoList. nt. Qed.
#[local] Hint Resolve nt_list : nt.
Lemma nt_jukugo : forall jd k, nothrow (jukugoText jd k).
Proof. intros. unfold jukugoText. cbv zeta. nt. Qed.
#[local] Hint Resolve nt_jukugo : nt.
Lemma nt_review : forall sort gd jd k, nothrow (reviewText sort gd jd k).
Proof. intros. unfold reviewText, similarText. nt. Qed.
#[local] Hint Resolve nt_review : nt.
Lemma nt_details : forall sort d ucd gd jd a b, nothrow (printDetails sort d ucd gd jd a b).
Proof. intros. unfold printDetails. cbv zeta. nt. Qed.
#[local] Hint Resolve nt_details : nt.
Lemma nt_all : forall sort d ucd gd jd l b, nothrow (printAll sort d ucd gd jd l b).
Proof. induction l as [|k l IH]; intros; cbn [printAll]; nt. Qed.
#[local] Hint Resolve nt_all : nt.
Lemma nt_found : forall sort d ucd gd jd l w i, nothrow (printList sort d ucd gd jd l w i).
Proof. intros. unfold printList. nt. Qed.
(** ** Groups *)
Lemma nt_meaning : forall full l ty u, nothrow (meaningMembers full l ty u).
Proof. induction l as [|k l IH]; intros; cbn [meaningMembers]; cbv zeta; nt. Qed.
Lemma nt_pattern : forall full p l b ty, nothrow (patternMembers full p b l ty).
Proof. induction l as [|k l IH]; intros; cbn [patternMembers]; cbv zeta; nt. Qed.
#[local] Hint Resolve nt_meaning nt_pattern : nt.
Lemma nt_lines : forall full w gs f ty u, nothrow (groupLines full w f gs ty u).
Proof. induction gs as [|g gs IH]; intros; cbn [groupLines]; cbv zeta; unfold printMeaningGroup, printPatternGroup, u8size; cbv zeta; nt. Qed.
#[local] Hint Resolve nt_lines : nt.
Lemma nt_report : forall full f d gd, nothrow (reportGroups full f d gd).
Proof. intros. unfold reportGroups, printGroups. nt. Qed.
(** ** The reports about groups have a text *)
Definition total {A} (x : out A) : Prop := exists v, x = Val v.
Lemma total_bind : forall A B (x : out A) (k : A -> out B), total x -> (forall v, total (k v)) -> total (obind x k).
Proof. intros A B x k [v ->] K. apply K. Qed.
Lemma total_val : forall A (x : A), total (Val x).
Proof. intros A x. exists x. reflexivity. Qed.
Lemma qualified_total : forall k, total (qualifiedName k).
Proof.
  intro k. assert (Q : qualifiedNameRank k < 10).
  { unfold qualifiedNameRank. destruct (kType k); cbv beta iota zeta; repeat match goal with |- context [if ?b then _ else _] => destruct b end; try destruct (kKyu k); reflexivity. }
  unfold total, qualifiedName. destruct (nth_error QualifiedNames (N.to_nat (qualifiedNameRank k))) eqn:E; [eauto|]. exfalso.
  apply nth_error_None in E. change (List.length QualifiedNames) with 10%nat in E. lia.
Qed.
Lemma mark_total : forall s, exists b, isCombiningMark s = Val b /\ (b = true -> exists x y z r, s = x :: y :: z :: r).
Proof.
  intros [|x [|y s]]; unfold isCombiningMark; cbn [at_ next_ obind]; [eexists; split; [reflexivity|discriminate]|destruct (x =? 227); eexists; (split; [reflexivity|discriminate])|].
  destruct (x =? 227); [|eexists; split; [reflexivity|discriminate]]. destruct (y =? 130); [|eexists; split; [reflexivity|discriminate]]. eexists. split; [reflexivity|].
  destruct s as [|z r]; [discriminate|]. eauto.
Qed.
Lemma selector_total : forall s, exists b, isVariationSelector s = Val b /\ (b = true -> exists x y z r, s = x :: y :: z :: r).
Proof.
  intros [|x [|y s]]; unfold isVariationSelector; cbn [at_ next_ obind]; [eexists; split; [reflexivity|discriminate]|destruct (x =? 239); eexists; (split; [reflexivity|discriminate])|].
  destruct (x =? 239); [|eexists; split; [reflexivity|discriminate]]. destruct (y =? 184); [|eexists; split; [reflexivity|discriminate]]. eexists. split; [reflexivity|].
  destruct s as [|z r]; [discriminate|]. eauto.
Qed.
Lemma size_loop_total : forall f i b n, (List.length i < f)%nat -> total (sizeLoop f i b n).
Proof.
  induction f as [|f IH]; intros i b n H; [inversion H|]. cbn [sizeLoop]. destruct (at_ i =? 0) eqn:Z; [apply total_val|]. destruct i as [|x i]; [discriminate Z|]. cbn [List.length] in H.
  destruct (mark_total (x :: i)) as (cm & E & T). rewrite E. cbn [obind].
  assert (V : exists vs, (if cm then Val true else isVariationSelector (x :: i)) = Val vs /\ (vs = true -> exists a y z r, x :: i = a :: y :: z :: r)).
  { destruct cm; [exists true; auto|apply selector_total]. }
  destruct V as (vs & -> & T'). cbn [obind]. destruct vs.
  - destruct (T' eq_refl) as (a & y & z & r & Q). rewrite Q. cbn [skip3 next_ obind]. apply IH. injection Q as _ ->. cbn [List.length] in H. lia.
  - cbn [next_ obind]. cbv zeta. apply IH. lia.
Qed.
Lemma wide_total : forall s n, bytes_ok s -> total (wideSetw s n).
Proof. intros s n H. unfold wideSetw, displaySize. destruct (Utf8Lemmas.decoder_total s 0 H) as (cs & -> & _). apply total_val. Qed.
Lemma members_total : forall full l ty u, total (meaningMembers full l ty u).
Proof.
  induction l as [|k l IH]; intros; cbn [meaningMembers]; [apply total_val|]. apply total_bind; [destruct full; [apply total_bind; [apply qualified_total|intro; apply total_val]|apply total_val]|].
  intro q. cbv zeta. apply total_bind; [apply IH|]. intros [[t ty'] u']. apply total_val.
Qed.
Lemma pattern_total : forall full p l b ty, total (patternMembers full p b l ty).
Proof.
  induction l as [|k l IH]; intros; cbn [patternMembers]; [apply total_val|]. apply total_bind; [destruct full; [apply total_bind; [apply qualified_total|intro; apply total_val]|apply total_val]|].
  intro q. apply total_bind; [apply IH|]. intros [t ty']. apply total_val.
Qed.
Lemma lines_total : forall full w gs f ty u, Forall (fun g => bytes_ok (gName g)) gs -> total (groupLines full w f gs ty u).
Proof.
  intros full w gs f ty u H. revert f ty u. induction H as [|g gs Hg H IH]; intros; cbn [groupLines]; [apply total_val|]. cbv zeta. apply total_bind.
  - destruct (gType g).
    + unfold printMeaningGroup. apply total_bind; [destruct full; [apply total_bind; [unfold u8size; apply size_loop_total; lia|intro; apply total_val]|apply total_val]|].
      intros [hd f']. apply total_bind; [apply members_total|]. intros [[t ty'] u']. apply total_val.
    + apply total_bind; [|intros [t ty']; apply total_val]. unfold printPatternGroup. apply total_bind; [destruct full; [apply total_bind; [apply wide_total; exact Hg|intro; apply total_val]|apply total_val]|].
      intro hd. apply total_bind; [apply pattern_total|]. intros [t ty']. apply total_val.
  - intros [[[t ty'] u'] f']. apply total_bind; [apply IH|]. intros [[[t2 ty2] u2] f2]. apply total_val.
Qed.
Lemma report_total : forall full f d gd, Forall (fun g => bytes_ok (gName g)) (meaningGroups gd) -> Forall (fun g => bytes_ok (gName g)) (patternGroups gd) ->
  total (reportGroups full f d gd).
Proof.
  intros full f d gd M P. unfold reportGroups, printGroups. apply total_bind; [apply total_bind; [apply lines_total; exact M|intros [[[t ty] u] f']; apply total_val]|].
  intros [x f']. apply total_bind; [apply total_bind; [apply lines_total; exact P|intros [[[t ty] u] f2]; apply total_val]|]. intros [y f2]. apply total_val.
Qed.
