(** Lemmas about the messages about radicals, extra readings and the tables of Jouyou, Jinmei and extra Kanji. *)
From Verif Require Import BaseFacts ListProofs MapProofs StringProofs ColumnFileProofs ColumnFileLemmas IdsProofs ReportProofs LoadDetails ErrTableProofs ErrDetailsProofs.
From Verif Require Export RadicalProofs ErrRowsProofs ErrUcdParts ErrUcdRow ErrUcdTable ErrOfficialSpec.
From Verif Require Import ErrBase.
Open Scope N_scope.
Arguments N.mul : simpl never.
Arguments N.add : simpl never.
Arguments N.sub : simpl never.

(** ** the same as without messages *)
Lemma radicalByNameT_plain : forall d s, plain (radicalByNameT d s) = radicalByName d s.
Proof. intros d s. unfold radicalByNameT, radicalByName. destruct (radList d); [reflexivity|]. destruct (mfind s (radMap d)); [|reflexivity]. destruct (nth_error _ _); reflexivity. Qed.
Lemma radicalByNumberT_plain : forall d n, plain (radicalByNumberT d n) = radicalByNumber d n.
Proof. intros d n. unfold radicalByNumberT, radicalByNumber. destruct (radList d); [reflexivity|]. destruct (_ || _); [reflexivity|]. destruct (nth_error _ _); reflexivity. Qed.
Lemma getGradeT_plain : forall s, plain (getGradeT s) = getGrade s.
Proof. intro s. unfold getGradeT, getGrade. cbv zeta. destruct (find _ _); reflexivity. Qed.
Lemma getReasonT_plain : forall s, plain (getReasonT s) = getReason s.
Proof. intro s. unfold getReasonT, getReason. destruct (positionOf _ _ _); reflexivity. Qed.
Section Plain.
Variables (file : bytes) (k : N).
Lemma getNumberT_plain : forall r, plain (getNumberT file k r) = getNumber r.
Proof. intro r. unfold getNumberT, getNumber. rewrite plain_bind, u64_plain. reflexivity. Qed.
Lemma getYearT_plain : forall r, plain (getYearT file k r) = getYear r.
Proof. intro r. unfold getYearT, getYear. destruct (isEmptyField _); [reflexivity|]. rewrite plain_bind, u64_plain. reflexivity. Qed.
Lemma getStrokesT_plain : forall r, plain (getStrokesT file k r) = getStrokes r.
Proof. intro r. unfold getStrokesT, getStrokes. rewrite plain_bind, u64_plain. destruct (processU64 _ _) as [v|e| |]; try reflexivity. cbn [obind]. apply newStrokesT_plain. Qed.
Ltac next := rewrite plain_bind; rewrite ?quiet_plain, ?radicalByNameT_plain, ?getNumberT_plain, ?getYearT_plain, ?getStrokesT_plain, ?getGradeT_plain, ?getReasonT_plain;
  match goal with |- obind ?x _ = obind ?x _ => destruct x as [?|?| |]; try reflexivity; cbn [obind] end.
Lemma makeJouyouT_plain : forall e r, plain (makeJouyouT e file k r) = makeJouyou e r.
Proof. intros e r. unfold makeJouyouT, makeJouyou. do 6 next. apply quiet_plain. Qed.
Lemma makeJinmeiT_plain : forall e r, plain (makeJinmeiT e file k r) = makeJinmei e r.
Proof.
  intros e r. unfold makeJinmeiT, makeJinmei. rewrite plain_bind, quiet_plain. destruct (ucdFind (envUcd e) (krName r)) as [u|?| |]; try reflexivity. cbn [obind]. next. rewrite plain_bind.
  replace (plain (ucdStrokesOfT (krName r) u)) with (ucdStrokesOf u) by (destruct u; reflexivity).
  destruct (ucdStrokesOf u) as [?|?| |]; try reflexivity. cbn [obind]. do 3 next. apply quiet_plain.
Qed.
Lemma makeExtraT_plain : forall e r, plain (makeExtraT e file k r) = makeExtra e r.
Proof. intros e r. unfold makeExtraT, makeExtra. do 4 next. apply quiet_plain. Qed.
End Plain.

(** ** Parts of a row *)
Section Row.
Variables (file : bytes) (k : N).
Hypothesis K : k <> 0.
Lemma number_tells : forall A s c max (f : N -> res A) cs, max <> 0 -> (forall v, loose_number s v -> v <= max -> tells (f v) cs) ->
  tells (rbind (processU64E file k s (ucdCol c) max) f) ((is_number s max, number_said (in_row file k) c s max []) :: cs).
Proof.
  intros A s c max f cs Nz Hf. refine (tells_bind _ _ _ _ _ _ _ _ (u64_stage file k K s c max) _ _ _); cbn [fst snd].
  - reflexivity.
  - intros w _. unfold number_said. split; intros (why & X & ->); exists why; (split; [exact X|]); rewrite app_nil_r; reflexivity.
  - intros v _ [H1 [H2|H2]]; [contradiction|auto].
Qed.
Lemma strokes_tells : forall A r (f : N * N -> res A) cs, (forall v, tells (f v) cs) -> tells (rbind (getStrokesT file k r) f) (count_checks (in_row file k) r ++ cs).
Proof.
  intros A r f cs Hf. unfold getStrokesT, count_checks. cbn [app]. rewrite rbind_assoc. apply number_tells; [discriminate|]. intros v Hv Hm. rewrite (u8_id v Hm).
  refine (tells_bind _ _ _ _ _ _ _ _ (strokes_stage v) _ _ _); cbn [fst snd].
  - split; [|intros (s & H & _); eauto]. intros (v' & H & R). rewrite (number_fun _ _ _ H Hv) in R. exists (v, 0). auto.
  - intros w _. split; [|eauto]. intros (v' & H & R). rewrite (number_fun _ _ _ H Hv) in R. exact R.
  - intros s _ _. apply Hf.
Qed.
Lemma num_tells : forall A r (f : N -> res A) cs, (forall v, tells (f v) cs) -> tells (rbind (getNumberT file k r) f) (number_checks (in_row file k) r ++ cs).
Proof. intros A r f cs Hf. unfold getNumberT, number_checks. cbn [app]. rewrite rbind_assoc. apply number_tells; [discriminate|]. intros v _ _. apply Hf. Qed.
Lemma year_tells : forall A r (f : N -> res A) cs, (forall v, tells (f v) cs) -> tells (rbind (getYearT file k r) f) (year_checks (in_row file k) r ++ cs).
Proof.
  intros A r f cs Hf. unfold getYearT, year_checks. cbn [app]. destruct (krYear r) as [|b s] eqn:E; cbn [isEmptyField].
  - cbn [rbind]. apply tells_pass; [cbn [fst]; congruence|apply Hf].
  - rewrite <- E. rewrite rbind_assoc.
    assert (X : tells (a <~ processU64E file k (krYear r) (ucdCol (b_ "Year")) 65535;; (y <~ Got (u16 a);; f y)) ((is_number (krYear r) 65535, number_said (in_row file k) (b_ "Year") (krYear r) 65535 []) :: cs)).
    { apply number_tells; [discriminate|]. intros v _ _. apply Hf. }
    destruct X as [(v & Y & Al)|(e & w & Y & F & U & Na)]; [left|right].
    + exists v. split; [exact Y|]. inversion Al; subst. constructor; [intros _; assumption|assumption].
    + assert (N0 : krYear r <> []) by (rewrite E; discriminate). exists e, w. split; [exact Y|]. cbn [first_fault fst snd] in *. split; [tauto|]. split; [intros w' H; apply U; tauto|].
      intro Al. apply Na. inversion Al; subst. constructor; [cbn [fst] in *; auto|assumption].
Qed.
Lemma grade_tells : forall A r (f : KanjiGrades -> res A) cs, (forall v, tells (f v) cs) -> tells (rbind (getGradeT (krGrade r)) f) (grade_checks r ++ cs).
Proof.
  intros A r f cs Hf. unfold grade_checks. cbn [app]. set (s := krGrade r). unfold getGradeT. cbv zeta.
  set (t := match s with 83 :: _ => s | _ => 71 :: s end).
  assert (T : ((exists x, s = b_ "S" ++ x) /\ t = s) \/ ((forall x, s <> b_ "S" ++ x) /\ t = b_ "G" ++ s)).
  { subst t. destruct s as [|c x]; [right; split; [discriminate|reflexivity]|]. destruct (N.eq_dec c 83) as [->|Ne].
    - left. split; [exists x; reflexivity|reflexivity].
    - right. split; [intros y H; injection H as H _; exact (Ne H)|]. destruct c as [|p]; [reflexivity|]. do 7 (try reflexivity; destruct p as [p|p|]); try reflexivity. destruct Ne. reflexivity. }
  clearbody t. destruct (find (fun g => beq (gradeToString g) t) AllGrades) as [g|] eqn:E.
  - cbn [rbind]. apply tells_pass; [|apply Hf]. cbn [fst]. apply find_some in E. destruct E as [I E]. apply beq_eq in E. clear - T I E.
    destruct T as [[[x ->] ->]|[Nx ->]]; cbn [AllGrades In] in I; repeat (destruct I as [<-|I]; [first [discriminate E|injection E as <-; cbn; tauto]|]); destruct I.
  - cbn [rbind]. assert (Tx : b_ "name '" ++ t ++ b_ "' not found" = b_ "name " ++ quoted t ++ b_ " not found") by (unfold quoted; rewrite <- ?app_assoc; reflexivity).
    rewrite Tx. clear Tx. apply tells_stop; cbn [fst snd].
    + intro I. assert (X : forall g, In g AllGrades -> gradeToString g <> t) by (intros g G H; pose proof (find_none _ _ E g G) as Y; cbv beta in Y; rewrite H, beq_refl in Y; discriminate Y).
      clear - T I X. cbn [In] in I. destruct T as [[[x T] ->]|[Nx ->]].
      * rewrite T in *. repeat (destruct I as [I|I]; [first [discriminate I|injection I as <-; apply (X GS); [cbn; tauto|reflexivity]]|]). destruct I.
      * destruct I as [I|[I|[I|[I|[I|[I|[I|[]]]]]]]]; rewrite <- I in *;
          [apply (X G1)|apply (X G2)|apply (X G3)|apply (X G4)|apply (X G5)|apply (X G6)|apply (Nx []); reflexivity]; try reflexivity; cbn; tauto.
    + exists t. split; [exact T|reflexivity].
    + intros w' (g & H & ->). assert (g = t) as ->; [|reflexivity]. destruct H as [[[x H] ->]|[H ->]], T as [[[y T] ->]|[T ->]]; try reflexivity; [destruct (T x H)|destruct (H y T)].
Qed.
Lemma positionOf_in : forall s l i, (exists n, positionOf s l i = Some n) <-> In s l.
Proof.
  induction l as [|x l IH]; intro i; cbn [positionOf In]; [split; [intros [n H]; discriminate H|intros []]|]. destruct (beq x s) eqn:E.
  - apply beq_eq in E. split; [auto|intros _; eexists; reflexivity].
  - rewrite IH. split; [auto|]. intros [->|H]; [rewrite beq_refl in E; discriminate E|exact H].
Qed.
Lemma reason_tells : forall A r (f : N -> res A) cs, (forall v, tells (f v) cs) -> tells (rbind (getReasonT (krReason r)) f) (reason_checks r ++ cs).
Proof.
  intros A r f cs Hf. unfold reason_checks. cbn [app]. set (s := krReason r). unfold getReasonT. pose proof (positionOf_in s ReasonNames 0) as P. fold ReasonNames.
  destruct (positionOf s ReasonNames 0) as [n|]; cbn [rbind].
  - apply tells_pass; [|apply Hf]. cbn [fst]. apply P. eauto.
  - assert (Tx : b_ "name '" ++ s ++ b_ "' not found" = b_ "name " ++ quoted s ++ b_ " not found") by (unfold quoted; rewrite <- ?app_assoc; reflexivity).
    rewrite Tx. apply tells_stop; cbn [fst snd]; [|reflexivity|intros w' H; exact H]. intro H. apply P in H. destruct H as [n H]. discriminate H.
Qed.

(** ** Radicals and Unicode data *)
Lemma last_of_none : forall rows n s acc, last_of n rows s acc = None -> acc = None /\ forall j r, nth_error rows j = Some r -> fst (names_in r) <> s.
Proof.
  induction rows as [|r rows IH]; intros n s acc H; cbn [last_of] in H; [split; [exact H|intros [|j] r X; discriminate X]|].
  apply IH in H. destruct H as [H1 H2]. destruct (beq (fst (names_in r)) s) eqn:E; [discriminate H1|]. split; [exact H1|].
  intros [|j] x X; [injection X as <-; apply beq_neq; exact E|exact (H2 j x X)].
Qed.
Lemma radical_tells : forall A rows d r (f : Radical -> res A) cs, loadRadicals rows emptyRadicals = Val d -> (forall v, tells (f v) cs) ->
  tells (rbind (radicalByNameT d (krRadical r)) f) (radical_checks (map radName (radList d)) r ++ cs).
Proof.
  intros A rows d r f cs Ld Hf. unfold radical_checks. cbn [app]. set (s := krRadical r). destruct (by_name rows d s Ld) as [B1 B2]. destruct (RadicalProofs.loaded rows d Ld) as [L1 L2].
  rewrite <- radicalByNameT_plain in B2. unfold radicalByNameT in *. destruct (radList d) as [|x xs] eqn:E.
  - cbn [rbind]. apply tells_stop; cbn [fst snd map]; [intro H; apply H; reflexivity|reflexivity|intros w' H; exact H].
  - apply tells_pass; [cbn [fst map]; discriminate|]. rewrite <- E in *. destruct (mfind s (radMap d)) as [i|] eqn:M.
    + destruct (nth_error (radList d) (N.to_nat i)) as [y|] eqn:Y; cbn [rbind].
      * apply tells_pass; [|apply Hf]. cbn [fst].
        assert (R : radicalByName d s = Val y) by (unfold radicalByName; rewrite M, Y, E; reflexivity).
        apply B1 in R. destruct R as (n & row & _ & _ & <- & _). apply in_map. exact (nth_error_In _ _ Y).
      * exfalso. rewrite E in Y. rewrite ?Y in B2. cbn [plain] in B2. assert (X : @Throw Radical StdOutOfRange = Throw DomainError) by (apply B2; intros z Z; discriminate Z). discriminate X.
    + cbn [rbind]. apply tells_stop; cbn [fst snd]; [|reflexivity|intros w' H; exact H]. intro I. apply in_map_iff in I. destruct I as (y & Hy & I). apply In_nth_error in I. destruct I as [j J].
      rewrite L2 in M. apply last_of_none in M. destruct M as [_ M]. rewrite L1, mades_nth in J.
      destruct (nth_error rows j) as [row|] eqn:Q; [|discriminate J]. injection J as <-. exact (M j row Q Hy).
Qed.
Lemma ucd_tells : forall A d s (f : option Ucd -> res A) cs, (forall v, ucdFind d s = Val v -> tells (f v) cs) -> tells (rbind (quiet (ucdFind d s)) f) cs.
Proof. intros A d s f cs Hf. destruct (ucdFind_total d s) as [u E]. rewrite E. cbn [quiet rbind]. apply Hf. exact E. Qed.
Lemma new_tells : forall e name u radical strokes t freq grade ky l newName oldNames linked x, tells (quiet (newKanji e name u radical strokes t freq grade ky l newName oldNames linked x)) [].
Proof. intros. unfold newKanji, getCompatibilityName. destruct (ucdFind_total (envUcd e) name) as [v ->]. apply tells_got. Qed.
Definition known_entry (e : Env) (n : bytes) : Prop := exists u, ucdFind (envUcd e) n = Val (Some u).
Lemma entry_tells : forall A e r u (f : N * N -> res A) cs, ucdFind (envUcd e) (krName r) = Val u -> (forall v, tells (f v) cs) ->
  tells (rbind (ucdStrokesOfT (krName r) u) f) (entry_checks (known_entry e) r ++ cs).
Proof.
  intros A e r u f cs Hu Hf. unfold entry_checks. cbn [app]. destruct u as [u|]; cbn [ucdStrokesOfT rbind].
  - apply tells_pass; [exists u; exact Hu|apply Hf].
  - apply tells_stop; cbn [fst snd]; [|reflexivity|intros w' H; exact H]. intros [u H]. congruence.
Qed.

(** ** Rows *)
Section Make.
Variable e : Env.
Variable rows : list RadicalRow.
Hypothesis Hr : loadRadicals rows emptyRadicals = Val (envRadicals e).
Let names := map radName (radList (envRadicals e)).
Lemma jouyou_tells : forall r, tells (makeJouyouT e file k r) (jouyou_checks names (in_row file k) r).
Proof.
  intro r. unfold makeJouyouT, jouyou_checks. rewrite <- (app_nil_r (grade_checks r)). apply strokes_tells. intro st. apply ucd_tells. intros u _. apply (radical_tells _ rows _ _ _ _ Hr). intro rad.
  apply num_tells. intro n. apply year_tells. intro y. apply grade_tells. intro g. apply new_tells.
Qed.
Lemma jinmei_tells : forall r, tells (makeJinmeiT e file k r) (jinmei_checks names (known_entry e) (in_row file k) r).
Proof.
  intro r. unfold makeJinmeiT, jinmei_checks. rewrite <- (app_nil_r (reason_checks r)). apply ucd_tells. intros u Hu. apply (radical_tells _ rows _ _ _ _ Hr). intro rad. apply entry_tells; [exact Hu|]. intro st.
  apply num_tells. intro n. apply year_tells. intro y. apply reason_tells. intro g. apply new_tells.
Qed.
Lemma extra_tells : forall r, tells (makeExtraT e file k r) (extra_checks names (in_row file k) r).
Proof.
  intro r. unfold makeExtraT, extra_checks. rewrite <- (app_nil_r (number_checks _ r)). apply ucd_tells. intros u Hu. apply strokes_tells. intro st. apply (radical_tells _ rows _ _ _ _ Hr). intro rad.
  apply num_tells. intro n. apply new_tells.
Qed.
End Make.
End Row.
