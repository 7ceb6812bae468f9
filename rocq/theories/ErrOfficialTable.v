(** Lemmas about the messages about radicals, extra readings and the tables of Jouyou, Jinmei and extra Kanji: whole tables. *)
From Verif Require Import BaseFacts ListProofs MapProofs StringProofs ColumnFileProofs ColumnFileLemmas IdsProofs ReportProofs DataProofs LoadDetails ErrTableProofs ErrDetailsProofs.
From Verif Require Export ErrOfficialProofs.
From Verif Require Import ErrBase.
Open Scope N_scope.
Arguments N.mul : simpl never.
Arguments N.add : simpl never.
Arguments N.sub : simpl never.

(** ** all are DomainErrors *)
Definition dom_says {A} (x : res A) : Prop := forall e w, x = Says e w -> e = DomainError.
Lemma dom_rbind : forall A B (x : res A) (f : A -> res B), dom_says x -> (forall v, dom_says (f v)) -> dom_says (rbind x f).
Proof. intros A B x f Hx Hf e w H. destruct x as [v|e' w'| |]; cbn [rbind] in H; try discriminate H; [exact (Hf v e w H)|]. injection H as <- <-. exact (Hx _ _ eq_refl). Qed.
Lemma dom_got : forall A (v : A), dom_says (Got v).
Proof. intros A v e w H. discriminate H. Qed.
Lemma dom_u64 : forall file k s c max, dom_says (processU64E file k s c max).
Proof. intros file k s c max e w. unfold processU64E, valueError. destruct (stoul s); [destruct (_ && _)| | |]; intro H; try discriminate H; injection H as <- _; reflexivity. Qed.
Lemma dom_getNumber : forall file k r, dom_says (getNumberT file k r).
Proof. intros. apply dom_rbind; [apply dom_u64|]. intro v. apply dom_got. Qed.
Lemma dom_getYear : forall file k r, dom_says (getYearT file k r).
Proof. intros. unfold getYearT. destruct (isEmptyField _); [apply dom_got|]. apply dom_rbind; [apply dom_u64|]. intro v. apply dom_got. Qed.
Lemma dom_grade : forall s, dom_says (getGradeT s).
Proof. intros s e w. unfold getGradeT. cbv zeta. destruct (find _ _); intro H; [discriminate H|]. injection H as <- _. reflexivity. Qed.
Lemma dom_reason : forall s, dom_says (getReasonT s).
Proof. intros s e w. unfold getReasonT. destruct (positionOf _ _ _); intro H; [discriminate H|]. injection H as <- _. reflexivity. Qed.
Lemma dom_ucd : forall d s, dom_says (quiet (ucdFind d s)).
Proof. intros d s. destruct (ucdFind_total d s) as [u ->]. apply dom_got. Qed.
Lemma dom_ucdStrokes : forall n u, dom_says (ucdStrokesOfT n u).
Proof. intros n [u|] e w H; [discriminate H|]. injection H as <- _. reflexivity. Qed.
Lemma dom_radical : forall rows d s, loadRadicals rows emptyRadicals = Val d -> dom_says (radicalByNameT d s).
Proof.
  intros rows d s Ld e w H. destruct (by_name rows d s Ld) as [_ B2]. pose proof (radicalByNameT_plain d s) as P. rewrite H in P. cbn [plain] in P. rewrite <- P in B2.
  assert (X : @Throw Radical e = Throw DomainError) by (apply B2; intros r R; discriminate R). injection X as ->. reflexivity.
Qed.
Lemma dom_new : forall e name u radical strokes t freq grade ky l newName oldNames linked x, dom_says (quiet (newKanji e name u radical strokes t freq grade ky l newName oldNames linked x)).
Proof. intros. unfold newKanji, getCompatibilityName. destruct (ucdFind_total (envUcd e) name) as [v ->]. apply dom_got. Qed.
Section Make.
Variable e : Env.
Variable rows : list RadicalRow.
Hypothesis Hr : loadRadicals rows emptyRadicals = Val (envRadicals e).
Ltac dom := repeat first [apply dom_getNumber|apply dom_getYear|apply dom_grade|apply dom_reason|apply dom_ucd|apply dom_ucdStrokes|apply (dom_radical rows _ _ Hr)|apply dom_new|apply dom_rbind; [|intro]].
Lemma strokes_kind : forall A file k r (f : N * N -> res A) e w, k <> 0 -> (forall v, dom_says (f v)) -> rbind (getStrokesT file k r) f = Says e w -> forall e', count_kind r e' <-> e' = e.
Proof.
  intros A file k r f e0 w Hk Hf H. unfold getStrokesT in H. rewrite rbind_assoc in H.
  assert (D : ~ strokes_off r -> e0 = DomainError -> forall e', count_kind r e' <-> e' = e0) by (unfold count_kind; intros N0 -> e'; tauto).
  destruct (u64_stage file k Hk (krStrokes r) (b_ "Strokes") 255) as [(v & E & [Hv Hm] & _)|(e1 & w1 & E & _ & _ & Np)]; rewrite E in H; cbn [rbind] in H.
  - assert (Hm' : v <= 255) by (destruct Hm as [Hm|Hm]; [discriminate Hm|exact Hm]). rewrite (u8_id v Hm') in H. unfold newStrokesT, MaxStrokes in H.
    destruct ((v =? 0) || (64 <? v)) eqn:R; cbn [rbind] in H.
    + unfold rangeError in H. cbn [rbind] in H. injection H as <- _. rewrite orb_true_iff, N.eqb_eq, N.ltb_lt in R. intro e'. unfold count_kind.
      assert (O : strokes_off r) by (exists v; split; [exact Hv|]; lia). tauto.
    + rewrite orb_false_iff, N.eqb_neq, N.ltb_ge in R. apply D; [|exact (Hf _ _ _ H)]. intros (v' & X & _ & O). rewrite (number_fun _ _ _ X Hv) in O. lia.
  - injection H as <- <-. apply D; [|exact (dom_u64 _ _ _ _ _ _ _ E)]. intros (v & X & Y & _). apply (Np v). auto.
Qed.
Lemma kind_jouyou : forall file k r e0 w, k <> 0 -> makeJouyouT e file k r = Says e0 w -> forall e', count_kind r e' <-> e' = e0.
Proof. intros file k r e0 w Hk H. unfold makeJouyouT in H. refine (strokes_kind _ _ _ _ _ _ _ Hk _ H). intro v. dom. Qed.
Lemma kind_jinmei : forall file k r e0 w, k <> 0 -> makeJinmeiT e file k r = Says e0 w -> forall e', plain_kind r e' <-> e' = e0.
Proof. intros file k r e0 w Hk H. assert (X : dom_says (makeJinmeiT e file k r)) by (unfold makeJinmeiT; dom). rewrite (X _ _ H). reflexivity. Qed.
Lemma kind_extra : forall file k r e0 w, k <> 0 -> makeExtraT e file k r = Says e0 w -> forall e', count_kind r e' <-> e' = e0.
Proof.
  intros file k r e0 w Hk H. unfold makeExtraT in H. destruct (ucdFind_total (envUcd e) (krName r)) as [u Hu]. rewrite Hu in H. cbn [quiet rbind] in H.
  refine (strokes_kind _ _ _ _ _ _ _ Hk _ H). intro v. dom.
Qed.
End Make.

(** ** columns *)
Ltac distinct := repeat (constructor; [cbn [In]; let H := fresh in intro H; repeat (destruct H as [H|H]; [discriminate H|]); exact H|]); constructor.
Lemma radical_columns_ok : radical_names <> [] /\ NoDup radical_names.
Proof. split; [discriminate|]. unfold radical_names. distinct. Qed.
Lemma reading_columns_ok : reading_names <> [] /\ NoDup reading_names.
Proof. split; [discriminate|]. unfold reading_names. distinct. Qed.
Lemma jouyou_columns_ok : jouyou_names <> [] /\ NoDup jouyou_names.
Proof. split; [discriminate|]. unfold jouyou_names. distinct. Qed.
Lemma jinmei_columns_ok : jinmei_names <> [] /\ NoDup jinmei_names.
Proof. split; [discriminate|]. unfold jinmei_names. distinct. Qed.
Lemma extra_columns_ok : extra_names <> [] /\ NoDup extra_names.
Proof. split; [discriminate|]. unfold extra_names. distinct. Qed.
Lemma known_length : forall names k row, known_row names k row -> List.length row = List.length names.
Proof. intros names k row (_ & _ & headers & line & fs & vals & _ & _ & _ & F). clear - F. induction F; cbn; congruence. Qed.
Ltac fields := let X := fresh in intros k row H; apply known_length in H; cbn [List.length radical_names reading_names jouyou_names jinmei_names extra_names] in H;
  repeat (destruct row as [|? row]; [try discriminate H|try discriminate H]).
Lemma radical_row_fields : forall k row, known_row radical_names k row -> radical_fields row (radicalRow row).
Proof. fields. reflexivity. Qed.
Lemma reading_row_fields : forall k row, known_row reading_names k row -> row = [fst (readingRow row); snd (readingRow row)].
Proof. fields. reflexivity. Qed.
Lemma jouyou_row_fields : forall k row, known_row jouyou_names k row -> jouyou_fields row (jouyouRow row).
Proof. fields. split; reflexivity. Qed.
Lemma jinmei_row_fields : forall k row, known_row jinmei_names k row -> jinmei_fields row (jinmeiRow row).
Proof. fields. split; [reflexivity|]. split; [reflexivity|]. split; reflexivity. Qed.
Lemma extra_row_fields : forall k row, known_row extra_names k row -> extra_fields row (extraRow row).
Proof. fields. split; [reflexivity|]. split; [reflexivity|]. split; [reflexivity|]. split; reflexivity. Qed.
Lemma radical_fields_row : forall row r, radical_fields row r -> r = radicalRow row.
Proof. intros row r ->. destruct r. reflexivity. Qed.
Lemma jouyou_fields_row : forall row r, jouyou_fields row r -> r = jouyouRow row.
Proof. intros row [] [-> H]. cbn in H. subst. reflexivity. Qed.
Lemma jinmei_fields_row : forall row r, jinmei_fields row r -> r = jinmeiRow row.
Proof. intros row [] (-> & H1 & H2 & H3). cbn in H1, H2, H3. subst. reflexivity. Qed.
Lemma extra_fields_row : forall row r, extra_fields row r -> r = extraRow row.
Proof. intros row [] (-> & H1 & H2 & H3 & H4). cbn in H1, H2, H3, H4. subst. reflexivity. Qed.
Ltac slashless := unfold no_slash; let I := fresh in intro I; cbn in I; repeat (destruct I as [I|I]; [discriminate I|]); exact I.

(** ** tables of Kanji *)
Lemma all_no_fault : forall cs w, all_pass cs -> ~ first_fault cs w.
Proof. intros cs w Al. induction Al as [|c cs H Al IH]; [intros []|]. intros [[X _]|[_ X]]; [contradiction|auto]. Qed.
Section Kanji.
Variable make : bytes -> N -> KanjiRow -> res Kanji.
Variable makeP : KanjiRow -> out Kanji.
Variable mk : list bytes -> KanjiRow.
Variable fields : list bytes -> KanjiRow -> Prop.
Variable kind : KanjiRow -> exn -> Prop.
Variable checks : bytes -> KanjiRow -> list check.
Variable names : list bytes.
Hypothesis Hne : names <> [].
Hypothesis Hnd : NoDup names.
Hypothesis Htells : forall file k r, k <> 0 -> tells (make file k r) (checks (in_row file k) r).
Hypothesis Hkind : forall file k r e w, k <> 0 -> make file k r = Says e w -> forall e', kind r e' <-> e' = e.
Hypothesis Hplain : forall file k r, plain (make file k r) = makeP r.
Hypothesis Hf1 : forall k row, known_row names k row -> fields row (mk row).
Hypothesis Hf2 : forall row r, fields row r -> r = mk row.
Variable fs : bytes -> option CountModel.node.
Variable writable : bytes -> bool.
Variable reg : bytes -> registry.
Variables dir file : bytes.
Hypothesis Hfs : forall p c, is_file fs p c -> bytes_ok c.
Hypothesis Hreg : known (reg file).
Hypothesis Hfile : file <> [].
Hypothesis Hslash : no_slash file.
Lemma kanji_table_plain : plain (kanjiTableT fs writable reg make mk dir file names) = loadFrom (fileRows fs writable reg dir file names) mk (fromRows makeP).
Proof.
  assert (X : forall t, loadFrom t mk (fromRows makeP) = loadFrom t mk (fun rows => ks <- fromRows makeP rows ;; Val ([] ++ ks))).
  { intros [[l b]|e| |]; cbn [loadFrom obind]; try reflexivity. cbn. destruct (fromRows makeP (map mk l)) as [x|e| |]; try reflexivity; destruct b; reflexivity. }
  rewrite X. unfold kanjiTableT.
  rewrite (tableLoadT_plain _ mk (fun rows acc => ks <- fromRows makeP rows ;; Val (acc ++ ks))); [reflexivity| | |exact Hreg|exact Hne|exact Hnd].
  - intro a. cbn [fromRows obind]. rewrite app_nil_r. reflexivity.
  - intros r rs a name k row <-. cbn [fromRows]. rewrite plain_bind, Hplain. destruct (makeP (mk row)) as [x|e| |]; try reflexivity. cbn [obind plain].
    destruct (fromRows makeP rs) as [ks|e| |]; try reflexivity. cbn [obind]. rewrite <- app_assoc. reflexivity.
Qed.
Lemma kanji_table_view :
  (forall ks, kanjiTableT fs writable reg make mk dir file names = Got ks -> exists rs, kanji_table fields checks fs writable dir file names rs /\ Forall2 (fun k r => makeP r = Val k) ks rs)
  /\ (forall rs, kanji_table fields checks fs writable dir file names rs -> exists ks, kanjiTableT fs writable reg make mk dir file names = Got ks /\ Forall2 (fun k r => makeP r = Val k) ks rs)
  /\ (forall e w, kanjiTableT fs writable reg make mk dir file names = Says e w <-> kanji_says kind fields checks fs writable dir file names e w)
  /\ ((exists ks, kanjiTableT fs writable reg make mk dir file names = Got ks) \/ exists e w, kanjiTableT fs writable reg make mk dir file names = Says e w).
Proof.
  apply (table_view (fun file row l ks => k <~ make file row (mk l) ;; Got (ks ++ [k])) (fun ks rs => Forall2 (fun k r => makeP r = Val k) ks rs)
    (kanji_step fields checks) (kanji_fault kind fields checks) names (fun _ => True)).
  - trivial.
  - intros name k row ks Hk B _. destruct (Htells name k (mk row) Hk) as [(v & E & _)|(e & w & E & _)]; rewrite E; cbn [rbind]; [left|right]; eauto.
  - intros name k row ks rs ks' Kn F H. pose proof Kn as (Hk & _). destruct (Htells name k (mk row) Hk) as [(v & E & Al)|(e & w & E & _)]; rewrite E in H; cbn [rbind] in H; [|discriminate H].
    injection H as <-. exists (rs ++ [mk row]). split; [exists (mk row); split; [exact (Hf1 k row Kn)|]; split; [exact Al|reflexivity]|].
    apply Forall2_app; [exact F|]. constructor; [|constructor]. rewrite <- (Hplain name k), E. reflexivity.
  - intros name k row ks rs rs' Kn F (r & Fr & Al & ->). apply Hf2 in Fr. subst r. pose proof Kn as (Hk & _).
    destruct (Htells name k (mk row) Hk) as [(v & E & _)|(e & w & E & _ & _ & Na)]; [|contradiction]. rewrite E. cbn [rbind]. eexists. split; [reflexivity|].
    apply Forall2_app; [exact F|]. constructor; [|constructor]. rewrite <- (Hplain name k), E. reflexivity.
  - intros name k row ks rs e w Kn F. pose proof Kn as (Hk & _). destruct (Htells name k (mk row) Hk) as [(v & E & Al)|(e' & w' & E & Ff & U & Na)]; rewrite E; cbn [rbind].
    + split; [discriminate|]. intros (r & Fr & _ & X). apply Hf2 in Fr. subst r. destruct (all_no_fault _ _ Al X).
    + pose proof (Hkind _ _ _ _ _ Hk E) as Ki. split.
      * intro H. injection H as <- <-. exists (mk row). split; [exact (Hf1 k row Kn)|]. split; [apply Ki; reflexivity|exact Ff].
      * intros (r & Fr & Kr & X). apply Hf2 in Fr. subst r. apply Ki in Kr. rewrite Kr, (U w X). reflexivity.
  - exact Hfs.
  - exact Hreg.
  - exact Hfile.
  - exact Hslash.
  - exact Hne.
  - exact Hnd.
  - exact I.
  - constructor.
Qed.
End Kanji.

(** ** radicals *)
Section Tables.
Variable fs : bytes -> option CountModel.node.
Variable writable : bytes -> bool.
Variable reg : bytes -> registry.
Hypothesis Hfs : forall p c, is_file fs p c -> bytes_ok c.
Lemma radicalTableT_plain : forall dir, known (reg (b_ "radicals")) -> plain (radicalTableT fs writable reg dir)
  = loadFrom (fileRows fs writable reg dir (b_ "radicals") RadicalColumns) radicalRow (fun rows => loadRadicals rows emptyRadicals).
Proof.
  intros dir Hreg. destruct radical_columns_ok as [C1 C2]. unfold radicalTableT, loadRadicals.
  apply (tableLoadT_plain_k _ radicalRow loadRadicalRows); [reflexivity| |exact Hreg|exact C1|exact C2].
  intros r rs a name k row <-. cbn [loadRadicalRows]. unfold radicalRowT. rewrite plain_bind, u64_plain. destruct (processU64 (rrNumber (radicalRow row)) 255) as [n|e| |]; try reflexivity. cbn [obind].
  cbv zeta. destruct (negb (u8 n =? k)); [reflexivity|]. destruct (splitName _ _ _). reflexivity.
Qed.
Lemma radical_row_cases : forall file k r d, k <> 0 ->
  (exists x, loose_number (rrNumber r) k /\ k <= 255 /\ row_radical k r x /\ exists d', radicalRowT file k r d = Got d' /\ radList d' = radList d ++ [x])
  \/ (exists w, radicalRowT file k r d = Says DomainError w /\ (forall w', ((exists why, number_wrong 255 (rrNumber r) why /\ w' = why ++ in_row file k ++ in_column (b_ "Number") (rrNumber r))
      \/ exists v, loose_number (rrNumber r) v /\ v <= 255 /\ v <> k /\ w' = b_ "radicals must be ordered by 'number'" ++ in_row file k) <-> w' = w)
      /\ ~ (loose_number (rrNumber r) k /\ k <= 255)).
Proof.
  intros file k r d Hk. unfold radicalRowT. destruct (u64_stage file k Hk (rrNumber r) (b_ "Number") 255) as [(v & E & [Hv Hm] & Nw)|(e & w & E & Hw & U & Np)].
  - rewrite E. cbn [rbind]. cbv zeta. assert (Hm' : v <= 255) by (destruct Hm as [Hm|Hm]; [discriminate Hm|exact Hm]). rewrite (u8_id v Hm'). destruct (N.eqb_spec v k) as [->|Ne]; cbn [negb].
    + left. exists (made k r). split; [exact Hv|]. split; [exact Hm'|]. split; [apply made_spec; reflexivity|]. unfold made, names_in. destruct (splitName _ _ _) as [name alt]. eexists. split; reflexivity.
    + right. rewrite table_msg by exact Hk. eexists. split; [reflexivity|]. split.
      * intro w'. split; [intros [X|(v' & _ & _ & _ & X)]; [destruct (Nw w' X)|exact X]|]. intros ->. right. exists v. auto.
      * intros [X _]. apply Ne. exact (number_fun _ _ _ Hv X).
  - rewrite E. pose proof (dom_u64 _ _ _ _ _ _ _ E) as ->. cbn [rbind]. right. exists w. split; [reflexivity|]. split.
    + intro w'. split; [intros [X|(v & X1 & X2 & _)]; [exact (U w' X)|destruct (Np v); auto]|]. intros ->. left. exact Hw.
    + intros [X1 X2]. apply (Np k). auto.
Qed.
Lemma radical_table_view : forall dir, known (reg (b_ "radicals")) ->
  (forall d, radicalTableT fs writable reg dir = Got d -> exists rs, radical_table fs writable dir rs /\ radList d = rs)
  /\ (forall rs, radical_table fs writable dir rs -> exists d, radicalTableT fs writable reg dir = Got d /\ radList d = rs)
  /\ (forall e w, radicalTableT fs writable reg dir = Says e w <-> radical_says fs writable dir e w)
  /\ ((exists d, radicalTableT fs writable reg dir = Got d) \/ exists e w, radicalTableT fs writable reg dir = Says e w).
Proof.
  intros dir Hreg. destruct radical_columns_ok as [C1 C2].
  apply (table_view (fun file row l d => radicalRowT file row (radicalRow l) d) (fun d rs => radList d = rs) radical_step radical_fault radical_names (fun _ => True)).
  - trivial.
  - intros name k row d Hk _ _. destruct (radical_row_cases name k (radicalRow row) d Hk) as [(x & _ & _ & _ & d' & E & _)|(w & E & _)]; [left|right]; eauto.
  - intros name k row d rs d' Kn <- H. pose proof Kn as (Hk & _). destruct (radical_row_cases name k (radicalRow row) d Hk) as [(x & X1 & X2 & X3 & d2 & E & L)|(w & E & _)]; [|congruence].
    assert (d2 = d') as -> by congruence. exists (radList d ++ [x]). split; [|exact L]. exists (radicalRow row), x. split; [exact (radical_row_fields k row Kn)|]. auto.
  - intros name k row d rs rs' Kn <- (r & x & F & X1 & X2 & X3 & ->). apply radical_fields_row in F. subst r. pose proof Kn as (Hk & _).
    destruct (radical_row_cases name k (radicalRow row) d Hk) as [(y & _ & _ & Y & d2 & E & L)|(w & _ & _ & Na)]; [|destruct Na; auto].
    exists d2. split; [exact E|]. rewrite L. apply made_spec in X3, Y. congruence.
  - intros name k row d rs e w Kn <-. pose proof Kn as (Hk & _). destruct (radical_row_cases name k (radicalRow row) d Hk) as [(y & Y1 & Y2 & _ & d2 & E & _)|(w0 & E & U & _)]; rewrite E.
    + split; [discriminate|]. intros (_ & r & F & X). apply radical_fields_row in F. subst r. exfalso. destruct X as [(why & X & _)|(v & X & _ & Ne & _)].
      * destruct X as [X|v X _ G]; [exact (X k Y1)|]. rewrite (number_fun _ _ _ X Y1) in G. lia.
      * apply Ne. exact (number_fun _ _ _ X Y1).
    + split.
      * intro H. injection H as <- <-. split; [reflexivity|]. exists (radicalRow row). split; [exact (radical_row_fields k row Kn)|]. apply U. reflexivity.
      * intros (-> & r & F & X). apply radical_fields_row in F. subst r. apply U in X. rewrite X. reflexivity.
  - exact Hfs.
  - exact Hreg.
  - discriminate.
  - slashless.
  - exact C1.
  - exact C2.
  - exact I.
  - reflexivity.
Qed.
(** ** extra readings *)
Definition has_readings (m : smap bytes) (ps : list (bytes * bytes)) : Prop :=
  msorted m /\ NoDup (map fst ps) /\ forall n r, mfind n m = Some r <-> In (n, r) ps.
Lemma readingTableT_plain : forall dir, known (reg (b_ "frequency-readings")) -> plain (readingTableT fs writable reg dir)
  = loadFrom (fileRows fs writable reg dir (b_ "frequency-readings") ReadingColumns) readingRow (fun rows => loadReadings rows []).
Proof.
  intros dir Hreg. destruct reading_columns_ok as [C1 C2]. unfold readingTableT.
  apply (tableLoadT_plain _ readingRow loadReadings); [reflexivity| |exact Hreg|exact C1|exact C2].
  intros r rs a name k row <-. destruct (readingRow row) as [n s]. cbn [loadReadings]. unfold readingRowT. cbn [fst snd]. destruct (mfind n a); reflexivity.
Qed.
Lemma has_none : forall m ps n, has_readings m ps -> (mfind n m = None <-> ~ In n (map fst ps)).
Proof.
  intros m ps n (_ & _ & H). destruct (mfind n m) as [r|] eqn:E.
  - apply H in E. split; [discriminate|]. intro X. destruct X. exact (in_map fst _ _ E).
  - split; [|reflexivity]. intros _ X. apply in_map_iff in X. destruct X as ((n' & r) & X & I). cbn in X. subst n'. apply H in I. congruence.
Qed.
Lemma has_add : forall m ps n r, has_readings m ps -> mfind n m = None -> has_readings (madd n r m) (ps ++ [(n, r)]).
Proof.
  intros m ps n r Hh E. pose proof (proj1 (has_none m ps n Hh) E) as Ni. destruct Hh as (Sm & Nd & H). split; [apply mupdate_sorted; exact Sm|]. split.
  - rewrite map_app. cbn [map fst]. apply NoDup_snoc; assumption.
  - intros n' r'. rewrite (madd_find _ n r n' m Sm), in_app_iff. cbn [In]. destruct (beq n n') eqn:B.
    + apply beq_eq in B. subst n'. split; [intro X; injection X as ->; auto|]. intros [X|[X|[]]]; [|congruence]. destruct Ni. exact (in_map fst _ _ X).
    + rewrite H. split; [auto|]. intros [X|[X|[]]]; [exact X|]. injection X as -> _. rewrite beq_refl in B. discriminate B.
Qed.
Lemma reading_table_view : forall dir, known (reg (b_ "frequency-readings")) ->
  (forall m, readingTableT fs writable reg dir = Got m -> exists ps, reading_table fs writable dir ps /\ has_readings m ps)
  /\ (forall ps, reading_table fs writable dir ps -> exists m, readingTableT fs writable reg dir = Got m /\ has_readings m ps)
  /\ (forall e w, readingTableT fs writable reg dir = Says e w <-> reading_says fs writable dir e w)
  /\ ((exists m, readingTableT fs writable reg dir = Got m) \/ exists e w, readingTableT fs writable reg dir = Says e w).
Proof.
  intros dir Hreg. destruct reading_columns_ok as [C1 C2].
  apply (table_view (fun file row l m => readingRowT file row (readingRow l) m) has_readings reading_step reading_fault reading_names (fun _ => True)).
  - trivial.
  - intros name k row m Hk _ _. unfold readingRowT. destruct (mfind _ m); [right; rewrite table_msg by exact Hk|left]; eauto.
  - intros name k row m ps m' Kn Hh H. unfold readingRowT in H. destruct (mfind (fst (readingRow row)) m) as [x|] eqn:E; [discriminate H|]. injection H as <-.
    eexists. split; [|exact (has_add m ps _ _ Hh E)]. exists (fst (readingRow row)), (snd (readingRow row)). split; [exact (reading_row_fields k row Kn)|]. split; [exact (proj1 (has_none m ps _ Hh) E)|reflexivity].
  - intros name k row m ps ps' Kn Hh (n & r & -> & Ni & ->). apply (has_none m ps n Hh) in Ni. exists (madd n r m). split; [|apply has_add; assumption].
    unfold readingRowT, readingRow, field. cbn [nth fst snd]. rewrite Ni. reflexivity.
  - intros name k row m ps e w Kn Hh. pose proof Kn as (Hk & _). unfold readingRowT. destruct (mfind (fst (readingRow row)) m) as [x|] eqn:E.
    + rewrite table_msg by exact Hk. split.
      * intro H. injection H as <- <-. split; [reflexivity|]. exists (fst (readingRow row)), (snd (readingRow row)). split; [exact (reading_row_fields k row Kn)|].
        split; [|reflexivity]. destruct Hh as (_ & _ & Hh). apply Hh in E. exact (in_map fst _ _ E).
      * intros (-> & n & r & _ & _ & ->). reflexivity.
    + split; [discriminate|]. intros (_ & n & r & -> & X & _). exfalso. apply (has_none m ps _ Hh) in E. exact (E X).
  - exact Hfs.
  - exact Hreg.
  - discriminate.
  - slashless.
  - exact C1.
  - exact C2.
  - exact I.
  - split; [apply msorted_nil|]. split; [constructor|]. intros n r. split; [discriminate|intros []].
Qed.
End Tables.
