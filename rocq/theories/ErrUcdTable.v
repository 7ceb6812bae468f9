(** Lemmas about the messages about the Unicode data: what a good row adds and the whole table. *)
From Verif Require Import BaseFacts ListProofs MapProofs StringProofs ColumnFileProofs ColumnFileLemmas IdsProofs KanjiProofs UcdProofs ErrTableProofs ErrDetailsProofs.
From Verif Require Export ErrRowsProofs ErrUcdRow.
From Verif Require Import ErrBase.
Open Scope N_scope.
Arguments N.mul : simpl never.
Arguments N.add : simpl never.
Arguments N.sub : simpl never.

(** ** the same as without messages *)
Lemma quiet_plain : forall A (x : out A), plain (quiet x) = x.
Proof. intros A [v|e| |]; reflexivity. Qed.
Lemma newEntryT_plain : forall c n, plain (newEntryT c n) = newEntry c n.
Proof.
  intros c n. unfold newEntryT, newEntry. rewrite plain_bind, quiet_plain. destruct (isKanji n true) as [b|e| |]; try reflexivity. cbn [obind].
  destruct (negb b); [reflexivity|]. rewrite plain_bind, quiet_plain. destruct (getCode n) as [x|e| |]; try reflexivity. cbn [obind].
  destruct (c =? x); [reflexivity|]. destruct (toUnicode_one c) as (s & -> & _). destruct (toUnicode_one x) as (t & -> & _). reflexivity.
Qed.
Section Row.
Variables (file : bytes) (k : N).
Lemma fieldBoolT_plain : forall c s, plain (fieldBoolT file k c s) = convBool s.
Proof. intros c s. unfold fieldBoolT. destruct (convBool s) as [b|e| |] eqn:E; try reflexivity. rewrite (dom_bool _ _ E). reflexivity. Qed.
Lemma fieldChar32T_plain : forall c s, plain (fieldChar32T file k c s) = convChar32 s.
Proof. intros c s. unfold fieldChar32T, convChar32. destruct (_ || _); [reflexivity|]. destruct (existsb _ s); reflexivity. Qed.
Lemma zipLinksT_plain : forall names codes, plain (zipLinksT file k names codes) = zipLinks names codes.
Proof.
  induction names as [|n ns IH]; intros [|c cs]; try reflexivity. cbn [zipLinksT zipLinks]. rewrite plain_bind, fieldChar32T_plain.
  destruct (convChar32 c) as [v|e| |]; try reflexivity. cbn [obind]. rewrite plain_bind, newEntryT_plain. destruct (newEntry v n) as [x|e| |]; try reflexivity. cbn [obind].
  rewrite plain_bind, IH. destruct (zipLinks ns cs); reflexivity.
Qed.
Lemma loadLinksT_plain : forall r j, plain (loadLinksT file k r j) = loadLinks r j.
Proof.
  intros r j. unfold loadLinksT, loadLinks. destruct (negb (isEmptyField (rLinkNames r))).
  - rewrite plain_bind, zipLinksT_plain. destruct (zipLinks _ _) as [x|e| |]; try reflexivity. cbn [obind]. destruct j; [reflexivity|]. destruct (isEmptyField (rLinkType r)); reflexivity.
  - destruct (negb (isEmptyField (rLinkType r))); [reflexivity|]. destruct (negb (isEmptyField (rLinkCodes r))); reflexivity.
Qed.
Lemma rowStrokesT_plain : forall r, plain (rowStrokesT file k r) = if isEmptyField (rVStrokes r)
              then s <- processU64 (rStrokes r) 255 ;; newStrokes (u8 s)
              else s <- processU64 (rStrokes r) 255 ;; v <- processU64 (rVStrokes r) 255 ;; newStrokes2 (u8 s) (u8 v).
Proof.
  intro r. unfold rowStrokesT. destruct (isEmptyField (rVStrokes r)); rewrite plain_bind, u64_plain; destruct (processU64 (rStrokes r) 255) as [s|e| |]; try reflexivity; cbn [obind].
  - apply newStrokesT_plain.
  - rewrite plain_bind, u64_plain. destruct (processU64 (rVStrokes r) 255) as [v|e| |]; try reflexivity. cbn [obind]. apply newStrokes2T_plain.
Qed.
Lemma type_domain : forall s e, fromStringAllowEmpty AllUcdLinkTypes s = Throw e -> e = DomainError.
Proof.
  intros s e H. rewrite <- typeT_plain in H. destruct (type_stage s) as [(v & E & _)|(e' & w & E & _)]; rewrite E in H; [discriminate H|]. cbn [plain] in H. injection H as <-.
  revert E. unfold fromStringAllowEmptyT, enumFromStringT, enumFromString. destruct (isEmpty s); [discriminate|]. destruct (findName s (nameMap AllUcdLinkTypes)); intro X; try discriminate X. injection X as <- _. reflexivity.
Qed.
Lemma entryAndType_plain : forall ltr r, ltr = true \/ bytes_ok (rName r) -> plain (entryAndType ltr file k r) =
  (code <- convChar32 (rCode r) ;; entry <- newEntry code (rName r) ;; link <- fromStringAllowEmpty AllUcdLinkTypes (rLinkType r) ;; Val (entry, link)).
Proof.
  intros ltr r Hb. unfold entryAndType. cbv zeta.
  assert (E : plain (code <~ fieldChar32T file k (b_ "Code") (rCode r) ;; newEntryT code (rName r)) = (code <- convChar32 (rCode r) ;; newEntry code (rName r))).
  { rewrite plain_bind, fieldChar32T_plain. destruct (convChar32 (rCode r)) as [v|e| |]; try reflexivity. cbn [obind]. apply newEntryT_plain. }
  destruct ltr; rewrite plain_bind; [|destruct Hb as [Hb|Hb]; [discriminate Hb|]].
  - rewrite E. destruct (convChar32 (rCode r)) as [v|e| |]; try reflexivity. cbn [obind]. destruct (newEntry v (rName r)) as [n|e| |]; try reflexivity. cbn [obind].
    rewrite plain_bind, typeT_plain. destruct (fromStringAllowEmpty _ _); reflexivity.
  - rewrite typeT_plain.
    assert (X : exact_ (code <- convChar32 (rCode r) ;; newEntry code (rName r)) (fun b => exists a, hex_code (rCode r) a /\ b = rName r /\ kanji_name (rName r) a)).
    { apply (exact_bind _ _ _ _ (hex_code (rCode r)) (fun a v => v = rName r /\ kanji_name (rName r) a)); [apply exact_char32|]. intros a _. apply exact_entry. exact Hb. }
    assert (D : domain_only (code <- convChar32 (rCode r) ;; newEntry code (rName r))).
    { apply dom_bind; [apply dom_char32|]. intro a. apply dom_entry. exact Hb. }
    assert (Y : forall f, (code <- convChar32 (rCode r) ;; entry <- newEntry code (rName r) ;; f entry) = obind (code <- convChar32 (rCode r) ;; newEntry code (rName r)) (f : bytes -> out (bytes * N))).
    { intro f. destruct (convChar32 (rCode r)); reflexivity. }
    rewrite Y. clear Y. destruct (fromStringAllowEmpty AllUcdLinkTypes (rLinkType r)) as [l|e| |] eqn:T.
    + cbn [obind]. rewrite plain_bind, E. reflexivity.
    + cbn [obind]. rewrite (type_domain _ _ T). destruct X as [_ [[v X]|[e' X]]]; rewrite X; cbn [obind]; [reflexivity|]. rewrite (D _ X). reflexivity.
    + exfalso. rewrite <- typeT_plain in T. destruct (type_stage (rLinkType r)) as [(v & Z & _)|(e' & w & Z & _)]; rewrite Z in T; discriminate T.
    + exfalso. rewrite <- typeT_plain in T. destruct (type_stage (rLinkType r)) as [(v & Z & _)|(e' & w & Z & _)]; rewrite Z in T; discriminate T.
Qed.
Lemma makeUcdT_plain : forall ltr r rad j n links, ltr = true \/ bytes_ok (rName r) -> plain (makeUcdT ltr file k r rad j n links) = makeUcd r rad j n links.
Proof.
  intros ltr r rad j n links Hb. unfold makeUcdT, makeUcd. rewrite plain_bind, rowStrokesT_plain. destruct (if isEmptyField (rVStrokes r) then _ else _) as [s|e| |]; try reflexivity. cbn [obind].
  rewrite plain_bind, (entryAndType_plain ltr r Hb). destruct (convChar32 (rCode r)) as [v|e| |]; try reflexivity. cbn [obind].
  destruct (newEntry v (rName r)) as [x|e| |]; try reflexivity. cbn [obind]. destruct (fromStringAllowEmpty AllUcdLinkTypes (rLinkType r)) as [l|e| |]; try reflexivity. cbn [obind].
  rewrite plain_bind, getSourcesT_plain. destruct (getSources _ _ _) as [b|e| |]; try reflexivity. cbn [obind]. rewrite plain_bind, newMorohashiT_plain. destruct (newMorohashi _); reflexivity.
Qed.
Lemma asErrorT_plain : forall A (x : res A), plain (asErrorT file k x) = asError (plain x).
Proof. intros A [v|e w| |]; reflexivity. Qed.
Lemma loadRowT_plain : forall ltr d r, ltr = true \/ bytes_ok (rName r) -> plain (loadRowT ltr file k d r) = loadRow d r.
Proof.
  intros ltr d r Hb. unfold loadRowT, loadRow. destruct (_ && _ && _ && _); [reflexivity|]. destruct (4 <? len (rName r)); [reflexivity|].
  rewrite plain_bind, u64_plain. destruct (processU64 (rRadical r) 0) as [rad|e| |]; try reflexivity. cbn [obind]. destruct (_ || _); [reflexivity|].
  rewrite plain_bind, fieldBoolT_plain. destruct (convBool (rJoyo r)) as [j|e| |]; try reflexivity. cbn [obind].
  rewrite plain_bind, fieldBoolT_plain. destruct (convBool (rJinmei r)) as [n|e| |]; try reflexivity. cbn [obind].
  rewrite andb_orb_distrib_r. destruct (j && n); [reflexivity|]. destruct (j && isEmptyField (rMeaning r)); [reflexivity|]. cbn [orb].
  rewrite plain_bind, loadLinksT_plain. destruct (loadLinks r j) as [links|e| |]; try reflexivity. cbn [obind].
  rewrite plain_bind, processLinksT_plain. destruct (processLinks links (rName r) n d) as [d'|e| |]; try reflexivity. cbn [obind].
  rewrite asErrorT_plain, plain_bind, (makeUcdT_plain ltr r rad j n links Hb). destruct (makeUcd r rad j n links) as [u|e| |]; try reflexivity. cbn [obind].
  destruct (mfind (rName r) (ucdMap d')); reflexivity.
Qed.

(** ** what a row adds *)
Lemma row_got : forall ltr d us r d', row_bytes r -> loaded d us -> loadRowT ltr file k d r = Got d' ->
  exists u, row_is r u /\ loaded d' (us ++ [u]).
Proof.
  intros ltr d us r d' Hb (Sd & Hh & N1 & N2) H. pose proof (loadRowT_plain ltr d r (or_intror (proj1 Hb))) as P. rewrite H in P. cbn [plain] in P.
  rewrite (loadRow_add r d Hb) in P. destruct (exact_row r Hb) as [X _]. destruct (rowUcd r) as [u|e| |] eqn:E; try discriminate P. exists u.
  split; [apply X; reflexivity|]. destruct (addUcd_spec u d us Sd Hh N1 N2) as [Y Z].
  assert (D : NoDup (map ucdName (us ++ [u])) /\ NoDup (map fst (jinmei_links (us ++ [u])))).
  { destruct (ListDec.NoDup_dec bytes_eq_dec (map ucdName (us ++ [u]))) as [D1|D1]; [|rewrite Z in P by tauto; discriminate P].
    destruct (ListDec.NoDup_dec bytes_eq_dec (map fst (jinmei_links (us ++ [u])))) as [D2|D2]; [auto|rewrite Z in P by tauto; discriminate P]. }
  destruct D as [D1 D2]. destruct (Y D1 D2) as (d2 & E2 & S2 & H2). rewrite E2 in P. injection P as ->. split; [exact S2|]. auto.
Qed.
Lemma row_adds : forall ltr d us r u, row_bytes r -> loaded d us -> row_is r u -> NoDup (map ucdName (us ++ [u])) -> NoDup (map fst (jinmei_links (us ++ [u]))) ->
  exists d', loadRowT ltr file k d r = Got d' /\ loaded d' (us ++ [u]).
Proof.
  intros ltr d us r u Hb (Sd & Hh & N1 & N2) Hu D1 D2. pose proof (loadRowT_plain ltr d r (or_intror (proj1 Hb))) as P. rewrite (loadRow_add r d Hb) in P.
  destruct (exact_row r Hb) as [X _]. rewrite (proj2 (X u) Hu) in P. destruct (addUcd_spec u d us Sd Hh N1 N2) as [Y _]. destruct (Y D1 D2) as (d2 & E2 & S2 & H2). rewrite E2 in P.
  destruct (loadRowT ltr file k d r) as [d'|e w| |]; try discriminate P. cbn [plain] in P. injection P as ->. exists d2. split; [reflexivity|]. split; [exact S2|]. auto.
Qed.
Lemma row_domain : forall ltr d r e w, row_bytes r -> loadRowT ltr file k d r = Says e w -> e = DomainError.
Proof.
  intros ltr d r e w Hb H. pose proof (loadRowT_plain ltr d r (or_intror (proj1 Hb))) as P. rewrite H in P. cbn [plain] in P. rewrite (loadRow_add r d Hb) in P.
  destruct (rowUcd r) as [u|x| |]; try congruence. unfold addUcd in P. destruct (processLinks_total (ucdLinks u) (ucdName u) (jinmei u) d) as [[d' E]|E]; rewrite E in P; cbn [obind] in P; [|congruence].
  destruct (mfind _ _); congruence.
Qed.
End Row.

(** ** the table *)
Lemma ucd_columns_ok : ucd_names <> [] /\ NoDup ucd_names.
Proof. split; [discriminate|]. unfold ucd_names. repeat (constructor; [cbn [In]; let H := fresh in intro H; repeat (destruct H as [H|H]; [discriminate H|]); exact H|]). constructor. Qed.
Lemma fields_row : forall k row, known_row ucd_names k row -> ucd_fields row (ucdRow row).
Proof.
  intros k row (_ & _ & headers & line & fs & vals & _ & _ & _ & F). assert (Ln : List.length row = List.length ucd_names) by (clear - F; induction F; cbn; congruence).
  clear F. cbn [List.length ucd_names] in Ln. do 21 (destruct row as [|? row]; [discriminate Ln|]). destruct row; [reflexivity|discriminate Ln].
Qed.
Lemma fields_ucdRow : forall row r, ucd_fields row r -> r = ucdRow row.
Proof. intros row r ->. destruct r. reflexivity. Qed.
Lemma field_ok : forall n row, Forall bytes_ok row -> bytes_ok (field n row).
Proof.
  intros n row H. unfold field. destruct (nth_in_or_default n row []) as [I|E]; [rewrite Forall_forall in H; auto|rewrite E; constructor].
Qed.
Lemma row_bytes_of : forall row, Forall bytes_ok row -> row_bytes (ucdRow row).
Proof. intros row H. split; cbn [ucdRow rName rLinkNames]; apply field_ok; exact H. Qed.
Section Table.
Variable ltr : bool.
Variable fs : bytes -> option CountModel.node.
Variable writable : bytes -> bool.
Variable reg : bytes -> registry.
Hypothesis Hfs : forall p c, is_file fs p c -> bytes_ok c.
Hypothesis Hreg : known (reg (b_ "ucd")).
Lemma ucd_table_view : forall dir,
  (forall d, ucdTableT ltr fs writable reg dir = Got d -> exists us, ucd_table fs writable dir us /\ loaded d us)
  /\ (forall us, ucd_table fs writable dir us -> exists d, ucdTableT ltr fs writable reg dir = Got d /\ loaded d us)
  /\ (forall e w, ucdTableT ltr fs writable reg dir = Says e w <-> ucd_says fs writable ltr dir e w)
  /\ ((exists d, ucdTableT ltr fs writable reg dir = Got d) \/ exists e w, ucdTableT ltr fs writable reg dir = Says e w).
Proof.
  intro dir. destruct ucd_columns_ok as [C1 C2].
  apply (table_view (fun file row l d => loadRowT ltr file row d (ucdRow l)) loaded ucd_step (ucd_fault ltr) ucd_names (fun d => exists us, loaded d us)).
  - intros name k row d d' K B [us Ld] H. destruct (row_got _ _ _ _ _ _ _ (row_bytes_of row B) Ld H) as (u & _ & X). eauto.
  - intros name k row d K B [us Ld]. destruct (row_tells ltr name k K (ucdRow row) (row_bytes_of row B) d us Ld) as [(v & E & _)|(e & w & E & _)]; [left|right]; eauto.
  - intros name k row d us d' Kn Ld H. pose proof Kn as (K & B & _). destruct (row_got _ _ _ _ _ _ _ (row_bytes_of row B) Ld H) as (u & Hu & X). exists (us ++ [u]). split; [|exact X].
    exists (ucdRow row), u. split; [exact (fields_row k row Kn)|]. split; [exact Hu|]. split; [reflexivity|]. destruct X as (_ & _ & X1 & X2). auto.
  - intros name k row d us vs Kn Ld (r & u & F & Hu & -> & D1 & D2). pose proof Kn as (K & B & _). apply fields_ucdRow in F. subst r.
    exact (row_adds _ _ _ _ _ _ _ (row_bytes_of row B) Ld Hu D1 D2).
  - intros name k row d us e w Kn Ld. pose proof Kn as (K & B & _). destruct (row_tells ltr name k K (ucdRow row) (row_bytes_of row B) d us Ld) as [(v & E & Al)|(e' & w' & E & F & U & Na)].
    + split; [rewrite E; discriminate|]. intros [-> (r & Fr & X)]. apply fields_ucdRow in Fr. subst r. exfalso. clear - X Al.
      induction Al as [|c cs H Al IH]; [exact X|]. destruct X as [[X _]|[_ X]]; [contradiction|auto].
    + split.
      * intro H. split; [exact (row_domain _ _ _ _ _ _ _ (row_bytes_of row B) H)|]. rewrite E in H. injection H as <- <-. exists (ucdRow row). split; [exact (fields_row k row Kn)|exact F].
      * intros [-> (r & Fr & X)]. apply fields_ucdRow in Fr. subst r. rewrite (row_domain _ _ _ _ _ _ _ (row_bytes_of row B) E) in E. rewrite (U w X). exact E.
  - exact Hfs.
  - exact Hreg.
  - discriminate.
  - unfold no_slash. intro I. cbn in I. repeat (destruct I as [I|I]; [discriminate I|]). exact I.
  - exact C1.
  - exact C2.
  - exists []. exact loaded_nothing.
  - exact loaded_nothing.
Qed.
End Table.
(** the order of evaluation only matters for messages *)
Section Order.
Variable fs : bytes -> option CountModel.node.
Variable writable : bytes -> bool.
Variable reg : bytes -> registry.
Hypothesis Hfs : forall p c, is_file fs p c -> bytes_ok c.
Hypothesis Hreg : known (reg (b_ "ucd")).
Lemma ucd_no_slash : no_slash (b_ "ucd").
Proof. unfold no_slash. intro I. cbn in I. repeat (destruct I as [I|I]; [discriminate I|]). exact I. Qed.
Lemma same_got : forall a b file k row d d', Forall bytes_ok row -> loadRowT a file k d (ucdRow row) = Got d' -> loadRowT b file k d (ucdRow row) = Got d'.
Proof.
  intros a b file k row d d' B H. pose proof (loadRowT_plain file k a d (ucdRow row) (or_intror (proj1 (row_bytes_of row B)))) as P. rewrite H in P.
  rewrite <- (loadRowT_plain file k b d (ucdRow row) (or_intror (proj1 (row_bytes_of row B)))) in P. cbn [plain] in P. destruct (loadRowT b file k d (ucdRow row)); cbn [plain] in P; congruence.
Qed.
Lemma order_view : forall a b dir d, ucdTableT a fs writable reg dir = Got d -> ucdTableT b fs writable reg dir = Got d.
Proof.
  intros a b dir d H. destruct ucd_columns_ok as [C1 C2].
  set (R := fun x y : UcdData => x = y /\ exists us, loaded x us).
  set (step := fun file k l x y => loadRowT b file k x (ucdRow l) = Got y).
  assert (V : forall c, (forall d', ucdTableT c fs writable reg dir = Got d' -> exists b', table_loads fs writable step dir (b_ "ucd") ucd_names emptyUcdData b' /\ R d' b')
    /\ (forall b', table_loads fs writable step dir (b_ "ucd") ucd_names emptyUcdData b' -> exists d', ucdTableT c fs writable reg dir = Got d' /\ R d' b')).
  { intro c. destruct (table_view (fun file row l d => loadRowT c file row d (ucdRow l)) R step (fun file k l x e w => loadRowT c file k x (ucdRow l) = Says e w) ucd_names (fun d => exists us, loaded d us))
      with (fs := fs) (writable := writable) (reg := reg) (dir := dir) (file := b_ "ucd") (a := emptyUcdData) (b := emptyUcdData) as (V1 & V2 & _); try assumption.
    - intros name k row x y K B [us Ld] E. destruct (row_got _ _ _ _ _ _ _ (row_bytes_of row B) Ld E) as (u & _ & X). eauto.
    - intros name k row x K B [us Ld]. destruct (row_tells c name k K (ucdRow row) (row_bytes_of row B) x us Ld) as [(v & E & _)|(e & w & E & _)]; [left|right]; eauto.
    - intros name k row x y x' (K & B & _) [<- [us Ld]] E. exists x'. split; [exact (same_got _ _ _ _ _ _ _ B E)|]. split; [reflexivity|].
      destruct (row_got _ _ _ _ _ _ _ (row_bytes_of row B) Ld E) as (u & _ & X). eauto.
    - intros name k row x y y' (K & B & _) [<- [us Ld]] E. unfold step in E. exists y'. split; [exact (same_got _ _ _ _ _ _ _ B E)|]. split; [reflexivity|].
      destruct (row_got _ _ _ _ _ _ _ (row_bytes_of row B) Ld E) as (u & _ & X). eauto.
    - intros name k row x y e w _ [<- _]. reflexivity.
    - discriminate.
    - exact ucd_no_slash.
    - exists []. exact loaded_nothing.
    - split; [reflexivity|]. exists []. exact loaded_nothing.
    - split; [exact V1|exact V2]. }
  destruct (proj1 (V a) d H) as (x & X & <- & _). destruct (proj2 (V b) _ X) as (y & Y & -> & _). exact Y.
Qed.
Lemma ucdTableT_plain : forall ltr dir, plain (ucdTableT ltr fs writable reg dir)
  = loadFrom (fileRows fs writable reg dir (b_ "ucd") UcdColumns) ucdRow (fun rows => loadUcd rows emptyUcdData).
Proof.
  intros ltr dir. destruct ucd_columns_ok as [C1 C2]. transitivity (plain (ucdTableT true fs writable reg dir)).
  - destruct (ucd_table_view ltr fs writable reg Hfs Hreg dir) as (_ & _ & S1 & [[d E]|(e & w & E)]).
    + rewrite E, (order_view _ true _ _ E). reflexivity.
    + destruct (ucd_table_view true fs writable reg Hfs Hreg dir) as (_ & _ & S2 & [[d E2]|(e2 & w2 & E2)]).
      * rewrite (order_view _ ltr _ _ E2) in E. discriminate E.
      * assert (D : forall b e w, ucd_says fs writable b dir e w -> e = DomainError) by (intros b e0 w0 X; destruct X as [| | | |? ? ? ? ? ? ? ? ? ? ? ? ? ? ? ? ? ? X]; try reflexivity; exact (proj1 X)).
        rewrite E, E2. cbn [plain]. apply S1, D in E. apply S2, D in E2. congruence.
  - unfold ucdTableT. apply (tableLoadT_plain _ ucdRow loadUcd); [intro a; reflexivity| |exact Hreg|exact C1|exact C2].
    intros r rs a name k row <-. cbn [loadUcd]. rewrite loadRowT_plain by (left; reflexivity). reflexivity.
Qed.
End Order.
