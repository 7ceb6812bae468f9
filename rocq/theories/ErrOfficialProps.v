(** C130: the messages about radicals, extra readings and the tables of Jouyou, Jinmei and extra Kanji. *)
From Verif Require Import BaseFacts ColumnFileProofs ColumnFileLemmas RadicalProofs ErrTableProofs DirProps DirPaths ErrArgsProps ErrOfficialTable ErrUcdProps.
From Verif Require Import ErrBase.
Open Scope N_scope.

(** The functions with texts are those of the other models: they give the same data and throw the same exceptions. *)
Theorem C130_same :
  (forall d s, plain (radicalByNameT d s) = radicalByName d s) /\ (forall d n, plain (radicalByNumberT d n) = radicalByNumber d n)
  /\ (forall fs writable reg dir, known (reg (b_ "radicals")) -> plain (radicalTableT fs writable reg dir)
        = loadFrom (fileRows fs writable reg dir (b_ "radicals") RadicalColumns) radicalRow (fun rows => loadRadicals rows emptyRadicals))
  /\ (forall fs writable reg dir, known (reg (b_ "frequency-readings")) -> plain (readingTableT fs writable reg dir)
        = loadFrom (fileRows fs writable reg dir (b_ "frequency-readings") ReadingColumns) readingRow (fun rows => loadReadings rows []))
  /\ (forall fs writable reg e dir, known (reg (b_ "jouyou")) -> plain (jouyouTableT fs writable reg e dir)
        = loadFrom (fileRows fs writable reg dir (b_ "jouyou") JouyouColumns) jouyouRow (fromRows (makeJouyou e)))
  /\ (forall fs writable reg e dir, known (reg (b_ "jinmei")) -> plain (jinmeiTableT fs writable reg e dir)
        = loadFrom (fileRows fs writable reg dir (b_ "jinmei") JinmeiColumns) jinmeiRow (fromRows (makeJinmei e)))
  /\ (forall fs writable reg e dir, known (reg (b_ "extra")) -> plain (extraTableT fs writable reg e dir)
        = loadFrom (fileRows fs writable reg dir (b_ "extra") ExtraColumns) extraRow (fromRows (makeExtra e))).
Proof.
  split; [exact radicalByNameT_plain|]. split; [exact radicalByNumberT_plain|]. split; [exact radicalTableT_plain|]. split; [exact readingTableT_plain|].
  split; [|split]; intros fs writable reg e dir H.
  - exact (kanji_table_plain _ _ _ _ (proj1 jouyou_columns_ok) (proj2 jouyou_columns_ok) (fun f k r => makeJouyouT_plain f k e r) _ _ _ _ _ H).
  - exact (kanji_table_plain _ _ _ _ (proj1 jinmei_columns_ok) (proj2 jinmei_columns_ok) (fun f k r => makeJinmeiT_plain f k e r) _ _ _ _ _ H).
  - exact (kanji_table_plain _ _ _ _ (proj1 extra_columns_ok) (proj2 extra_columns_ok) (fun f k r => makeExtraT_plain f k e r) _ _ _ _ _ H).
Qed.
Print Assumptions C130_same.

(** Radicals: all rows are loaded in order, or there is one message. *)
Theorem C130_radicals : forall fs writable reg, (forall p c, is_file fs p c -> bytes_ok c) -> known (reg (b_ "radicals")) -> forall dir,
  (forall rs, radical_table fs writable dir rs <-> exists d, radicalTableT fs writable reg dir = Got d /\ radList d = rs)
  /\ (forall e w, radicalTableT fs writable reg dir = Says e w <-> radical_says fs writable dir e w)
  /\ ((exists rs, radical_table fs writable dir rs) <-> ~ exists e w, radical_says fs writable dir e w).
Proof.
  intros fs writable reg A B dir. destruct (radical_table_view fs writable reg A dir B) as (G & G' & S1 & En). split; [|split; [exact S1|]].
  - intro rs. split; [apply G'|]. intros (d & E & <-). destruct (G d E) as (rs & T & <-). exact T.
  - split.
    + intros [rs T] (e & w & X). apply S1 in X. destruct (G' rs T) as (d & E & _). congruence.
    + intro N0. destruct En as [[d E]|(e & w & E)]; [|destruct N0; exists e, w; apply S1; exact E]. destruct (G d E) as (rs & T & _). eauto.
Qed.
Print Assumptions C130_radicals.
(** Extra readings. *)
Theorem C130_readings : forall fs writable reg, (forall p c, is_file fs p c -> bytes_ok c) -> known (reg (b_ "frequency-readings")) -> forall dir,
  (forall m, readingTableT fs writable reg dir = Got m -> exists ps, reading_table fs writable dir ps /\ NoDup (map fst ps) /\ forall n r, mfind n m = Some r <-> In (n, r) ps)
  /\ (forall ps, reading_table fs writable dir ps -> exists m, readingTableT fs writable reg dir = Got m)
  /\ (forall e w, readingTableT fs writable reg dir = Says e w <-> reading_says fs writable dir e w)
  /\ ((exists ps, reading_table fs writable dir ps) <-> ~ exists e w, reading_says fs writable dir e w).
Proof.
  intros fs writable reg A B dir. destruct (reading_table_view fs writable reg A dir B) as (G & G' & S1 & En). split; [|split; [|split; [exact S1|]]].
  - intros m E. destruct (G m E) as (ps & T & _ & N1 & H). exists ps. auto.
  - intros ps T. destruct (G' ps T) as (m & E & _). eauto.
  - split.
    + intros [ps T] (e & w & X). apply S1 in X. destruct (G' ps T) as (d & E & _). congruence.
    + intro N0. destruct En as [[d E]|(e & w & E)]; [|destruct N0; exists e, w; apply S1; exact E]. destruct (G d E) as (ps & T & _). eauto.
Qed.
Print Assumptions C130_readings.

(** Tables of Kanji: each row gives its Kanji, or there is one message, that of the first check that fails in the first row where one fails. *)
Definition table_gives (load : res (list Kanji)) (make : KanjiRow -> out Kanji) (rows : list KanjiRow -> Prop) (says : exn -> bytes -> Prop) : Prop :=
  (forall rs, rows rs -> exists ks, load = Got ks /\ Forall2 (fun k r => make r = Val k) ks rs)
  /\ (forall ks, load = Got ks -> exists rs, rows rs /\ Forall2 (fun k r => make r = Val k) ks rs)
  /\ (forall e w, load = Says e w <-> says e w)
  /\ ((exists rs, rows rs) <-> ~ exists e w, says e w).
Lemma gives : forall load make rows says,
  (forall ks, load = Got ks -> exists rs, rows rs /\ Forall2 (fun k r => make r = Val k) ks rs)
  /\ (forall rs, rows rs -> exists ks, load = Got ks /\ Forall2 (fun k r => make r = Val k) ks rs)
  /\ (forall e w, load = Says e w <-> says e w)
  /\ ((exists ks, load = Got ks) \/ exists e w, load = Says e w) -> table_gives load make rows says.
Proof.
  intros load make rows says (G & G' & S1 & En). split; [exact G'|]. split; [exact G|]. split; [exact S1|].
  split.
  - intros [rs T] (e & w & X). apply S1 in X. destruct (G' rs T) as (d & E & _). congruence.
  - intro N0. destruct En as [[d E]|(e & w & E)]; [|destruct N0; exists e, w; apply S1; exact E]. destruct (G d E) as (rs & T & _). eauto.
Qed.
Theorem C130_kanji : forall fs writable reg, (forall p c, is_file fs p c -> bytes_ok c) -> (forall file, known (reg file)) ->
  forall e radicals, loadRadicals radicals emptyRadicals = Val (envRadicals e) -> forall dir,
  let names := map radName (radList (envRadicals e)) in
  let entry n := exists u, ucdFind (envUcd e) n = Val (Some u) in
  table_gives (jouyouTableT fs writable reg e dir) (makeJouyou e) (kanji_table jouyou_fields (jouyou_checks names) fs writable dir (b_ "jouyou") jouyou_names)
    (kanji_says count_kind jouyou_fields (jouyou_checks names) fs writable dir (b_ "jouyou") jouyou_names)
  /\ table_gives (jinmeiTableT fs writable reg e dir) (makeJinmei e) (kanji_table jinmei_fields (jinmei_checks names entry) fs writable dir (b_ "jinmei") jinmei_names)
    (kanji_says plain_kind jinmei_fields (jinmei_checks names entry) fs writable dir (b_ "jinmei") jinmei_names)
  /\ table_gives (extraTableT fs writable reg e dir) (makeExtra e) (kanji_table extra_fields (extra_checks names) fs writable dir (b_ "extra") extra_names)
    (kanji_says count_kind extra_fields (extra_checks names) fs writable dir (b_ "extra") extra_names).
Proof.
  intros fs writable reg A B e rows Hr dir names entry. split; [|split]; apply gives.
  - apply (kanji_table_view (makeJouyouT e)); [apply jouyou_columns_ok|apply jouyou_columns_ok|intros f k r Hk; exact (jouyou_tells f k Hk e rows Hr r)|exact (kind_jouyou e rows Hr)|
      intros f k r; apply makeJouyouT_plain|exact jouyou_row_fields|exact jouyou_fields_row|exact A|apply B|discriminate|slashless].
  - apply (kanji_table_view (makeJinmeiT e)); [apply jinmei_columns_ok|apply jinmei_columns_ok|intros f k r Hk; exact (jinmei_tells f k Hk e rows Hr r)|exact (kind_jinmei e rows Hr)|
      intros f k r; apply makeJinmeiT_plain|exact jinmei_row_fields|exact jinmei_fields_row|exact A|apply B|discriminate|slashless].
  - apply (kanji_table_view (makeExtraT e)); [apply extra_columns_ok|apply extra_columns_ok|intros f k r Hk; exact (extra_tells f k Hk e rows Hr r)|exact (kind_extra e rows Hr)|
      intros f k r; apply makeExtraT_plain|exact extra_row_fields|exact extra_fields_row|exact A|apply B|discriminate|slashless].
Qed.
Print Assumptions C130_kanji.
(** A radical is found by its name or number, or there is one message. *)
Theorem C130_find : forall rows d, loadRadicals rows emptyRadicals = Val d ->
  (forall s e w, radicalByNameT d s = Says e w <-> e = DomainError
     /\ ((rows = [] /\ w = b_ "must call 'load' before calling 'find'") \/ (rows <> [] /\ ~ In s (map radName (radList d)) /\ w = b_ "name not found: " ++ s)))
  /\ forall n e w, radicalByNumberT d n = Says e w <-> e = DomainError
     /\ ((rows = [] /\ w = b_ "must call 'load' before calling 'find'")
         \/ (rows <> [] /\ ~ (1 <= n <= len rows) /\ exists t, written t n /\ w = quoted t ++ b_ " is not a valid radical number")).
Proof.
  intros rows d Ld. destruct (RadicalProofs.loaded rows d Ld) as [L1 _].
  assert (Z0 : radList d = [] <-> rows = []) by (rewrite L1; destruct rows; cbn [mades]; split; congruence).
  assert (Ln : len (radList d) = len rows) by (unfold len; rewrite L1, mades_length; reflexivity). split.
  - intros s e w. pose proof (radical_tells _ rows d (MkKanjiRow [] [] s [] [] [] [] [] [] []) (fun x => Got x) [] Ld (fun v => tells_got _ v)) as T. cbn [krRadical] in T.
    assert (E : (x <~ radicalByNameT d s;; Got x) = radicalByNameT d s) by (destruct (radicalByNameT d s); reflexivity). rewrite E in T. clear E.
    assert (Nn : map radName (radList d) <> [] <-> rows <> []) by (rewrite <- Z0; destruct (radList d); cbn [map]; split; congruence).
    unfold radical_checks in T. cbn [app krRadical] in T. destruct T as [(v & -> & Al)|(e0 & w0 & E & F & U & Na)].
    + inversion Al as [|c cs P1 Al' Eq]; subst. inversion Al' as [|c cs P2 _ Eq]; subst. cbn [fst] in P1, P2. split; [discriminate|]. intros [_ [[X _]|(_ & X & _)]]; [|contradiction]. apply Nn in P1. contradiction.
    + rewrite E. pose proof (dom_radical rows d s Ld _ _ E) as ->. cbn [first_fault fst snd] in F, U.
      assert (Em : ~ map radName (radList d) <> [] <-> rows = []) by (rewrite <- Z0; destruct (radList d); cbn [map]; split; try congruence; intro H; destruct H; discriminate).
      split.
      * intro H. injection H as <- <-. split; [reflexivity|]. unfold texts in F. rewrite Em, Nn in F. tauto.
      * intros [-> H]. f_equal. symmetry. apply U. unfold texts. rewrite Em, Nn. tauto.
  - intros n e w. unfold radicalByNumberT. destruct (radList d) as [|x xs] eqn:E.
    + rewrite (proj1 Z0 eq_refl). split; [intro H; split; [congruence|]; left; split; [reflexivity|]; symmetry; exact (proj2 (says_inj _ _ _ _ _ H))|]. intros [-> [[_ ->]|[X _]]]; [reflexivity|]. destruct X. reflexivity.
    + assert (Ne : rows <> []) by (intro X; apply Z0 in X; discriminate X). rewrite <- E in *. destruct ((n =? 0) || (len (radList d) <? n)) eqn:C.
      * rewrite orb_true_iff, N.eqb_eq, N.ltb_lt, Ln in C.
        assert (Tx : b_ "'" ++ to_string n ++ b_ "' is not a valid radical number" = quoted (to_string n) ++ b_ " is not a valid radical number") by (unfold quoted; rewrite <- ?app_assoc; reflexivity).
        rewrite Tx. clear Tx. split.
        -- intro H. split; [congruence|]. right. split; [exact Ne|]. split; [lia|]. exists (to_string n). split; [apply to_string_written|]. symmetry. exact (proj2 (says_inj _ _ _ _ _ H)).
        -- intros [-> [[X _]|(_ & _ & t & W & ->)]]; [contradiction|]. rewrite (ErrJukugoLoad.number_of _ _ W). reflexivity.
      * rewrite orb_false_iff, N.eqb_neq, N.ltb_ge, Ln in C. destruct (nth_error (radList d) (N.to_nat (n - 1))) as [y|] eqn:Y.
        -- split; [discriminate|]. intros [_ [[X _]|(_ & X & _)]]; [contradiction|lia].
        -- apply nth_error_None in Y. unfold len in *. lia.
Qed.
Print Assumptions C130_find.

(** tables with a fault *)
Definition tableFs (file c : bytes) (p : bytes) : option CountModel.node := MapModel.mfind p [(b_ "/d", CountModel.Dir []); (b_ "/d/" ++ file ++ b_ ".txt", CountModel.File c)].
Lemma tableFs_ok : forall f t, small_bytes t = true -> forall p c, is_file (tableFs f t) p c -> bytes_ok c.
Proof.
  intros f t A p c (n & Hn & S1). apply MapProofs.In_mfind in Hn. apply resolve_seen in S1.
  assert (K : bytes_ok t) by (apply Forall_forall; intros b I; unfold small_bytes in A; rewrite forallb_forall in A; apply N.ltb_lt; exact (A b I)).
  destruct Hn as [Hn|[Hn|[]]]; injection Hn as _ <-; cbn in S1; [discriminate S1|injection S1 as <-; exact K].
Qed.
Definition caseEnv : Env :=
  MkEnv emptyUcdData (match loadRadicals [MkRadicalRow (b_ "1") (b_ "一") (b_ "いち") (b_ "いち")] emptyRadicals with Val d => d | _ => emptyRadicals end) [] []
    emptyList [] true.
Example C130_case :
  radical_says (tableFs (b_ "radicals") (line_of radical_names ++ line_of [b_ "0"; b_ "一"; b_ "いち"; b_ "いち"])) every (b_ "/d") DomainError
    (b_ "radicals must be ordered by 'number' - file: radicals.txt, row: 1")
  /\ reading_says (tableFs (b_ "frequency-readings") (line_of reading_names ++ line_of [b_ "呑"; b_ "トン"] ++ line_of [b_ "呑"; b_ "ドン"])) every (b_ "/d") DomainError
    (b_ "duplicate name - file: frequency-readings.txt, row: 2")
  /\ let says row e w := kanji_says count_kind jouyou_fields (jouyou_checks [b_ "一"]) (tableFs (b_ "jouyou") (line_of jouyou_names ++ line_of row)) every (b_ "/d") (b_ "jouyou") jouyou_names e w in
     says [b_ "1"; b_ "亜"; b_ "二"; b_ "ア"; []; []; b_ "7"; b_ "S"; b_ "sub-"] DomainError (b_ "name not found: 二")
     /\ says [b_ "1"; b_ "亜"; b_ "一"; b_ "ア"; []; []; b_ "65"; b_ "S"; b_ "sub-"] RangeError (b_ "strokes '65' out of range")
     /\ says [b_ "1"; b_ "亜"; b_ "一"; b_ "ア"; []; []; b_ "7"; b_ "7"; b_ "sub-"] DomainError (b_ "name 'G7' not found")
     /\ says [b_ "1"; b_ "亜"; b_ "一"; b_ "ア"; []; b_ "x"; b_ "7"; b_ "7"; b_ "sub-"] DomainError
          (b_ "failed to convert to unsigned number - file: jouyou.txt, row: 1, column: 'Year', value: 'x'").
Proof.
  assert (Hr : loadRadicals [MkRadicalRow (b_ "1") (b_ "一") (b_ "いち") (b_ "いち")] emptyRadicals = Val (envRadicals caseEnv)) by (vm_compute; reflexivity).
  split; [|split].
  - set (c := line_of _ ++ _). assert (A : small_bytes c = true) by (vm_compute; reflexivity).
    apply (proj1 (proj2 (C130_radicals _ every (fun _ => []) (tableFs_ok (b_ "radicals") c A) none_known (b_ "/d")))). vm_compute. reflexivity.
  - set (c := line_of _ ++ _). assert (A : small_bytes c = true) by (vm_compute; reflexivity).
    apply (proj1 (proj2 (proj2 (C130_readings _ every (fun _ => []) (tableFs_ok (b_ "frequency-readings") c A) none_known (b_ "/d"))))). vm_compute. reflexivity.
  - intro says.
    assert (K : forall row e w, small_bytes (line_of jouyou_names ++ line_of row) = true ->
      jouyouTableT (tableFs (b_ "jouyou") (line_of jouyou_names ++ line_of row)) every (fun _ => []) caseEnv (b_ "/d") = Says e w -> says row e w).
    { intros row e w A H. pose proof (proj1 (C130_kanji _ every (fun _ => []) (tableFs_ok (b_ "jouyou") _ A) (fun _ => none_known) caseEnv _ Hr (b_ "/d"))) as T.
      destruct T as (_ & _ & T & _). apply T in H. exact H. }
    do 3 (split; [apply K; vm_compute; reflexivity|]). apply K; vm_compute; reflexivity.
Qed.
