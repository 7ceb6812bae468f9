(** Proofs about the messages of a table that is read row by row. *)
From Verif Require Import BaseFacts ColumnFileProofs ColumnFileLemmas RowsProofs ListProofs DirPaths.
From Verif Require Import ErrTableProofs ErrTableRows ErrListProofs ErrJukugoLoad.
From Verif Require Export ErrRowsSpec.
From Verif Require Import ErrBase.
Open Scope N_scope.
Arguments N.add : simpl never.

(** ** the same as without texts *)
Lemma fieldsT_plain : forall name f cols, plain (fieldsT name f cols) = fieldsOf f cols.
Proof.
  intros name f cols. induction cols as [|c cols IH]; [reflexivity|]. cbn [fieldsT fieldsOf]. rewrite plain_bind, get_plain.
  destruct (getField f c); cbn [obind]; try reflexivity. rewrite plain_bind, IH. destruct (fieldsOf f cols); reflexivity.
Qed.
(** an open table *)
Lemma opened_rows : forall reg names cols reg2 c f, known reg -> names <> [] -> NoDup names -> newColumns reg names = (cols, reg2) ->
  openFile reg2 c cols 9 = Val f ->
  exists hl headers, cut 10 c (hl :: ColumnFileModel.file f) /\ header_of names hl headers /\ at_row headers cols f /\ currentRow f = 0 /\ map cname cols = names.
Proof.
  intros reg names cols reg2 c f (history & ->) Hne Hnd E2 O.
  destruct (newColumns [] history) as [created0 reg] eqn:E0. cbn [snd] in E2.
  assert (E : newColumns [] (history ++ names) = (created0 ++ cols, reg2)) by (rewrite newColumns_app, E0, E2; reflexivity).
  destruct (newColumns_spec _ _ _ _ E2) as [Hn _].
  assert (I : incl cols (created0 ++ cols)) by (intros x Hx; apply in_or_app; auto).
  destruct (getlines 10 c) as [|hl lines] eqn:G.
  { exfalso. unfold openFile in O. rewrite G in O. destruct cols; discriminate O. }
  pose proof (lines_free c) as Fr. rewrite G in Fr.
  assert (OE : openFile reg2 c cols 9 = openFile reg2 (unlines (hl :: lines)) cols 9).
  { unfold openFile. rewrite getlines_unlines by exact Fr. rewrite G. reflexivity. }
  rewrite OE in O. clear OE. assert (Cg : cut 10 c (hl :: lines)) by (apply cut_getlines; auto).
  destruct (fields_exist 9 hl) as [fs Ff].
  destruct (open_iff _ _ _ cols 9 hl lines fs E I Fr Ff) as [Yes No].
  set (headers := strip_trailing_empty fs) in *.
  assert (Ch : cut 9 hl headers) by (exists fs; auto).
  destruct (perm_dec headers names) as [Hp|Hp].
  - destruct Yes as (f' & Ef & O1 & O2 & O3 & O4 & O5 & O6 & _).
    { split; [intros ->; cbn in Hn; congruence|]. rewrite Hn. auto. }
    rewrite Ef in O. injection O as <-. exists hl, headers. rewrite O1. split; [exact Cg|]. split; [split; assumption|].
    split; [|split; [exact O3|exact Hn]]. split; [exact O2|]. split; [|exact O6].
    rewrite O4, repeat_length, (Permutation_length Hp), <- Hn, map_length. reflexivity.
  - rewrite No in O by (rewrite Hn; tauto). discriminate O.
Qed.
(** the function on rows may use the number of the row *)
Section Same.
Context {A R : Type}.
Variable body : bytes -> N -> list bytes -> A -> res A.
Variable mk : list bytes -> R.
Variable load : N -> list R -> A -> out A.
Hypothesis load_nil : forall k a, load k [] a = Val a.
Hypothesis load_cons : forall r rs a name k row, mk row = r -> load k (r :: rs) a = obind (plain (body name k row a)) (load (k + 1) rs).
Lemma loop_plain : forall n name f cols a, (List.length (ColumnFileModel.file f) <= n)%nat ->
  forall rows ended, rowsLoop n f cols = Val (rows, ended) ->
  plain (rowsLoopT body n name f cols a) = obind (load (currentRow f + 1) (map mk rows) a) (fun x => if ended then Val x else Throw DomainError).
Proof.
  induction n as [|n IH]; intros name f cols a Hl rows ended H; cbn [rowsLoopT rowsLoop] in *.
  - rewrite plain_bind, next_plain. destruct (nextRow f) as [[[] g]|e| |] eqn:E; try discriminate H; cbn [obind].
    + injection H as <- <-. cbn [map plain]. rewrite load_nil. reflexivity.
    + injection H as <- <-. cbn [map]. rewrite load_nil. cbn [obind]. destruct e; try reflexivity; exfalso; clear - E; unfold nextRow in E;
        destruct (ColumnFileModel.file f) as [|l r]; try discriminate E; destruct (storeFields _ _ _) as [[? ?]|]; try discriminate E; cbv zeta in E;
        repeat match type of E with context [if ?b then _ else _] => destruct b end; discriminate E.
  - rewrite plain_bind, next_plain. destruct (nextRow f) as [[[] g]|e| |] eqn:E; try discriminate H; cbn [obind].
    + rewrite plain_bind, fieldsT_plain. destruct (fieldsOf g cols) as [row|e| |] eqn:F; cbn [obind] in *; try discriminate H.
      destruct (rowsLoop n g cols) as [[rows' ended']|e| |] eqn:Lp; cbn [obind] in H; try discriminate H. injection H as <- <-. cbn [map].
      assert (Cr : currentRow g = currentRow f + 1).
      { clear - E. unfold nextRow in E. destruct (ColumnFileModel.file f) as [|l r]; [discriminate E|]. destruct (storeFields _ _ _) as [[i v]|]; [|discriminate E]. cbv zeta in E.
        repeat match type of E with context [if ?b then _ else _] => destruct b end; try discriminate E; injection E as <-; reflexivity. }
      rewrite <- Cr, (load_cons (mk row) (map mk rows') a name (currentRow g) row eq_refl), plain_bind.
      destruct (plain (body name (currentRow g) row a)) as [b|e| |]; cbn [obind]; try reflexivity. apply IH; [|exact Lp].
      assert (K : List.length (ColumnFileModel.file f) = S (List.length (ColumnFileModel.file g))); [|lia].
      { clear - E. unfold nextRow in E. destruct (ColumnFileModel.file f) as [|l r]; [discriminate E|]. destruct (storeFields _ _ _) as [[i v]|]; [|discriminate E]. cbv zeta in E.
        repeat match type of E with context [if ?b then _ else _] => destruct b end; try discriminate E; injection E as <-; reflexivity. }
    + injection H as <- <-. cbn [map plain]. rewrite load_nil. reflexivity.
    + injection H as <- <-. cbn [map]. rewrite load_nil. cbn [obind]. destruct e; try reflexivity; exfalso; clear - E; unfold nextRow in E;
        destruct (ColumnFileModel.file f) as [|l r]; try discriminate E; destruct (storeFields _ _ _) as [[? ?]|]; try discriminate E; cbv zeta in E;
        repeat match type of E with context [if ?b then _ else _] => destruct b end; discriminate E.
Qed.
(** the whole table, if its columns are known ones *)
Lemma tableLoadT_plain_k : forall fs writable reg dir file names a, known (reg file) -> names <> [] -> NoDup names ->
  plain (tableLoadT body fs writable reg dir file names a) = loadFrom (fileRows fs writable reg dir file names) mk (fun rows => load 1 rows a).
Proof.
  intros fs writable reg dir file names a Kn Ne Nd. unfold tableLoadT, loadFrom, fileRows. rewrite plain_bind, getFile_plain.
  destruct (getFile fs dir file) as [p|e| |]; cbn [obind]; try reflexivity. cbv zeta.
  destruct (writable p).
  - unfold tableRows. destruct (newColumns (reg file) names) as [cols reg2] eqn:E. rewrite plain_bind, open_plain.
    destruct (openFile reg2 (contentsOf fs p) cols 9) as [f|e| |] eqn:O; cbn [obind] in *; try reflexivity.
    destruct (opened_rows _ _ _ _ _ _ Kn Ne Nd E O) as (hl & headers & _ & [_ Hp] & At & Cr & Hn).
    assert (X : exists rows ended, rowsLoop (List.length (ColumnFileModel.file f)) f cols = Val (rows, ended)).
    { destruct (rows_loop names headers cols Hn Hp Ne Nd _ _ f At eq_refl (le_n _)) as [(rows & X & _)|(g & b & r & rows & X & _)]; eauto. }
    destruct X as (rows & ended & X). rewrite X. cbn [obind]. rewrite (loop_plain _ _ f cols a (le_n _) rows ended X), Cr. reflexivity.
  - destruct (newColumns (reg file) names) as [cols reg2] eqn:E. rewrite plain_bind, open_plain. unfold openFile. destruct cols; reflexivity.
Qed.
End Same.
Lemma tableLoadT_plain : forall A R (body : bytes -> N -> list bytes -> A -> res A) (mk : list bytes -> R) (load : list R -> A -> out A),
  (forall a, load [] a = Val a) -> (forall r rs a name k row, mk row = r -> load (r :: rs) a = obind (plain (body name k row a)) (load rs)) ->
  forall fs writable reg dir file names a, known (reg file) -> names <> [] -> NoDup names ->
  plain (tableLoadT body fs writable reg dir file names a) = loadFrom (fileRows fs writable reg dir file names) mk (fun rows => load rows a).
Proof. intros A R body mk load Ln Lc. exact (tableLoadT_plain_k body mk (fun _ => load) (fun _ => Ln) Lc). Qed.
Arguments tableLoadT_plain {A R}.

(** ** the first fault *)
Lemma join_ok : forall d fs, bytes_ok (join d fs) -> Forall bytes_ok fs.
Proof.
  intros d fs. induction fs as [|x fs IH]; intro H; [constructor|]. destruct fs as [|y fs]; [constructor; [exact H|constructor]|].
  cbn [join] in H. apply bytes_ok_app in H. destruct H as [H1 H2]. constructor; [exact H1|]. apply IH. apply bytes_ok_app in H2. apply H2.
Qed.
Lemma line_row_ok : forall headers names line row, bytes_ok line -> line_row headers names line row -> Forall bytes_ok row.
Proof.
  intros headers names line row B (fs & vals & (_ & _ & ->) & D & _ & F). apply join_ok in B.
  assert (V : Forall bytes_ok vals) by (destruct D as [->| ->]; [exact B|apply Forall_app in B; apply B]).
  clear - V F. induction F as [|n v ns row (p & _ & E) F IH]; [constructor|]. constructor; [|exact IH]. rewrite Forall_forall in V. apply V. exact (nth_error_In _ _ E).
Qed.
Section Loop.
Context {A : Type}.
Variable body : bytes -> N -> list bytes -> A -> res A.
Variable Inv : A -> Prop.
Variable step : bytes -> N -> list bytes -> A -> A -> Prop.
Variable wrong : bytes -> N -> list bytes -> A -> exn -> bytes -> Prop.
Hypothesis Htotal : forall name k row a, k <> 0 -> Inv a -> Forall bytes_ok row -> (exists b, step name k row a b) \/ exists e w, wrong name k row a e w.
Hypothesis Hstep : forall name k row a b, k <> 0 -> Inv a -> Forall bytes_ok row -> step name k row a b -> body name k row a = Got b /\ Inv b.
Hypothesis Hwrong : forall name k row a e w, k <> 0 -> Inv a -> Forall bytes_ok row -> wrong name k row a e w -> body name k row a = Says e w.

Section Opened.
Variables (name : bytes) (names headers : list bytes) (cols : list Column).
Hypothesis Hn : map cname cols = names.
Hypothesis Hp : Permutation headers names.
Hypothesis Hne : names <> [].
Hypothesis Hnd : NoDup names.
Lemma line_read : forall f line rest row, at_row headers cols f -> ColumnFileModel.file f = line :: rest -> line_row headers names line row ->
  exists g, nextRowE name f = Got (true, g) /\ at_row headers cols g /\ ColumnFileModel.file g = rest /\ currentRow g = currentRow f + 1 /\ fieldsT name g cols = Got row.
Proof.
  intros f line rest row At E Lr. destruct (next_line names headers cols Hn Hp Hne Hnd f line rest At E) as [(g & row' & X & Ag & Eg & F & Lr')|(_ & No)].
  - rewrite <- (line_row_fun names headers Hp Hnd line _ _ Lr Lr') in *. rewrite <- (next_plain name) in X. rewrite <- (fieldsT_plain name) in F.
    destruct (nextRowE name f) as [[m g']|e w| |] eqn:Nx; cbn [plain] in X; try discriminate X. injection X as -> ->. exists g.
    destruct (fieldsT name g cols) as [r|e w| |]; cbn [plain] in F; try discriminate F. injection F as ->.
    split; [reflexivity|]. split; [exact Ag|]. split; [exact Eg|]. split; [|reflexivity].
    clear - Nx E. unfold nextRowE in Nx. rewrite E in Nx. cbv zeta in Nx. destruct (storeFields _ _ _) as [[i v]|]; [|discriminate Nx].
    repeat match type of Nx with context [if ?b then _ else _] => destruct b end; try discriminate Nx; injection Nx as <-; reflexivity.
  - exfalso. eauto.
Qed.
Lemma line_reads : forall f line rest, at_row headers cols f -> ColumnFileModel.file f = line :: rest ->
  (exists row, line_row headers names line row) \/ exists r, row_wrong 9 (List.length names) line r.
Proof.
  intros f line rest At E. destruct At as (D & Ln & G). assert (K : List.length names = List.length (rowValues f)) by (rewrite Ln; symmetry; apply Permutation_length; exact Hp).
  assert (N1 : (1 <= List.length (rowValues f))%nat) by (rewrite <- K; destruct names; [congruence|cbn; lia]).
  destruct (next_line names headers cols Hn Hp Hne Hnd f line rest (conj D (conj Ln G)) E) as [(g & row & _ & _ & _ & _ & Lr)|(X & _)]; [left; eauto|right].
  rewrite <- (next_plain name) in X. destruct (nextRowE name f) as [x|e w| |] eqn:Nx; cbn [plain] in X; try discriminate X.
  destruct (row_says_wrong name f line rest E N1 e w Nx) as (_ & r & W & _). rewrite D, <- K in W. eauto.
Qed.
Lemma line_wrong : forall f line rest r, at_row headers cols f -> ColumnFileModel.file f = line :: rest -> row_wrong 9 (List.length names) line r ->
  nextRowE name f = Says DomainError (r ++ in_row name (currentRow f + 1)).
Proof.
  intros f line rest r (D & Ln & G) E W. assert (K : List.length names = List.length (rowValues f)) by (rewrite Ln; symmetry; apply Permutation_length; exact Hp).
  apply (row_wrong_says name f line rest E); [rewrite <- K; destruct names; [congruence|cbn; lia]|]. rewrite D, <- K. exact W.
Qed.
Lemma ran_read : forall k before a b, ran step name headers names k before a b -> Inv a -> Forall bytes_ok before ->
  forall n f rest, at_row headers cols f -> ColumnFileModel.file f = before ++ rest -> currentRow f + 1 = k -> (List.length before <= n)%nat ->
  exists g, rowsLoopT body n name f cols a = rowsLoopT body (n - List.length before) name g cols b
    /\ at_row headers cols g /\ ColumnFileModel.file g = rest /\ currentRow g = currentRow f + len before /\ Inv b.
Proof.
  intros k before a b H. induction H as [k a|k line row lines a b c Lr St H IH]; intros Ia Bo n f rest At E K Ln.
  - exists f. rewrite Nat.sub_0_r, len_nil, N.add_0_r. auto.
  - assert (B1 := Forall_inv Bo); assert (B2 := Forall_inv_tail Bo). subst k. cbn [List.length] in Ln. destruct n as [|n]; [lia|]. cbn [app] in E.
    destruct (line_read f line (lines ++ rest) row At E Lr) as (g & X & Ag & Eg & Cg & F).
    assert (K0 : currentRow f + 1 <> 0) by lia. destruct (Hstep name (currentRow f + 1) row a b K0 Ia (line_row_ok _ _ _ _ B1 Lr) St) as [Y Ib].
    destruct (IH Ib B2 n g rest Ag Eg) as (h & Z & Ah & Eh & Ch & Ic); [lia|lia|]. exists h.
    cbn [rowsLoopT]. rewrite X. cbn [rbind]. rewrite F. cbn [rbind]. rewrite Cg, Y. cbn [rbind List.length Nat.sub]. rewrite Z, len_cons.
    split; [reflexivity|]. split; [exact Ah|]. split; [exact Eh|]. split; [lia|exact Ic].
Qed.
Lemma ran_total : forall lines k a, k <> 0 -> Inv a -> Forall bytes_ok lines ->
  (exists f, at_row headers cols f /\ ColumnFileModel.file f = lines) ->
  (exists b, ran step name headers names k lines a b)
  \/ exists before line rest b, lines = before ++ line :: rest /\ ran step name headers names k before a b
       /\ ((exists r, row_wrong 9 (List.length names) line r) \/ exists row e w, line_row headers names line row /\ wrong name (k + len before) row b e w).
Proof.
  induction lines as [|line lines IH]; intros k a K Ia Bo (f & At & E); [left; exists a; constructor|]. assert (B1 := Forall_inv Bo); assert (B2 := Forall_inv_tail Bo).
  destruct (line_reads f line lines At E) as [[row Lr]|W].
  - destruct (line_read f line lines row At E Lr) as (g & X & Ag & Eg & Cg & F).
    destruct (Htotal name k row a K Ia (line_row_ok _ _ _ _ B1 Lr)) as [[b St]|(e & w & W)].
    + destruct (Hstep name k row a b K Ia (line_row_ok _ _ _ _ B1 Lr) St) as [Y Ib].
      destruct (IH (k + 1) b ltac:(lia) Ib B2 (ex_intro _ g (conj Ag Eg))) as [[c R]|(before & l & rest & c & -> & R & W)].
      * left. exists c. econstructor; eassumption.
      * right. exists (line :: before), l, rest, c. split; [reflexivity|]. split; [econstructor; eassumption|].
        rewrite len_cons. replace (k + (1 + len before)) with (k + 1 + len before) by lia. exact W.
    + right. exists [], line, lines, a. split; [reflexivity|]. split; [constructor|]. right. exists row, e, w. split; [exact Lr|]. rewrite len_nil, N.add_0_r. exact W.
  - right. exists [], line, lines, a. split; [reflexivity|]. split; [constructor|]. left. exact W.
Qed.
End Opened.

Section Fs.
Variable fs : bytes -> option CountModel.node.
Variable writable : bytes -> bool.
Hypothesis Hfs : forall p c, is_file fs p c -> bytes_ok c.
Lemma found_at_got : forall dir file q name c, file <> [] -> no_slash file ->
  (found_at fs dir file q name c <-> getFileT fs dir file = Got q /\ name = fileName q /\ is_file fs q c).
Proof.
  intros dir file q name c Nf Ns. unfold found_at. split.
  - intros (D & F & p & C & X). split; [|split; [|exact F]].
    + apply getFile_got; try assumption. exists p, c. split; [exact D|]. split; [exact C|]. destruct X as [[-> ->]|(NF & NE & -> & ->)]; [left; auto|right; auto].
    + destruct X as [[-> ->]|(NF & NE & -> & ->)]; [|rewrite (child_name dir file p _ Ns no_slash_txt C); reflexivity].
      rewrite <- (app_nil_r p), (child_name dir file p [] Ns (fun H => H) C), app_nil_r. reflexivity.
  - intros (G & -> & F). apply getFile_got in G; try assumption. destruct G as (p & c' & D & C & X). split; [exact D|]. split; [exact F|]. exists p. split; [exact C|].
    destruct X as [[-> _]|(NF & NE & -> & _)].
    + left. split; [rewrite <- (app_nil_r p), (child_name dir file p [] Ns (fun H => H) C), app_nil_r; reflexivity|reflexivity].
    + right. split; [exact NF|]. split; [exact NE|]. split; [exact (child_name dir file p _ Ns no_slash_txt C)|reflexivity].
Qed.
Lemma getFile_ends : forall dir file, (exists q, getFileT fs dir file = Got q) \/ exists w, getFileT fs dir file = Says DomainError w.
Proof.
  intros dir file. unfold getFileT. cbv zeta. destruct (negb (isDirectory fs dir)); [right; eexists; reflexivity|].
  set (f := if negb (isRegular fs (joinPath dir file)) && negb (hasExtension file) then _ else _).
  destruct (negb (isThere fs f)); [right; eexists; reflexivity|]. destruct (negb (isRegular fs f)); [right; eexists; reflexivity|left; eexists; reflexivity].
Qed.
Variable reg : bytes -> registry.
Variables (dir file : bytes) (names : list bytes).
Hypothesis Hreg : known (reg file).
Hypothesis Nf : file <> [].
Hypothesis Ns : no_slash file.
Hypothesis Hne : names <> [].
Hypothesis Hnd : NoDup names.
(** the columns *)
Lemma columns_known : forall cols reg2, newColumns (reg file) names = (cols, reg2) ->
  map cname cols = names /\ exists history created, newColumns [] history = (created, reg2) /\ incl cols created.
Proof.
  intros cols reg2 E2. destruct Hreg as (history & R). rewrite R in E2. destruct (newColumns [] history) as [created0 reg0] eqn:E0. cbn [snd] in E2.
  destruct (newColumns_spec _ _ _ _ E2) as [Hn _]. split; [exact Hn|]. exists (history ++ names), (created0 ++ cols).
  split; [rewrite newColumns_app, E0, E2; reflexivity|]. intros x Hx; apply in_or_app; auto.
Qed.
(** the header is that of the table *)
Lemma header_opens : forall cols reg2 name c hl lines headers, newColumns (reg file) names = (cols, reg2) -> cut 10 c (hl :: lines) -> header_of names hl headers ->
  exists f, openFileE reg2 name (Contents c) cols 9 = Got f /\ at_row headers cols f /\ ColumnFileModel.file f = lines /\ currentRow f = 0.
Proof.
  intros cols reg2 name c hl lines headers E C [H1 H2]. destruct (columns_known cols reg2 E) as [Hn (history & created & Hh & Hi)].
  assert (O : exists f, openFile reg2 c cols 9 = Val f).
  { pose proof (lines_free c) as Fr. apply cut_getlines in C. rewrite <- C in Fr.
    assert (OE : openFile reg2 c cols 9 = openFile reg2 (unlines (hl :: lines)) cols 9).
    { unfold openFile. rewrite getlines_unlines by exact Fr. rewrite <- C. reflexivity. }
    rewrite OE. destruct (fields_exist 9 hl) as [fl Ff]. destruct (open_iff _ _ _ cols 9 hl lines fl Hh Hi Fr Ff) as [Yes _].
    assert (Ch : cut 9 hl (strip_trailing_empty fl)) by (exists fl; auto). apply cut_getlines in Ch, H1. rewrite Ch, <- H1 in Yes.
    destruct Yes as (f & Ef & _); [|eauto]. split; [intros ->; cbn in Hn; congruence|]. rewrite Hn. auto. }
  destruct O as [f O]. destruct (opened_rows _ _ _ _ _ _ Hreg Hne Hnd E O) as (hl' & headers' & C' & [H1' H2'] & At & Cr & _).
  apply cut_getlines in C, C'. rewrite <- C in C'. injection C' as -> Cf. apply cut_getlines in H1, H1'. rewrite <- H1' in H1. subst headers'.
  rewrite <- (open_plain reg2 name) in O. destruct (openFileE reg2 name (Contents c) cols 9) as [f'|e w| |]; cbn [plain] in O; try discriminate O. injection O as ->.
  exists f. auto.
Qed.
Lemma table_got : forall a b, Inv a -> table_loads fs writable step dir file names a b ->
  tableLoadT body fs writable reg dir file names a = Got b /\ Inv b.
Proof.
  intros a b Ia (q & name & c & hl & lines & headers & F & W & C & H & R). pose proof (Hfs _ _ (proj1 (proj2 F))) as Bc.
  apply found_at_got in F; try assumption. destruct F as (G & -> & F). apply file_contents in F. destruct F as [_ F].
  unfold tableLoadT. rewrite G. cbn [rbind]. cbv zeta. destruct (newColumns (reg file) names) as [cols reg2] eqn:E. rewrite W, F.
  destruct (header_opens cols reg2 (fileName q) c hl lines headers E C H) as (f & -> & At & Ef & Cr). cbn [rbind].
  assert (Bl : Forall bytes_ok lines).
  { apply cut_getlines in C. assert (X : Forall bytes_ok (hl :: lines)) by (rewrite C; apply getlines_generic_ok; [exact Bc|constructor]). inversion X; assumption. }
  destruct (columns_known cols reg2 E) as [Hn _].
  destruct (ran_read (fileName q) names headers cols Hn (proj2 H) Hne Hnd 1 lines a b R Ia Bl (List.length (ColumnFileModel.file f)) f []) as (g & X & Ag & Eg & _ & Ib);
    [exact At|rewrite app_nil_r; exact Ef|rewrite Cr; reflexivity|rewrite Ef; lia|].
  rewrite X. split; [|exact Ib]. unfold rowsLoopT. assert (Y : nextRowE (fileName q) g = Got (false, g)) by (unfold nextRowE; rewrite Eg; reflexivity).
  destruct (_ - _)%nat; rewrite Y; reflexivity.
Qed.
Lemma table_fault : forall a e w, Inv a -> table_says fs writable step wrong dir file names a e w ->
  tableLoadT body fs writable reg dir file names a = Says e w.
Proof.
  intros a e w Ia X. unfold tableLoadT. destruct X as [w X|q name c F W|q name c r F W X|q name c hl before line rest headers b r F W C H R X|q name c hl before line rest headers b row e w F W C H R Lr X].
  - apply getFile_says in X; try assumption. rewrite X. reflexivity.
  - apply found_at_got in F; try assumption. destruct F as (G & -> & F). rewrite G. cbn [rbind]. cbv zeta. destruct (newColumns (reg file) names) as [cols reg2] eqn:E.
    destruct (columns_known cols reg2 E) as [Hn (history & created & Hh & Hi)]. rewrite W.
    rewrite (wrong_says history created reg2 cols 9 (fileName q) Hh Hi (Contents []) (b_ "missing header row")); [reflexivity|]. rewrite Hn. apply hw_empty. exact Hne.
  - apply found_at_got in F; try assumption. destruct F as (G & -> & F). apply file_contents in F. destruct F as [_ F]. rewrite G. cbn [rbind]. cbv zeta.
    destruct (newColumns (reg file) names) as [cols reg2] eqn:E.
    destruct (columns_known cols reg2 E) as [Hn (history & created & Hh & Hi)]. rewrite W, F.
    rewrite (wrong_says history created reg2 cols 9 (fileName q) Hh Hi (Contents c) r); [reflexivity|]. rewrite Hn. exact X.
  - pose proof (Hfs _ _ (proj1 (proj2 F))) as Bc. apply found_at_got in F; try assumption. destruct F as (G & -> & F). apply file_contents in F. destruct F as [_ F].
    rewrite G. cbn [rbind]. cbv zeta. destruct (newColumns (reg file) names) as [cols reg2] eqn:E. rewrite W, F.
    destruct (header_opens cols reg2 (fileName q) c hl _ headers E C H) as (f & -> & At & Ef & Cr). cbn [rbind].
    assert (Bl : Forall bytes_ok before).
    { apply cut_getlines in C. assert (Y : Forall bytes_ok (hl :: before ++ line :: rest)) by (rewrite C; apply getlines_generic_ok; [exact Bc|constructor]).
      inversion Y as [|? ? _ Y2]; subst. apply Forall_app in Y2. apply Y2. }
    destruct (columns_known cols reg2 E) as [Hn _].
    destruct (ran_read (fileName q) names headers cols Hn (proj2 H) Hne Hnd 1 before a b R Ia Bl (List.length (ColumnFileModel.file f)) f (line :: rest)) as (g & Y & Ag & Eg & Cg & Ib);
      [exact At|exact Ef|rewrite Cr; reflexivity|rewrite Ef, app_length; lia|].
    rewrite Y. pose proof (line_wrong (fileName q) names headers cols Hn (proj2 H) Hne Hnd g line rest r Ag Eg X) as Z.
    replace (1 + len before) with (currentRow g + 1) by lia. destruct (_ - _)%nat; cbn [rowsLoopT]; rewrite Z; reflexivity.
  - pose proof (Hfs _ _ (proj1 (proj2 F))) as Bc. apply found_at_got in F; try assumption. destruct F as (G & -> & F). apply file_contents in F. destruct F as [_ F].
    rewrite G. cbn [rbind]. cbv zeta. destruct (newColumns (reg file) names) as [cols reg2] eqn:E. rewrite W, F.
    destruct (header_opens cols reg2 (fileName q) c hl _ headers E C H) as (f & -> & At & Ef & Cr). cbn [rbind].
    assert (Bl : Forall bytes_ok before /\ bytes_ok line).
    { apply cut_getlines in C. assert (Y : Forall bytes_ok (hl :: before ++ line :: rest)) by (rewrite C; apply getlines_generic_ok; [exact Bc|constructor]).
      inversion Y as [|? ? _ Y2]; subst. apply Forall_app in Y2. destruct Y2 as [Y2 Y3]. inversion Y3; auto. }
    destruct Bl as [Bl B1]. destruct (columns_known cols reg2 E) as [Hn _].
    destruct (ran_read (fileName q) names headers cols Hn (proj2 H) Hne Hnd 1 before a b R Ia Bl (List.length (ColumnFileModel.file f)) f (line :: rest)) as (g & Y & Ag & Eg & Cg & Ib);
      [exact At|exact Ef|rewrite Cr; reflexivity|rewrite Ef, app_length; lia|].
    rewrite Y. destruct (line_read (fileName q) names headers cols Hn (proj2 H) Hne Hnd g line rest row Ag Eg Lr) as (h & Z & Ah & Eh & Ch & Fh).
    replace (List.length (ColumnFileModel.file f) - List.length before)%nat with (S (List.length rest)) by (rewrite Ef, app_length; cbn [List.length]; lia).
    cbn [rowsLoopT]. rewrite Z. cbn [rbind]. rewrite Fh. cbn [rbind]. replace (currentRow h) with (1 + len before) by lia.
    assert (K1 : 1 + len before <> 0) by lia. rewrite (Hwrong _ _ _ _ _ _ K1 Ib (line_row_ok _ _ _ _ B1 Lr) X). reflexivity.
Qed.
Lemma table_total : forall a, Inv a ->
  (exists b, table_loads fs writable step dir file names a b) \/ exists e w, table_says fs writable step wrong dir file names a e w.
Proof.
  intros a Ia. destruct (getFile_ends dir file) as [[q G]|[w G]].
  2:{ right. exists DomainError, w. apply ts_file. apply getFile_says; assumption. }
  assert (F : exists c, is_file fs q c).
  { pose proof G as G'. apply getFile_got in G'; try assumption. destruct G' as (p & c & _ & _ & [[-> F]|(_ & _ & -> & F)]); eauto. }
  destruct F as [c F]. assert (Fa : found_at fs dir file q (fileName q) c) by (apply found_at_got; auto).
  destruct (writable q) eqn:W.
  2:{ right. do 2 eexists. exact (ts_locked _ _ _ _ _ _ _ _ q (fileName q) c Fa W). }
  pose proof (Hfs _ _ F) as Bc. destruct (newColumns (reg file) names) as [cols reg2] eqn:E.
  destruct (columns_known cols reg2 E) as [Hn (history & created & Hh & Hi)].
  destruct (openFileE reg2 (fileName q) (Contents c) cols 9) as [f|e w| |] eqn:O.
  - assert (O' : openFile reg2 c cols 9 = Val f) by (rewrite <- (open_plain reg2 (fileName q)), O; reflexivity).
    destruct (opened_rows _ _ _ _ _ _ Hreg Hne Hnd E O') as (hl & headers & C & H & At & Cr & _).
    assert (Bl : Forall bytes_ok (ColumnFileModel.file f)).
    { pose proof C as C'. apply cut_getlines in C'. assert (X : Forall bytes_ok (hl :: ColumnFileModel.file f)) by (rewrite C'; apply getlines_generic_ok; [exact Bc|constructor]). inversion X; assumption. }
    destruct (ran_total (fileName q) names headers cols Hn (proj2 H) Hne Hnd _ 1 a ltac:(lia) Ia Bl (ex_intro _ f (conj At eq_refl))) as [[b R]|(before & line & rest & b & Ef & R & X)].
    + left. exists b. exists q, (fileName q), c, hl, (ColumnFileModel.file f), headers. auto.
    + right. rewrite Ef in C. destruct X as [[r X]|(row & e & w & Lr & X)]; do 2 eexists.
      * exact (ts_line _ _ _ _ _ _ _ _ q (fileName q) c hl before line rest headers b r Fa W C H R X).
      * exact (ts_row _ _ _ _ _ _ _ _ q (fileName q) c hl before line rest headers b row e w Fa W C H R Lr X).
  - right. destruct (says_wrong history created reg2 cols 9 (fileName q) Hh Hi _ _ _ O) as (_ & r & X & _). rewrite Hn in X. do 2 eexists.
    exact (ts_header _ _ _ _ _ _ _ _ q (fileName q) c r Fa W X).
  - exfalso. pose proof (open_plain reg2 (fileName q) c cols 9) as P. rewrite O in P. cbn [plain] in P.
    destruct (table_cases (reg file) names c Hreg Hne Hnd) as [(rows & T & _)|[(rows & T & _)|(T & _)]]; unfold tableRows in T; rewrite E, <- P in T; discriminate T.
  - exfalso. pose proof (open_plain reg2 (fileName q) c cols 9) as P. rewrite O in P. cbn [plain] in P.
    destruct (table_cases (reg file) names c Hreg Hne Hnd) as [(rows & T & _)|[(rows & T & _)|(T & _)]]; unfold tableRows in T; rewrite E, <- P in T; discriminate T.
Qed.
Theorem table_exact : forall a, Inv a ->
  (forall b, tableLoadT body fs writable reg dir file names a = Got b <-> table_loads fs writable step dir file names a b)
  /\ (forall e w, tableLoadT body fs writable reg dir file names a = Says e w <-> table_says fs writable step wrong dir file names a e w)
  /\ ((exists b, tableLoadT body fs writable reg dir file names a = Got b) \/ exists e w, tableLoadT body fs writable reg dir file names a = Says e w).
Proof.
  intros a Ia. split; [|split].
  - intro b. split; [|intro H; apply table_got; assumption]. intro H. destruct (table_total a Ia) as [[b' X]|(e & w & X)].
    + pose proof (proj1 (table_got a b' Ia X)) as Y. rewrite Y in H. injection H as <-. exact X.
    + pose proof (table_fault a e w Ia X) as Y. rewrite Y in H. discriminate H.
  - intros e w. split; [|intro H; apply table_fault; assumption]. intro H. destruct (table_total a Ia) as [[b' X]|(e' & w' & X)].
    + pose proof (proj1 (table_got a b' Ia X)) as Y. rewrite Y in H. discriminate H.
    + pose proof (table_fault a e' w' Ia X) as Y. rewrite Y in H. injection H as <- <-. exact X.
  - destruct (table_total a Ia) as [[b' X]|(e' & w' & X)]; [left|right].
    + exists b'. apply table_got; assumption.
    + exists e', w'. apply table_fault; assumption.
Qed.
End Fs.
End Loop.

(** ** another view of what was read *)
Section View.
Context {A B : Type}.
Variable step1 : bytes -> N -> list bytes -> A -> A -> Prop.
Variable wrong1 : bytes -> N -> list bytes -> A -> exn -> bytes -> Prop.
Variable step2 : bytes -> N -> list bytes -> B -> B -> Prop.
Variable wrong2 : bytes -> N -> list bytes -> B -> exn -> bytes -> Prop.
Variable names : list bytes.
Variable R : A -> B -> Prop.
Hypothesis Hs : forall headers line name k row a a' b, line_row headers names line row -> step1 name k row a a' -> R a b -> exists b', step2 name k row b b' /\ R a' b'.
Hypothesis Hw : forall headers line name k row a b e w, line_row headers names line row -> wrong1 name k row a e w -> R a b -> wrong2 name k row b e w.
Lemma ran_view : forall name headers k lines a a', ran step1 name headers names k lines a a' -> forall b, R a b -> exists b', ran step2 name headers names k lines b b' /\ R a' b'.
Proof.
  intros name headers k lines a a' H. induction H as [k a|k line row lines a a1 a2 Lr St H IH]; intros b Rb; [exists b; split; [constructor|exact Rb]|].
  destruct (Hs _ _ _ _ _ _ _ _ Lr St Rb) as (b1 & St1 & R1). destruct (IH b1 R1) as (b2 & H2 & R2). exists b2. split; [econstructor; eassumption|exact R2].
Qed.
Lemma loads_view : forall fs writable dir file a a' b, table_loads fs writable step1 dir file names a a' -> R a b ->
  exists b', table_loads fs writable step2 dir file names b b' /\ R a' b'.
Proof.
  intros fs writable dir file a a' b (q & name & c & hl & lines & headers & F & W & C & H & X) Rb. destruct (ran_view _ _ _ _ _ _ X b Rb) as (b' & Y & R').
  exists b'. split; [|exact R']. exists q, name, c, hl, lines, headers. auto.
Qed.
Lemma says_view : forall fs writable dir file a b e w, table_says fs writable step1 wrong1 dir file names a e w -> R a b -> table_says fs writable step2 wrong2 dir file names b e w.
Proof.
  intros fs writable dir file a b e w X Rb. destruct X as [w X|q name c F W|q name c r F W X|q name c hl before line rest headers a' r F W C H X Y|q name c hl before line rest headers a' row e w F W C H X Lr Y].
  - apply ts_file. exact X.
  - exact (ts_locked _ _ _ _ _ _ _ _ q name c F W).
  - exact (ts_header _ _ _ _ _ _ _ _ q name c r F W X).
  - destruct (ran_view _ _ _ _ _ _ X b Rb) as (b' & X' & R'). exact (ts_line _ _ _ _ _ _ _ _ q name c hl before line rest headers b' r F W C H X' Y).
  - destruct (ran_view _ _ _ _ _ _ X b Rb) as (b' & X' & R'). exact (ts_row _ _ _ _ _ _ _ _ q name c hl before line rest headers b' row e w F W C H X' Lr (Hw _ _ _ _ _ _ _ _ _ Lr Y R')).
Qed.
End View.

(** ** the rows of a file of bytes *)
Lemma rows_bytes : forall fs writable reg dir file names rows ended, (forall p c, is_file fs p c -> bytes_ok c) -> known (reg file) -> names <> [] -> NoDup names ->
  fileRows fs writable reg dir file names = Val (rows, ended) -> Forall (Forall bytes_ok) rows.
Proof.
  intros fs writable reg dir file names rows ended Hfs Kn Ne Nd H. unfold fileRows in H. destruct (getFile fs dir file) as [p|e| |]; cbn [obind] in H; try discriminate H.
  destruct (writable p); [|discriminate H]. unfold tableRows in H. destruct (newColumns (reg file) names) as [cols reg2] eqn:E.
  destruct (openFile reg2 (contentsOf fs p) cols 9) as [f|e| |] eqn:O; cbn [obind] in H; try discriminate H.
  destruct (opened_rows _ _ _ _ _ _ Kn Ne Nd E O) as (hl & headers & C & [_ Hp] & At & _ & Hn).
  assert (Bc : bytes_ok (contentsOf fs p)).
  { unfold contentsOf. destruct (look fs p) as [n|] eqn:Lk; [|constructor]. destruct n as [l|c| |]; try apply Forall_nil. apply (Hfs p). unfold is_file. apply look_at. exact Lk. }
  assert (Bl : Forall bytes_ok (ColumnFileModel.file f)).
  { apply cut_getlines in C. assert (X : Forall bytes_ok (hl :: ColumnFileModel.file f)) by (rewrite C; apply getlines_generic_ok; [exact Bc|constructor]). exact (Forall_inv_tail X). }
  assert (Fw : forall lines rs, Forall bytes_ok lines -> Forall2 (line_row headers names) lines rs -> Forall (Forall bytes_ok) rs).
  { intros lines rs B F. induction F as [|x y lines rs Lr F IH]; [constructor|]. constructor; [exact (line_row_ok _ _ _ _ (Forall_inv B) Lr)|exact (IH (Forall_inv_tail B))]. }
  destruct (rows_loop names headers cols Hn Hp Ne Nd _ _ f At eq_refl (le_n _)) as [(rs & X & F)|(good & bad & rest & rs & X & El & F & _)]; rewrite X in H; injection H as <- <-.
  - exact (Fw _ _ Bl F).
  - rewrite El in Bl. apply Forall_app in Bl. exact (Fw _ _ (proj1 Bl) F).
Qed.

(** ** what is also known about the rows of a file of bytes *)
Section Known.
Context {A : Type}.
Variable step : bytes -> N -> list bytes -> A -> A -> Prop.
Variable wrong : bytes -> N -> list bytes -> A -> exn -> bytes -> Prop.
Variable names : list bytes.
Definition known_row (k : N) (row : list bytes) : Prop := k <> 0 /\ Forall bytes_ok row /\ exists headers line, line_row headers names line row.
Definition step_known (name : bytes) (k : N) (row : list bytes) (a b : A) : Prop := known_row k row /\ step name k row a b.
Definition wrong_known (name : bytes) (k : N) (row : list bytes) (a : A) (e : exn) (w : bytes) : Prop := known_row k row /\ wrong name k row a e w.
Lemma ran_known : forall name headers k lines a b, k <> 0 -> Forall bytes_ok lines -> ran step name headers names k lines a b -> ran step_known name headers names k lines a b.
Proof.
  intros name headers k lines a b K B H. induction H as [k a|k line row lines a a1 a2 Lr St H IH]; [constructor|].
  econstructor; [exact Lr| |apply IH; [lia|exact (Forall_inv_tail B)]]. split; [|exact St]. split; [exact K|]. split; [exact (line_row_ok _ _ _ _ (Forall_inv B) Lr)|eauto].
Qed.
Variable fs : bytes -> option CountModel.node.
Variable writable : bytes -> bool.
Hypothesis Hfs : forall p c, is_file fs p c -> bytes_ok c.
Lemma lines_bytes : forall dir file q name c hl lines, found_at fs dir file q name c -> cut 10 c (hl :: lines) -> Forall bytes_ok lines.
Proof.
  intros dir file q name c hl lines (_ & F & _) C. apply Hfs in F. apply cut_getlines in C.
  assert (X : Forall bytes_ok (hl :: lines)) by (rewrite C; apply getlines_generic_ok; [exact F|constructor]). exact (Forall_inv_tail X).
Qed.
Lemma loads_known : forall dir file a b, table_loads fs writable step dir file names a b -> table_loads fs writable step_known dir file names a b.
Proof.
  intros dir file a b (q & name & c & hl & lines & headers & F & W & C & H & X). exists q, name, c, hl, lines, headers.
  split; [exact F|]. split; [exact W|]. split; [exact C|]. split; [exact H|]. apply ran_known; [lia|exact (lines_bytes _ _ _ _ _ _ _ F C)|exact X].
Qed.
Lemma says_known : forall dir file a e w, table_says fs writable step wrong dir file names a e w -> table_says fs writable step_known wrong_known dir file names a e w.
Proof.
  intros dir file a e w X. destruct X as [w X|q name c F W|q name c r F W X|q name c hl before line rest headers a' r F W C H X Y|q name c hl before line rest headers a' row e w F W C H X Lr Y].
  - apply ts_file. exact X.
  - exact (ts_locked _ _ _ _ _ _ _ _ q name c F W).
  - exact (ts_header _ _ _ _ _ _ _ _ q name c r F W X).
  - pose proof (lines_bytes _ _ _ _ _ _ _ F C) as B. apply Forall_app in B. destruct B as [B _]. assert (K1 : 1 <> 0) by lia.
    exact (ts_line _ _ _ _ _ _ _ _ q name c hl before line rest headers a' r F W C H (ran_known _ _ _ _ _ _ K1 B X) Y).
  - pose proof (lines_bytes _ _ _ _ _ _ _ F C) as B. apply Forall_app in B. destruct B as [B B2]. assert (K1 : 1 <> 0) by lia. assert (K2 : 1 + len before <> 0) by lia.
    refine (ts_row _ _ _ _ _ _ _ _ q name c hl before line rest headers a' row e w F W C H (ran_known _ _ _ _ _ _ K1 B X) Lr _).
    split; [|exact Y]. split; [exact K2|]. split; [exact (line_row_ok _ _ _ _ (Forall_inv B2) Lr)|eauto].
Qed.
End Known.

(** ** a table, seen in terms of something else than what the loop keeps *)
Section Exact.
Context {A B : Type}.
Variable body : bytes -> N -> list bytes -> A -> res A.
Variable R : A -> B -> Prop.
Variable step : bytes -> N -> list bytes -> B -> B -> Prop.
Variable wrong : bytes -> N -> list bytes -> B -> exn -> bytes -> Prop.
Variable names : list bytes.
Variable Inv : A -> Prop.
Hypothesis Hkeep : forall name k row a a', k <> 0 -> Forall bytes_ok row -> Inv a -> body name k row a = Got a' -> Inv a'.
Hypothesis Hends : forall name k row a, k <> 0 -> Forall bytes_ok row -> Inv a -> (exists a', body name k row a = Got a') \/ exists e w, body name k row a = Says e w.
Hypothesis Hgot : forall name k row a b a', known_row names k row -> R a b -> body name k row a = Got a' -> exists b', step name k row b b' /\ R a' b'.
Hypothesis Hstep : forall name k row a b b', known_row names k row -> R a b -> step name k row b b' -> exists a', body name k row a = Got a' /\ R a' b'.
Hypothesis Hsays : forall name k row a b e w, known_row names k row -> R a b -> (body name k row a = Says e w <-> wrong name k row b e w).
Variable fs : bytes -> option CountModel.node.
Variable writable : bytes -> bool.
Hypothesis Hfs : forall p c, is_file fs p c -> bytes_ok c.
Variable reg : bytes -> registry.
Variables (dir file : bytes).
Hypothesis Hreg : known (reg file).
Hypothesis Nf : file <> [].
Hypothesis Ns : no_slash file.
Hypothesis Hne : names <> [].
Hypothesis Hnd : NoDup names.
Let load := tableLoadT body fs writable reg dir file names.
Theorem table_view : forall a b, Inv a -> R a b ->
  (forall a', load a = Got a' -> exists b', table_loads fs writable step dir file names b b' /\ R a' b')
  /\ (forall b', table_loads fs writable step dir file names b b' -> exists a', load a = Got a' /\ R a' b')
  /\ (forall e w, load a = Says e w <-> table_says fs writable step wrong dir file names b e w)
  /\ ((exists a', load a = Got a') \/ exists e w, load a = Says e w).
Proof.
  intros a b Ia Rab. set (step1 := fun name k row (x y : A) => body name k row x = Got y). set (wrong1 := fun name k row (x : A) e w => body name k row x = Says e w).
  destruct (table_exact body Inv step1 wrong1) with (fs := fs) (writable := writable) (reg := reg) (dir := dir) (file := file) (names := names) (a := a) as (X1 & X2 & X3); try assumption.
  { intros name k row x K J Bo. exact (Hends name k row x K Bo J). }
  { intros name k row x y K J Bo H. split; [exact H|exact (Hkeep name k row x y K Bo J H)]. }
  { intros name k row x e w K J Bo H. exact H. }
  assert (V1 : forall headers line name k row x y z, line_row headers names line row -> step_known step1 names name k row x y -> R x z -> exists z', step name k row z z' /\ R y z').
  { intros headers line name k row x y z _ [Kn H] Rz. exact (Hgot name k row x z y Kn Rz H). }
  assert (V2 : forall headers line name k row z z' x, line_row headers names line row -> step_known step names name k row z z' -> R x z -> exists y, step1 name k row x y /\ R y z').
  { intros headers line name k row z z' x _ [Kn H] Rz. exact (Hstep name k row x z z' Kn Rz H). }
  assert (U1 : forall headers line name k row x z e w, line_row headers names line row -> wrong_known wrong1 names name k row x e w -> R x z -> wrong name k row z e w).
  { intros headers line name k row x z e w _ [Kn H] Rz. apply (Hsays name k row x z e w Kn Rz). exact H. }
  assert (U2 : forall headers line name k row z x e w, line_row headers names line row -> wrong_known wrong names name k row z e w -> R x z -> wrong1 name k row x e w).
  { intros headers line name k row z x e w _ [Kn H] Rz. apply (Hsays name k row x z e w Kn Rz). exact H. }
  split; [|split; [|split; [|exact X3]]].
  - intros a' H. apply X1 in H. apply (loads_known _ wrong1 _ _ _ Hfs) in H. exact (loads_view _ _ _ R V1 _ _ _ _ _ _ b H Rab).
  - intros b' H. apply (loads_known _ wrong _ _ _ Hfs) in H. destruct (loads_view _ _ _ (fun z x => R x z) V2 _ _ _ _ _ _ a H Rab) as (a' & Y & Ra). exists a'. split; [apply X1; exact Y|exact Ra].
  - intros e w. unfold load; rewrite X2. split; intro H; apply (says_known _ _ _ _ _ Hfs) in H.
    + exact (says_view _ _ _ _ _ R V1 U1 _ _ _ _ _ b _ _ H Rab).
    + exact (says_view _ _ _ _ _ (fun z x => R x z) V2 U2 _ _ _ _ _ a _ _ H Rab).
Qed.
End Exact.
