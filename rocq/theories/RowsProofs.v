(** Lemmas about tables. *)
From Verif Require Import BaseFacts ColumnFileProofs ColumnFileLemmas ListProofs RowsModel RowsSpec.
Open Scope N_scope.

Lemma lines_free : forall s, free_of 10 (getlines 10 s).
Proof.
  intros s. assert (C : cut 10 s (getlines 10 s)) by (apply cut_getlines; reflexivity).
  destruct C as (fs & (_ & F & _) & ->). unfold free_of in *.
  induction fs as [|x fs IH]; [constructor|]. inversion F; subst. cbn [strip_trailing_empty].
  destruct fs; [destruct x; constructor; auto|]. constructor; auto.
Qed.
Lemma newColumns_app : forall a b reg, newColumns reg (a ++ b) =
  let '(cs, r) := newColumns reg a in let '(ds, r2) := newColumns r b in (cs ++ ds, r2).
Proof.
  induction a as [|n a IH]; intros b reg; cbn [app newColumns].
  - destruct (newColumns reg b); reflexivity.
  - destruct (newColumn reg n) as [c r1]. rewrite IH. destruct (newColumns r1 a) as [cs r2]. destruct (newColumns r2 b); reflexivity.
Qed.

Lemma cut_at : forall d a b (s t : bytes), ~ In d a -> ~ In d b -> a ++ d :: s = b ++ d :: t -> a = b /\ s = t.
Proof.
  intros d. induction a as [|u a IH]; intros b s t Ha Hb E.
  - destruct b as [|w b]; [inversion E; auto|]. inversion E; subst. exfalso. apply Hb. left. reflexivity.
  - destruct b as [|w b]; [inversion E; subst; exfalso; apply Ha; left; reflexivity|].
    inversion E; subst. destruct (IH b s t) as [-> ->]; auto; intro; [apply Ha|apply Hb]; right; assumption.
Qed.
Lemma fields_fun : forall d line fs gs, has_fields d line fs -> has_fields d line gs -> fs = gs.
Proof.
  intros d line fs gs (N1 & A & E1) (N2 & B & E2). rewrite E1 in E2. clear E1 line. revert gs N2 B E2.
  induction fs as [|x fs IH]; intros gs N2 B E; [congruence|].
  destruct gs as [|y gs]; [congruence|]. inversion A as [|? ? A1 A2]; subst. inversion B as [|? ? B1 B2]; subst.
  destruct fs as [|x2 fs], gs as [|y2 gs].
  - cbn [join] in E. congruence.
  - rewrite (join_cons d y y2 gs) in E. cbn [join] in E. exfalso. apply A1. rewrite E. apply in_or_app. right. left. reflexivity.
  - rewrite (join_cons d x x2 fs) in E. cbn [join] in E. exfalso. apply B1. rewrite <- E. apply in_or_app. right. left. reflexivity.
  - rewrite !join_cons in E. apply cut_at in E; auto. destruct E as [-> E]. f_equal. apply IH; auto; discriminate.
Qed.

Lemma in_split_t : forall (x : bytes) l, In x l -> {l1 : list bytes & {l2 : list bytes | l = l1 ++ x :: l2}}.
Proof.
  intros x. induction l as [|y l IH]; intros H; [destruct H|].
  destruct (bytes_eq_dec y x) as [->|Ne]; [exists [], l; reflexivity|].
  destruct IH as (l1 & l2 & E); [destruct H; congruence|]. exists (y :: l1), l2. subst l. reflexivity.
Qed.
Lemma perm_dec : forall a b : list bytes, {Permutation a b} + {~ Permutation a b}.
Proof.
  induction a as [|x a IH]; intros b.
  - destruct b; [left; constructor|right]. intros H. apply Permutation_nil in H. discriminate.
  - destruct (in_dec bytes_eq_dec x b) as [I|I].
    + destruct (in_split_t x b I) as (l1 & l2 & E). destruct (IH (l1 ++ l2)) as [Y|Nn].
      * left. subst b. apply Permutation_cons_app. exact Y.
      * right. intros H. apply Nn. subst b. apply Permutation_cons_app_inv in H. exact H.
    + right. intros H. apply I. eapply Permutation_in; [exact H|left; reflexivity].
Qed.

Section Table.
  Variables (names : list bytes) (headers : list bytes) (cols : list Column).
  Hypothesis Hn : map cname cols = names.
  Hypothesis Hp : Permutation headers names.
  Hypothesis Hne : names <> [].
  Hypothesis Hnd : NoDup names.

  (** the file at some row *)
  Definition at_row (f : ColumnFile) : Prop :=
    delimiter f = 9 /\ List.length (rowValues f) = List.length headers
    /\ (forall c k, In c cols -> nth_error headers k = Some (cname c) -> nth_error (columnToPosition f) (cnumber c) = Some (Some k)).

  Lemma fields_row : forall f, at_row f -> currentRow f <> 0 ->
    exists row, fieldsOf f cols = Val row
      /\ Forall2 (fun name v => exists p, nth_error headers p = Some name /\ nth_error (rowValues f) p = Some v) names row.
  Proof.
    intros f (_ & L & G) C. subst names.
    assert (Q : forall cs, incl cs cols -> exists row, fieldsOf f cs = Val row
      /\ Forall2 (fun name v => exists p, nth_error headers p = Some name /\ nth_error (rowValues f) p = Some v) (map cname cs) row).
    { induction cs as [|c cs IH]; intros I; cbn [fieldsOf map].
      - exists []. split; [reflexivity|constructor].
      - assert (Ic : In c cols) by (apply I; left; reflexivity).
        assert (Ih : In (cname c) headers).
        { eapply Permutation_in; [apply Permutation_sym; exact Hp|]. apply in_map. exact Ic. }
        destruct (In_nth_error _ _ Ih) as [p Ep].
        destruct (IH (fun x Hx => I x (or_intror Hx))) as (row & E & F).
        assert (V : exists v, nth_error (rowValues f) p = Some v).
        { destruct (nth_error (rowValues f) p) eqn:Ev; [eauto|]. apply nth_error_None in Ev.
          assert (p < List.length headers)%nat by (apply nth_error_Some; congruence). lia. }
        destruct V as [v Ev]. exists (v :: row). split.
        + unfold getField. replace (currentRow f =? 0) with false by lia. rewrite (G c p Ic Ep), Ev. cbn [obind].
          rewrite E. reflexivity.
        + constructor; [exists p; auto|exact F]. }
    apply Q. intros x; auto.
  Qed.

  Lemma headers_pos : (1 <= List.length headers)%nat.
  Proof. rewrite (Permutation_length Hp). destruct names; [congruence|cbn; lia]. Qed.

  (** values are determined by names *)
  Lemma values_fun : forall vals r1 r2 : list bytes,
    Forall2 (fun name v => exists p, nth_error headers p = Some name /\ nth_error vals p = Some v) names r1 ->
    Forall2 (fun name v => exists p, nth_error headers p = Some name /\ nth_error vals p = Some v) names r2 -> r1 = r2.
  Proof.
    assert (NDh : NoDup headers) by (eapply Permutation_NoDup; [apply Permutation_sym; exact Hp|exact Hnd]).
    intros vals r1 r2 F. clear Hn Hp Hne Hnd. revert r2. induction F as [|n v ns r1 (p & A & B) F IH]; intros r2 F2; inversion F2 as [|? v2 ? r2' (q & C & D) F3]; subst.
    - reflexivity.
    - assert (p = q).
      { rewrite NoDup_nth_error in NDh. apply NDh; [apply nth_error_Some; congruence|congruence]. }
      subst q. f_equal; [congruence|]. apply IH. exact F3.
  Qed.
  Lemma line_row_fun : forall line r1 r2, line_row headers names line r1 -> line_row headers names line r2 -> r1 = r2.
  Proof.
    intros line r1 r2 (f1 & v1 & F1 & D1 & L1 & G1) (f2 & v2 & F2 & D2 & L2 & G2).
    assert (f1 = f2) by (eapply fields_fun; eassumption).
    subst f2. assert (v1 = v2).
    { assert (L1' := f_equal (@List.length bytes)). destruct D1 as [D1|D1], D2 as [D2|D2]; rewrite D1 in D2.
      - exact D2.
      - apply L1' in D2. rewrite app_length in D2. cbn in D2. lia.
      - apply L1' in D2. rewrite app_length in D2. cbn in D2. lia.
      - apply app_inj_tail in D2. destruct D2; auto. }
    subst v2. eapply values_fun; eassumption.
  Qed.

  Lemma next_line : forall f line rest, at_row f -> file f = line :: rest ->
    (exists g row, nextRow f = Val (true, g) /\ at_row g /\ file g = rest /\ fieldsOf g cols = Val row /\ line_row headers names line row)
    \/ (nextRow f = Throw DomainError /\ ~ exists row, line_row headers names line row).
  Proof.
    intros f line rest (D & L & G) E. pose proof headers_pos as Hpos.
    destruct (fields_exist 9 line) as [fs F].
    assert (N1 : (1 <= List.length (rowValues f))%nat) by lia.
    pose proof (fun fs => nextRow_fields f line rest fs E N1) as NR. rewrite D in NR.
    specialize (NR fs F).
    assert (Good : forall vals, (fs = vals \/ fs = vals ++ [[]]) -> List.length vals = List.length headers ->
      nextRow f = Val (true, with_row f rest vals) ->
      exists g row, nextRow f = Val (true, g) /\ at_row g /\ file g = rest /\ fieldsOf g cols = Val row /\ line_row headers names line row).
    { intros vals Hv Lv Hnx. exists (with_row f rest vals).
      assert (A : at_row (with_row f rest vals)) by (split; [exact D|split; [exact Lv|exact G]]).
      destruct (fields_row _ A) as (row & R1 & R2); [cbn; lia|].
      exists row. repeat split; auto; try apply A. exists fs, vals. auto. }
    destruct (Nat.eqb_spec (List.length fs) (List.length (rowValues f))) as [El|Nl].
    { left. apply (Good fs); [auto|lia|exact NR]. }
    destruct (Nat.eqb_spec (List.length fs) (S (List.length (rowValues f)))) as [E2|N2]; cbn [andb] in NR.
    - destruct F as (Nf & F'). destruct (exists_last Nf) as (init & x & ->).
      rewrite last_last, removelast_last in NR. rewrite app_length in E2. cbn in E2.
      destruct x as [|b x].
      + left. apply (Good init); [auto|lia|exact NR].
      + right. split; [exact NR|]. intros (row & fs2 & vals & F2 & Dv & Lv & _).
        assert (fs2 = init ++ [b :: x]) by (eapply fields_fun; [exact F2|split; assumption]).
        subst fs2. destruct Dv as [<-|Dv].
        * rewrite app_length in Lv. cbn in Lv. lia.
        * apply app_inj_tail in Dv. destruct Dv; discriminate.
    - right. split; [exact NR|]. intros (row & fs2 & vals & F2 & Dv & Lv & _).
      assert (fs2 = fs) by (eapply fields_fun; eassumption).
      subst fs2. destruct Dv as [->| ->]; [|rewrite app_length in *; cbn in *]; lia.
  Qed.

  Lemma rows_loop : forall lines n f, at_row f -> file f = lines -> (List.length lines <= n)%nat ->
    (exists rows, rowsLoop n f cols = Val (rows, true) /\ Forall2 (line_row headers names) lines rows)
    \/ (exists good bad rest rows, rowsLoop n f cols = Val (rows, false) /\ lines = good ++ bad :: rest
         /\ Forall2 (line_row headers names) good rows /\ ~ exists row, line_row headers names bad row).
  Proof.
    induction lines as [|line lines IH]; intros n f A E Ln.
    - left. exists []. split; [|constructor]. assert (X : nextRow f = Val (false, f)) by (unfold nextRow; rewrite E; reflexivity).
      destruct n; cbn [rowsLoop]; rewrite X; reflexivity.
    - cbn [List.length] in Ln. destruct n as [|n]; [lia|].
      destruct (next_line f line lines A E) as [(g & row & X & Ag & Eg & R & LR)|(X & No)].
      + destruct (IH n g Ag Eg) as [(rows & Y & F)|(good & bad & rest & rows & Y & -> & F & No)]; [lia| |].
        * left. exists (row :: rows). cbn [rowsLoop]. rewrite X, R. cbn [obind]. rewrite Y. split; [reflexivity|constructor; assumption].
        * right. exists (line :: good), bad, rest, (row :: rows). cbn [rowsLoop]. rewrite X, R. cbn [obind]. rewrite Y.
          split; [reflexivity|]. split; [reflexivity|]. split; [constructor; assumption|exact No].
      + right. exists [], line, lines, []. cbn [rowsLoop]. rewrite X. repeat split; auto.
  Qed.
End Table.

Lemma table_cases : forall reg names contents, known reg -> names <> [] -> NoDup names ->
  (exists rows, tableRows reg names contents = Val (rows, true) /\ table names contents rows)
  \/ (exists rows, tableRows reg names contents = Val (rows, false) /\ broken_table names contents rows)
  \/ (tableRows reg names contents = Throw DomainError
      /\ ~ exists hl lines headers, cut 10 contents (hl :: lines) /\ header_of names hl headers).
Proof.
  intros reg names contents (history & ->) Hne Hnd. unfold tableRows.
  destruct (newColumns [] history) as [created0 reg] eqn:E0. cbn [snd].
  destruct (newColumns reg names) as [cols reg2] eqn:E2.
  assert (E : newColumns [] (history ++ names) = (created0 ++ cols, reg2)) by (rewrite newColumns_app, E0, E2; reflexivity).
  destruct (newColumns_spec _ _ _ _ E2) as [Hn _].
  assert (I : incl cols (created0 ++ cols)) by (intros x Hx; apply in_or_app; auto).
  destruct (getlines 10 contents) as [|hl lines] eqn:G.
  - right. right. assert (Cn : cols <> []) by (intros ->; cbn in Hn; congruence).
    split; [unfold openFile; destruct cols; [congruence|]; rewrite G; reflexivity|].
    intros (hl & lines & headers & C & _). apply cut_getlines in C. congruence.
  - pose proof (lines_free contents) as Fr. rewrite G in Fr.
    assert (OE : openFile reg2 contents cols 9 = openFile reg2 (unlines (hl :: lines)) cols 9).
    { unfold openFile. rewrite getlines_unlines by exact Fr. rewrite G. reflexivity. }
    rewrite OE. clear OE. assert (Cg : cut 10 contents (hl :: lines)) by (apply cut_getlines; auto).
    destruct (fields_exist 9 hl) as [fs Ff].
    destruct (open_iff _ _ _ cols 9 hl lines fs E I Fr Ff) as [Yes No].
    set (headers := strip_trailing_empty fs) in *.
    assert (Ch : cut 9 hl headers) by (exists fs; auto).
    assert (PD : {Permutation headers names} + {~ Permutation headers names}).
    { destruct (perm_dec headers names); auto. }
    destruct PD as [Hp|Hp].
    + destruct Yes as (f & Ef & O1 & O2 & O3 & O4 & O5 & O6 & _).
      { split; [intros ->; cbn in Hn; congruence|]. rewrite Hn. auto. }
      rewrite Ef. cbn [obind].
      destruct (rows_loop names headers cols Hn Hp Hne Hnd lines (List.length (file f)) f) as [(rows & X & F)|(good & bad & rest & rows & X & -> & F & B)].
      { split; [exact O2|]. split; [|exact O6].
        rewrite O4, repeat_length, (Permutation_length Hp), <- Hn, map_length. reflexivity. }
      { exact O1. }
      { rewrite O1. lia. }
      * left. exists rows. split; [exact X|]. exists hl, lines, headers. split; [exact Cg|]. split; [split; assumption|exact F].
      * right. left. exists rows. split; [exact X|]. exists hl, good, bad, rest, headers. split; [exact Cg|]. split; [split; assumption|auto].
    + right. right. rewrite No by (rewrite Hn; tauto). split; [reflexivity|].
      intros (hl2 & lines2 & headers2 & C2 & C3 & P). apply cut_getlines in C2. rewrite G in C2. inversion C2; subst hl2 lines2.
      apply cut_getlines in C3, Ch. apply Hp. congruence.
Qed.

Lemma forall2_line : forall headers names lines r1, Permutation headers names -> NoDup names ->
  Forall2 (line_row headers names) lines r1 -> forall r2, Forall2 (line_row headers names) lines r2 -> r1 = r2.
Proof.
  intros headers names lines r1 Hp Hnd F. induction F as [|l r ls rs A F IH]; intros r2 F2; inversion F2; subst; [reflexivity|].
  f_equal; [eapply line_row_fun; eassumption|auto].
Qed.
(** a table has one reading, and a broken one is not a table *)
Lemma table_fun : forall names contents r1 r2, NoDup names -> table names contents r1 -> table names contents r2 -> r1 = r2.
Proof.
  intros names contents r1 r2 Hnd (h1 & l1 & hs1 & C1 & (D1 & P1) & F1) (h2 & l2 & hs2 & C2 & (D2 & P2) & F2).
  apply cut_getlines in C1, C2. rewrite <- C1 in C2. inversion C2; subst h2 l2. apply cut_getlines in D1, D2. subst hs1 hs2.
  eapply forall2_line; eassumption.
Qed.
Lemma table_not_broken : forall names contents r1 r2, table names contents r1 -> broken_table names contents r2 -> False.
Proof.
  intros names contents r1 r2 (h1 & l1 & hs1 & C1 & (D1 & P1) & F1) (h2 & l2 & bad & rest & hs2 & C2 & (D2 & P2) & F2 & No).
  apply cut_getlines in C1, C2. rewrite <- C1 in C2. inversion C2; subst h2 l1. apply cut_getlines in D1, D2. subst hs1 hs2.
  apply No. apply Forall2_app_inv_l in F1. destruct F1 as (a & b & _ & F & _). inversion F; subst. eauto.
Qed.
Lemma broken_fun : forall names contents r1 r2, NoDup names -> broken_table names contents r1 -> broken_table names contents r2 -> r1 = r2.
Proof.
  intros names contents r1 r2 Hnd (h1 & l1 & b1 & t1 & hs1 & C1 & (D1 & P1) & F1 & N1) (h2 & l2 & b2 & t2 & hs2 & C2 & (D2 & P2) & F2 & N2).
  apply cut_getlines in C1, C2. rewrite <- C1 in C2. inversion C2 as [[Eh El]]; subst h2. apply cut_getlines in D1, D2. subst hs1 hs2.
  assert (l1 = l2).
  { clear - El F1 F2 N1 N2. revert l2 r2 F2 El. induction F1 as [|x r ls rs A F IH]; intros l2 r2 F2 El.
    - destruct F2; [reflexivity|]. inversion El; subst. exfalso. eauto.
    - destruct F2; inversion El; subst; [exfalso; eauto|]. f_equal. eapply IH; eauto. }
  subst l2. eapply forall2_line; eassumption.
Qed.

Lemma rows_iff : forall reg names contents rows, known reg -> names <> [] -> NoDup names ->
  tableRows reg names contents = Val (rows, true) <-> table names contents rows.
Proof.
  intros reg names contents rows K Hne Hnd. destruct (table_cases reg names contents K Hne Hnd) as [(r & E & T)|[(r & E & T)|(E & T)]]; rewrite E; split; intros H.
  - inversion H; subst; exact T.
  - f_equal. f_equal. eapply table_fun; eassumption.
  - discriminate.
  - exfalso. eapply table_not_broken; eassumption.
  - discriminate.
  - exfalso. apply T. destruct H as (h & l & hs & A & B & _). eauto.
Qed.
Lemma broken_iff : forall reg names contents rows, known reg -> names <> [] -> NoDup names ->
  tableRows reg names contents = Val (rows, false) <-> broken_table names contents rows.
Proof.
  intros reg names contents rows K Hne Hnd. destruct (table_cases reg names contents K Hne Hnd) as [(r & E & T)|[(r & E & T)|(E & T)]]; rewrite E; split; intros H.
  - discriminate.
  - exfalso. eapply table_not_broken; eassumption.
  - inversion H; subst; exact T.
  - f_equal. f_equal. eapply broken_fun; eassumption.
  - discriminate.
  - exfalso. apply T. destruct H as (h & l & bad & rest & hs & A & B & _). eauto.
Qed.
Lemma refused_iff : forall reg names contents, known reg -> names <> [] -> NoDup names ->
  tableRows reg names contents = Throw DomainError
  <-> ~ exists hl lines headers, cut 10 contents (hl :: lines) /\ header_of names hl headers.
Proof.
  intros reg names contents K Hne Hnd. destruct (table_cases reg names contents K Hne Hnd) as [(r & E & T)|[(r & E & T)|(E & T)]]; rewrite E; split; intros H; auto; try discriminate.
  - exfalso. apply H. destruct T as (h & l & hs & A & B & _). eauto.
  - exfalso. apply H. destruct T as (h & l & bad & rest & hs & A & B & _). eauto.
Qed.
