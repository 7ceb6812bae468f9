(** Proofs about the chart that kanaConvert prints. *)
From Verif Require Import BaseFacts TableProofs ProgramChartSpec.
From Coq Require Import Sorting.Permutation Sorting.Sorted.
Open Scope N_scope.

Definition toRow (k : Kana) : out row :=
  l <- chartRow k ;;
  match l with [a; b; c; d; e; f; g; h; _] => Val (MkRow a b c d e f g h (vList (variants (kd k)))) | _ => Ub end.
Fixpoint rowsOf (m : KMap) : list row :=
  match m with [] => [] | (_, k) :: r => match toRow k with Val x => x :: rowsOf r | _ => [] end end.
Definition allRows : list row := Eval vm_compute in rowsOf (sortedMap (getMap Hiragana)).

(** ** checks *)
Definition vbeq (o : out bytes) (s : bytes) : bool := match o with Val x => beq x s | _ => false end.
Lemma vbeq_val : forall o s, vbeq o s = true -> o = Val s.
Proof. intros [x|e| |] s H; try discriminate. apply beq_eq in H. subst. reflexivity. Qed.
Definition styleOk (ltr : bool) (flag : N) (r : row) (cell : bytes) : bool :=
  match convert Romaji flag ltr (rHira r) with
  | Val o => if beq o (rRoma r) then beq cell []
             else match convert Hiragana 0 ltr o with
                  | Val back => if beq back (rHira r) then beq cell o else beq cell (b_ "(" ++ o ++ b_ ")")
                  | _ => false
                  end
  | _ => false
  end.
Lemma style_ok : forall ltr flag r cell, styleOk ltr flag r cell = true -> style_cell ltr flag r cell.
Proof.
  intros ltr flag r cell H. unfold styleOk in H. unfold style_cell. destruct (convert Romaji flag ltr (rHira r)) as [o|e| |]; try discriminate.
  exists o. split; [reflexivity|]. destruct (beq o (rRoma r)) eqn:E.
  - left. apply beq_eq in E, H. auto.
  - right. split; [intro K; rewrite K, beq_refl in E; discriminate|]. destruct (convert Hiragana 0 ltr o) as [back|e| |]; try discriminate.
    exists back. split; [reflexivity|]. destruct (beq back (rHira r)) eqn:F.
    + left. apply beq_eq in F, H. auto.
    + right. apply beq_eq in H. split; [intro K; rewrite K, beq_refl in F; discriminate|exact H].
Qed.
Definition uniOk (s cell : bytes) : bool :=
  match s with
  | [x; y; z] => (224 <=? x) && (x <? 240) && (128 <=? y) && (y <? 192) && (128 <=? z) && (z <? 192)
                 && beq cell (hex4 ((x - 224) * 4096 + (y - 128) * 64 + (z - 128)))
  | [_; _; _; _; _; _] => beq cell []
  | _ => false
  end.
Lemma uni_ok : forall s cell, uniOk s cell = true -> unicode_cell s cell.
Proof.
  intros s cell H. destruct s as [|x [|y [|z [|? [|? [|? [|? ?]]]]]]]; try discriminate.
  - cbn [uniOk] in H. rewrite !andb_true_iff in H. destruct H as [[[[[[H1 H2] H3] H4] H5] H6] H7]. apply beq_eq in H7.
    left. eexists. split; [|exact H7]. exists x, y, z. repeat split; lia.
  - right. apply beq_eq in H. split; [reflexivity|exact H].
Qed.
Definition beginsb (s l : bytes) : bool :=
  existsb (fun i => beq (firstn 3 s) (firstn 3 (skipn (3 * i) l))) (seq 0 (length l / 3)).
Lemma begins_iff : forall s l, beginsb s l = true <-> begins s l.
Proof.
  intros s l. unfold beginsb, begins. rewrite existsb_exists. split.
  - intros (i & I1 & E). exists i. apply in_seq in I1. apply beq_eq in E. split; [exact E|lia].
  - intros (i & E & L). exists i. split; [apply in_seq; lia|rewrite E; apply beq_refl].
Qed.
Definition typeOk (s cell : bytes) : bool :=
  if beginsb s with_dakuten then beq cell (b_ "D") else if beginsb s with_handakuten then beq cell (b_ "H") else beq cell (b_ "P").
Lemma type_ok : forall s cell, typeOk s cell = true -> type_cell s cell.
Proof.
  intros s cell H. unfold typeOk in H. unfold type_cell. destruct (beginsb s with_dakuten) eqn:D.
  - left. apply begins_iff in D. apply beq_eq in H. auto.
  - destruct (beginsb s with_handakuten) eqn:E; apply beq_eq in H.
    + right. left. apply begins_iff in E. auto.
    + right. right. rewrite <- !begins_iff, D, E. split; [discriminate|]. split; [discriminate|exact H].
Qed.
Definition rowOk (ltr : bool) (r : row) : bool :=
  vbeq (convert Hiragana 0 ltr (rRoma r)) (rHira r) && vbeq (convert Katakana 0 ltr (rRoma r)) (rKata r)
  && vbeq (convert Romaji 0 ltr (rHira r)) (rRoma r) && vbeq (convert Romaji 0 ltr (rKata r)) (rRoma r)
  && forallb (fun s => vbeq (convert Hiragana 0 ltr s) (rHira r) && vbeq (convert Katakana 0 ltr s) (rKata r)) (rVariants r)
  && styleOk ltr 1 r (rHepb r) && styleOk ltr 2 r (rKunr r)
  && uniOk (rHira r) (rHUni r) && uniOk (rKata r) (rKUni r) && typeOk (rHira r) (rType r).
Lemma row_checked : forall ltr r, rowOk ltr r = true -> row_ok ltr r.
Proof.
  intros ltr r H. unfold rowOk in H. rewrite !andb_true_iff in H. destruct H as [[[[[[[[[H1 H2] H3] H4] H5] H6] H7] H8] H9] H10].
  unfold row_ok. repeat split; try (apply vbeq_val; assumption); try (apply style_ok; assumption); try (apply uni_ok; assumption);
    try (apply type_ok; assumption).
  apply Forall_forall. intros s Hs. rewrite forallb_forall in H5. specialize (H5 s Hs). apply andb_true_iff in H5. destruct H5.
  split; apply vbeq_val; assumption.
Qed.
Lemma rows_ok : forall ltr, Forall (row_ok ltr) allRows.
Proof.
  intro ltr. apply Forall_forall. intros r Hr. apply row_checked.
  assert (E : forall l : list row, l = allRows -> forallb (fun r => rowOk true r && rowOk false r) l = true) by (intros l ->; vm_compute; reflexivity).
  specialize (E allRows eq_refl). rewrite forallb_forall in E. specialize (E r Hr). apply andb_true_iff in E. destruct ltr; tauto.
Qed.

(** ** order and completeness *)
Lemma bltb_before : forall a b, bltb a b = true -> before a b.
Proof.
  induction a as [|x a IH]; intros [|y b] H; try discriminate; [constructor|]. cbn [bltb] in H.
  destruct (N.ltb_spec x y) as [L|L]; [apply bf_less; exact L|]. destruct (N.ltb_spec y x) as [L'|L']; [discriminate|].
  assert (x = y) by lia. subst. apply bf_same. apply IH. exact H.
Qed.
Lemma before_trans : forall a b c, before a b -> before b c -> before a c.
Proof.
  intros a b c H. revert c. induction H as [y b|x a y b L|x a b H IH]; intros c K; inversion K; subst;
    (apply bf_end || (apply bf_less; lia) || (apply bf_same; apply IH; assumption)).
Qed.
Fixpoint sortedb (l : list bytes) : bool :=
  match l with a :: ((b :: _) as r) => bltb a b && sortedb r | _ => true end.
Lemma sorted_ok : forall l, sortedb l = true -> StronglySorted before l.
Proof.
  intros l H. apply Sorted_StronglySorted; [intros a b c; apply before_trans|]. induction l as [|a [|b l] IH]; [constructor|constructor; constructor|].
  cbn [sortedb] in H. apply andb_true_iff in H. destruct H as [H1 H2]. constructor; [apply IH; exact H2|]. constructor. apply bltb_before. exact H1.
Qed.
Lemma rows_sorted : StronglySorted before (map rHira allRows).
Proof. apply sorted_ok. vm_compute. reflexivity. Qed.
Fixpoint distinctb (l : list bytes) : bool := match l with [] => true | x :: r => negb (existsb (beq x) r) && distinctb r end.
Lemma distinct_ok : forall l, distinctb l = true -> NoDup l.
Proof.
  induction l as [|x l IH]; intro H; [constructor|]. cbn [distinctb] in H. apply andb_true_iff in H. destruct H as [H1 H2].
  constructor; [|apply IH; exact H2]. intro K. apply negb_true_iff in H1. apply not_true_iff_false in H1. apply H1. apply existsb_exists.
  exists x. split; [exact K|apply beq_refl].
Qed.
Lemma hira_distinct : NoDup (map rHira allRows).
Proof. apply distinct_ok. vm_compute. reflexivity. Qed.
Lemma kata_distinct : NoDup (map rKata allRows).
Proof. apply distinct_ok. vm_compute. reflexivity. Qed.
Lemma roma_distinct : NoDup (flat_map (fun r => rRoma r :: rVariants r) allRows).
Proof. apply distinct_ok. vm_compute. reflexivity. Qed.
Definition sameb (l m : list bytes) : bool := forallb (fun x => existsb (beq x) m) l.
Lemma same_ok : forall l m, sameb l m = true -> incl l m.
Proof.
  intros l m H x Hx. unfold sameb in H. rewrite forallb_forall in H. specialize (H x Hx). apply existsb_exists in H. destruct H as (y & Hy & E).
  apply beq_eq in E. subst. exact Hy.
Qed.
Lemma rows_complete : Permutation (map rHira allRows) (map (fun k => hira (kd k)) allKana).
Proof.
  apply NoDup_Permutation; [apply hira_distinct|apply distinct_ok; vm_compute; reflexivity|]. intro x. split.
  - apply same_ok. vm_compute. reflexivity.
  - apply same_ok. vm_compute. reflexivity.
Qed.
(** every Hiragana symbol of Unicode is there *)
Lemma symbols_complete : forall c, 0x3041 <= c <= 0x3096 -> exists r, In r allRows /\ one_character (rHira r) c.
Proof.
  intros c H.
  assert (E : forall l : list row, l = allRows -> forallb (fun n => existsb (fun r => match rHira r with
      [x; y; z] => (224 <=? x) && (x <? 240) && (128 <=? y) && (y <? 192) && (128 <=? z) && (z <? 192)
                   && (0x3041 + N.of_nat n =? (x - 224) * 4096 + (y - 128) * 64 + (z - 128)) | _ => false end) l) (seq 0 86) = true)
    by (intros l ->; vm_compute; reflexivity).
  specialize (E allRows eq_refl). rewrite forallb_forall in E. specialize (E (N.to_nat (c - 0x3041))).
  rewrite existsb_exists in E. destruct E as (r & Hr & E); [apply in_seq; lia|]. exists r. split; [exact Hr|].
  destruct (rHira r) as [|x [|y [|z [|? ?]]]]; try discriminate. exists x, y, z. rewrite !andb_true_iff in E.
  destruct E as [[[[[[H1 H2] H3] H4] H5] H6] H7]. repeat split; lia.
Qed.

(** ** what is printed *)
Definition cellsOk (l : list (list bytes)) : bool := forallb (forallb (fun c => forallb (fun x => (0 <? x) && (x <? 256)) c && (len c <? 1000))) l.
Lemma cells_checked : forall l, cellsOk l = true -> forall r, In r l -> Forall cell_ok r.
Proof.
  intros l H r Hr. unfold cellsOk in H. rewrite forallb_forall in H. specialize (H r Hr). apply Forall_forall. intros c Hc.
  rewrite forallb_forall in H. specialize (H c Hc). apply andb_true_iff in H. destruct H as [H1 H2]. rewrite forallb_forall in H1.
  unfold cell_ok. repeat split; [apply Forall_forall|apply Forall_forall|lia]; intros x Hx; specialize (H1 x Hx); lia.
Qed.
Definition theTable : Table := table_of_adds chart_columns true (chart_rows allRows).
Lemma table_computed : forall markdown, exists v m d, chartTable = Val (theTable, v, m, d)
  /\ chartFooter markdown v m d = totals markdown allRows.
Proof.
  intro markdown.
  assert (E : match chartTable with
    | Val (t, v, m, d) => t = theTable /\ chartFooter true v m d = totals true allRows /\ chartFooter false v m d = totals false allRows
    | _ => False end) by (vm_compute; repeat split; reflexivity).
  destruct chartTable as [[[[t v] m] d]|e| |]; try contradiction. destruct E as (-> & E1 & E2). exists v, m, d. split; [reflexivity|].
  destruct markdown; assumption.
Qed.
Lemma table_prints : exists s, print theTable = Val s.
Proof.
  destruct (print_lines chart_columns true (chart_rows allRows)) as (ws & _ & H1 & H2).
  - apply (cells_checked [chart_columns]); [vm_compute; reflexivity|left; reflexivity].
  - intros a Ha. apply (cells_checked (map fst (chart_rows allRows))); [vm_compute; reflexivity|]. apply in_map. exact Ha.
  - vm_compute. reflexivity.
  - unfold theTable. destruct ws as [|w ws]; [exists []; apply H1; reflexivity|]. destruct H2 as (ts & _ & E); [discriminate|]. eauto.
Qed.
Lemma chart_printed : forall markdown, exists shown,
  (if markdown : bool then shown = printMarkdown theTable else print theTable = Val shown)
  /\ printKanaChart markdown = (chartHeader markdown ++ shown ++ totals markdown allRows, Val tt).
Proof.
  intro markdown. destruct (table_computed markdown) as (v & m & d & E & F). unfold printKanaChart. rewrite E. destruct markdown.
  - exists (printMarkdown theTable). split; [reflexivity|]. cbn [wbind say lift app]. rewrite F. reflexivity.
  - destruct table_prints as [s Es]. exists s. split; [exact Es|]. cbn [wbind say lift app]. rewrite Es. cbn [wbind say lift app]. rewrite F. reflexivity.
Qed.
