(** Further facts for DetailsProps.v: one meaning per argument, columns, a sort that does what std::sort promises. *)
From Verif Require Import BaseFacts Utf8Proofs BlockProofs DisplayProofs KanjiProofs IdsProofs StringProofs GroupLoadProofs DetailsSpec DetailsArg DetailsReview.
Open Scope N_scope.
Arguments N.mul : simpl never.
Arguments N.add : simpl never.
Arguments N.sub : simpl never.
Arguments N.min : simpl never.
Arguments N.max : simpl never.

(** ** An argument has one meaning *)
Lemma denotes_fun : forall r c e, denotes 16 r c -> denotes 16 r e -> c = e.
Proof. intros r c e H1 H2. apply denotes_hex in H1. apply denotes_hex in H2. destruct H1 as [_ <-]. destruct H2 as [_ <-]. reflexivity. Qed.
Lemma numeral_first : forall r, numeral r -> exists c t, r = c :: t /\ c < 58.
Proof.
  intros r [H F]. destruct r as [|c t]; [congruence|]. exists c, t. split; [reflexivity|]. inversion F as [|? ? D _]; subst.
  unfold is_digit in D. lia.
Qed.
Lemma stands_inv : forall d a x, stands_for d a x ->
  (hd 0 a < 58 /\ exists k, findByFrequency d (decimal a) = Val (Some k) /\ x = One (kName k))
  \/ (hd 0 a = 109 /\ exists i t, morohashi (tl a) i t /\ x = Several (b_ "Morohashi") (morohashiToString (i, t)) (findByMorohashiId d (i, t)))
  \/ (hd 0 a = 110 /\ x = Several (b_ "Nelson") (tl a) (findByNelsonId d (decimal (tl a))))
  \/ (hd 0 a = 117 /\ exists c, denotes 16 (tl a) c /\ x = One (if scalarb c then enc c else enc 0xFFFD))
  \/ (128 <= hd 0 a /\ x = One a).
Proof.
  intros d a x H. destruct H as [a k Hn Hv Hf|r i t Hm|r Hn Hv|r c Hd Hl Hs|r c Hd Hl Hs|cs Hk].
  - left. destruct (numeral_first _ Hn) as [c [t [E L]]]. split; [rewrite E; exact L|]. exists k. auto.
  - right; left. change (b_ "m" ++ r) with (109 :: r). cbn [hd tl]. split; [reflexivity|]. exists i, t. auto.
  - right; right; left. change (b_ "n" ++ r) with (110 :: r). cbn [hd tl]. auto.
  - right; right; right; left. change (b_ "u" ++ r) with (117 :: r). cbn [hd tl]. split; [reflexivity|]. exists c.
    rewrite (proj2 (scalarb_spec c) Hs). auto.
  - right; right; right; left. change (b_ "u" ++ r) with (117 :: r). cbn [hd tl]. split; [reflexivity|]. exists c. split; [exact Hd|].
    destruct (scalarb c) eqn:E; [apply scalarb_spec in E; contradiction|reflexivity].
  - right; right; right; right. destruct (text_first cs Hk) as [c [r [E L]]]. split; [rewrite E; exact L|reflexivity].
Qed.
Lemma one_meaning : forall d a x y, stands_for d a x -> stands_for d a y -> x = y.
Proof.
  intros d a x y H1 H2. apply stands_inv in H1. apply stands_inv in H2.
  destruct H1 as [(L1 & k & K & ->)|[(L1 & i & t & K & ->)|[(L1 & ->)|[(L1 & c & K & ->)|(L1 & ->)]]]];
  destruct H2 as [(L2 & k' & K' & ->)|[(L2 & i' & t' & K' & ->)|[(L2 & ->)|[(L2 & c' & K' & ->)|(L2 & ->)]]]]; try (exfalso; lia); try reflexivity.
  - rewrite K in K'. inversion K'. reflexivity.
  - apply morohashi_iff in K. apply morohashi_iff in K'. rewrite K in K'. inversion K'. reflexivity.
  - rewrite (denotes_fun _ _ _ K K'). reflexivity.
Qed.

(** ** Columns *)
Lemma by_three_concat : forall A (l : list A) ls, by_three l ls -> concat ls = l.
Proof.
  intros A l ls H. induction H as [|l L|a b c r ls R H IH]; cbn [concat app]; [reflexivity|apply app_nil_r|rewrite IH; reflexivity].
Qed.
(** the entries before column [c] of a line, with their spaces *)
Definition before (ls : list (list bytes)) (l : list bytes) (c : nat) : bytes :=
  concat (firstn c (map (fun p => padded (width (column (fst p) ls)) (snd p)) (combine (seq 0 (length l)) l))).
Definition shown_ok (e : bytes) : Prop := bytes_ok e /\ no_nul e /\ boundary e.
Lemma shown_size : forall e, bytes_ok e -> displaySize e = Val (size_of e).
Proof. intros e H. destruct (size_total e H) as [n [E _]]. unfold size_of. rewrite E. reflexivity. Qed.
Lemma padded_ok : forall w e, shown_ok e -> bytes_ok (padded w e) /\ no_nul (padded w e).
Proof.
  intros w e [H1 [H2 H3]]. unfold padded. destruct (repeat_ok 32 (N.to_nat (w - size_of e))) as [R1 [R2 _]]; [lia|].
  split; apply Forall_app; split; assumption.
Qed.
Lemma padded_size : forall w e, shown_ok e -> size_of e <= w -> displaySize (padded w e) = Val w.
Proof.
  intros w e [H1 [H2 H3]] L. unfold padded. destruct (repeat_ok 32 (N.to_nat (w - size_of e))) as [R1 [R2 R3]]; [lia|].
  rewrite (size_app e _ (size_of e) (w - size_of e) H1 H2 R1 R3 (shown_size e H1)); [f_equal; lia|].
  rewrite size_repeat by lia. f_equal. lia.
Qed.
Lemma top_in : forall es e, In e es -> size_of e + 2 <= fold_right N.max 0 (map (fun e => size_of e + 2) es).
Proof. induction es as [|x es IH]; intros e H; [destruct H|]. cbn [map fold_right]. destruct H as [->|H]; [lia|]. specialize (IH e H). lia. Qed.
Lemma in_column : forall (ls : list (list bytes)) l c e, In l ls -> nth_error l c = Some e -> In e (column c ls).
Proof. intros ls l c e H E. unfold column. apply in_flat_map. exists l. split; [exact H|]. rewrite E. left. reflexivity. Qed.
Lemma column_width : forall ls l c e, In l ls -> nth_error l c = Some e -> size_of e <= 28 -> size_of e + 2 <= width (column c ls).
Proof. intros ls l c e H E L. pose proof (top_in _ _ (in_column ls l c e H E)). unfold width. lia. Qed.
Fixpoint sum (l : list N) : N := match l with [] => 0 | x :: r => x + sum r end.
Lemma sum_app : forall a b, sum (a ++ b) = sum a + sum b.
Proof. induction a as [|x a IH]; intro b; cbn [app sum]; [lia|]. rewrite IH. lia. Qed.
Lemma combine_nth_seq : forall A (l : list A) s c, nth_error (combine (seq s (length l)) l) c = match nth_error l c with Some e => Some ((s + c)%nat, e) | None => None end.
Proof.
  intros A l. induction l as [|x l IH]; intros s c; [destruct c; reflexivity|]. cbn [length seq combine]. destruct c as [|c]; cbn [nth_error].
  - rewrite Nat.add_0_r. reflexivity.
  - rewrite IH. destruct (nth_error l c); [|reflexivity]. do 2 f_equal. lia.
Qed.
Lemma firstn_S : forall A (l : list A) c x, nth_error l c = Some x -> firstn (S c) l = firstn c l ++ [x].
Proof.
  intros A l. induction l as [|y l IH]; intros c x H; [destruct c; discriminate|]. destruct c as [|c]; cbn [nth_error] in H.
  - inversion H. reflexivity.
  - change (firstn (S (S c)) (y :: l)) with (y :: firstn (S c) l). rewrite (IH c x H). reflexivity.
Qed.
(** the entry of column [c] starts where the columns before it end *)
Lemma columns_aligned : forall es ls l c, Forall shown_ok es -> (forall e, In e es -> size_of e <= 28) -> by_three es ls -> In l ls ->
  (c <= length l)%nat -> bytes_ok (before ls l c) /\ no_nul (before ls l c)
  /\ displaySize (before ls l c) = Val (sum (map (fun i => width (column i ls)) (seq 0 c))).
Proof.
  intros es ls l c F L B I. assert (M : forall e, In e l -> In e es).
  { intros e H. rewrite <- (by_three_concat _ _ _ B). apply in_concat. exists l. auto. }
  induction c as [|c IH]; intro Hc.
  - split; [constructor|]. split; [constructor|]. reflexivity.
  - destruct IH as [I1 [I2 I3]]; [lia|]. destruct (nth_error l c) as [e|] eqn:E; [|apply nth_error_None in E; lia].
    assert (X : before ls l (S c) = before ls l c ++ padded (width (column c ls)) e).
    { unfold before. rewrite (firstn_S _ _ c (padded (width (column c ls)) e)).
      - rewrite concat_app. cbn [concat]. rewrite app_nil_r. reflexivity.
      - rewrite nth_error_map, combine_nth_seq, E. reflexivity. }
    assert (He : In e l) by (apply nth_error_In in E; exact E).
    assert (Ok : shown_ok e) by (rewrite Forall_forall in F; apply F; apply M; exact He).
    pose proof (column_width ls l c e I E (L e (M e He))) as W.
    destruct (padded_ok (width (column c ls)) e Ok) as [P1 P2]. rewrite X. split; [apply Forall_app; auto|]. split; [apply Forall_app; auto|].
    rewrite (size_app _ _ (sum (map (fun i : nat => width (column i ls)) (seq 0 c))) (width (column c ls)) I1 I2 P1).
    + rewrite seq_S, map_app, sum_app. cbn [map sum]. f_equal. rewrite N.add_0_r. reflexivity.
    + destruct Ok as [O1 [O2 O3]]. unfold padded. destruct e as [|b e]; [|exact O3]. cbn [app]. destruct (N.to_nat _); cbn [repeat boundary]; [exact Logic.I|lia].
    + exact I3.
    + apply padded_size; [exact Ok|lia].
Qed.

(** ** A sort *)
Section Sort.
Variable lt : Kanji -> Kanji -> out bool.
Fixpoint insert (x : Kanji) (l : list Kanji) : list Kanji :=
  match l with
  | [] => [x]
  | y :: r => match lt y x with Val true => y :: insert x r | _ => x :: y :: r end
  end.
Fixpoint insertionSort (l : list Kanji) : list Kanji := match l with [] => [] | x :: r => insert x (insertionSort r) end.
Lemma insert_perm : forall x l, Permutation (insert x l) (x :: l).
Proof.
  intros x l. induction l as [|y l IH]; [apply Permutation_refl|]. cbn [insert]. destruct (lt y x) as [[|]|e| |]; try apply Permutation_refl.
  apply (Permutation_trans (perm_skip y IH)). apply perm_swap.
Qed.
Lemma sort_perm : forall l, Permutation (insertionSort l) l.
Proof. induction l as [|x l IH]; [constructor|]. cbn [insertionSort]. apply (Permutation_trans (insert_perm x _)). constructor. exact IH. Qed.
Lemma not_lt_trans : forall P a b c, strict_weak P lt -> P a -> P b -> P c -> lt b a <> Val true -> lt c b <> Val true -> lt c a <> Val true.
Proof.
  intros P a b c [W1 [W2 [W3 W4]]] Ha Hb Hc N1 N2 H.
  destruct (W1 b a Hb Ha) as [[|] E1]; [congruence|]. destruct (W1 c b Hc Hb) as [[|] E2]; [congruence|].
  destruct (W1 b c Hb Hc) as [[|] E3]; [apply N1; exact (W3 b c a Hb Hc Ha E3 H)|].
  destruct (W1 a b Ha Hb) as [[|] E4]; [apply N2; exact (W3 c a b Hc Ha Hb H E4)|].
  destruct (W4 c b a Hc Hb Ha E2 E3 E1 E4) as [X _]. congruence.
Qed.
Lemma insert_order : forall (P : Kanji -> Prop) x l, strict_weak P lt -> P x -> Forall P l -> in_order lt l -> in_order lt (insert x l).
Proof.
  intros P x l W Hx F O. induction O as [|y l Fy O IH]; [constructor; constructor|]. inversion F as [|? ? Hy F']; subst. specialize (IH F').
  cbn [insert]. destruct (proj1 W y x Hy Hx) as [r E]. rewrite E. destruct r.
  - constructor; [|exact IH]. apply Forall_forall. intros z Hz. apply (Permutation_in _ (insert_perm x l)) in Hz. destruct Hz as [<-|Hz].
    + intro X. destruct W as [W1 [W2 [W3 _]]]. pose proof (W3 y x y Hy Hx Hy E X) as Y. rewrite (W2 y Hy) in Y. discriminate.
    + rewrite Forall_forall in Fy. exact (Fy z Hz).
  - constructor; [|constructor; assumption]. apply Forall_forall. intros z Hz. destruct Hz as [<-|Hz]; [congruence|].
    rewrite Forall_forall in Fy, F'. apply (not_lt_trans P x y z W Hx Hy (F' z Hz)); [congruence|exact (Fy z Hz)].
Qed.
Lemma insertion_sorts : sorts lt insertionSort.
Proof.
  intros l W. split; [apply sort_perm|].
  assert (G : forall m, (forall x, In x m -> In x l) -> in_order lt (insertionSort m)).
  { induction m as [|x m IH]; intro H; [constructor|]. cbn [insertionSort].
    apply (insert_order (fun x => In x l) x _ W); [apply H; left; reflexivity| |apply IH; intros y Hy; apply H; right; exact Hy].
    apply Forall_forall. intros y Hy. apply H. right. exact (Permutation_in _ (sort_perm m) Hy). }
  exact (G l (fun x H => H)).
Qed.
End Sort.

(** ** Members of loaded groups *)
Lemma loaded_members : forall find mr pr gd, rows_ok mr -> rows_ok pr -> loadGroups find mr pr = Val gd ->
  (forall n q, find n = Some q -> kanji_ok (qKanji q)) -> members_ok (patternGroups gd).
Proof.
  intros find mr pr gd H1 H2 E Hf. destruct (load_groups_cases find mr pr H1 H2) as [(d & E' & _ & B & _)|[E' _]]; rewrite E in E'; [|discriminate].
  inversion E'; subst d. unfold members_ok. clear E E'. revert B. generalize (patternGroups gd). intros gs B. clear H1 H2 mr gd.
  induction B as [|r g rows gs G B IH]; constructor; [|exact IH]. destruct G as (_ & _ & _ & _ & _ & _ & (names & _ & M) & _).
  clear - M Hf. induction M as [|n q names qs Hn M IH]; constructor; [exact (Hf n q Hn)|exact IH].
Qed.
