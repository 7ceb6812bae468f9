(** Lemmas about tables. *)
From Verif Require Import BaseFacts Utf8Proofs DisplayProofs StringProofs.
From Verif Require Export TableSpec.
Open Scope N_scope.
Arguments N.mul : simpl never.
Arguments N.add : simpl never.
Arguments N.sub : simpl never.
Arguments N.div : simpl never.
Arguments N.modulo : simpl never.
Arguments N.pow : simpl never.
Arguments N.max : simpl never.

Definition ds (c : bytes) : N := displaySizeCodes (decode (upto_nul c)).
Lemma ds_val : forall c, bytes_ok c -> displaySize c = Val (ds c).
Proof. intros. apply displaySize_decode. assumption. Qed.
Lemma ds_len : forall c, bytes_ok c -> ds c <= len c.
Proof. intros c H. eapply size_le; [exact H|apply ds_val; exact H]. Qed.

(** ** Widths *)
Definition row_ok (r : list bytes) : Prop := Forall bytes_ok r.
Lemma sizes_val : forall r, row_ok r -> sizes r = Val (map ds r).
Proof.
  intros r H. induction H as [|c r Hc _ IH]; [reflexivity|]. cbn [sizes map]. rewrite ds_val, IH by assumption. reflexivity.
Qed.
Fixpoint wd (ws : list N) (row : list bytes) : list N :=
  match row with
  | [] => ws
  | c :: r => match ws with x :: xs => N.max x (ds c) :: wd xs r | [] => ds c :: wd [] r end
  end.
Lemma widen_val : forall row ws, row_ok row -> widen ws row = Val (wd ws row).
Proof.
  intros row ws H. revert ws. induction H as [|c r Hc _ IH]; intro ws; [reflexivity|]. cbn [widen wd]. rewrite ds_val by exact Hc. cbn [obind].
  destruct ws as [|x xs]; rewrite IH; cbn [obind]; [reflexivity|]. repeat f_equal. destruct (x <? ds c) eqn:E; lia.
Qed.
Lemma widenRows_val : forall rows ws, Forall row_ok rows -> widenRows ws rows = Val (fold_left wd rows ws).
Proof.
  induction rows as [|r rows IH]; intros ws H; [reflexivity|]. apply Forall_cons_iff in H. destruct H as [Hr H].
  cbn [widenRows fold_left]. rewrite widen_val by exact Hr. cbn [obind]. apply IH. exact H.
Qed.
Lemma wd_nil : forall r, wd [] r = map ds r.
Proof. induction r as [|c r IH]; [reflexivity|]. cbn [wd map]. rewrite IH. reflexivity. Qed.

(** [col i rows]: the cells of a column *)
Definition has_cell (rows : list (list bytes)) (i : nat) (c : bytes) : Prop := exists r, In r rows /\ nth_error r i = Some c.
Definition widths_for (rows : list (list bytes)) (ws : list N) : Prop :=
  (forall i c, has_cell rows i c -> exists w, nth_error ws i = Some w /\ ds c <= w)
  /\ (forall i w, nth_error ws i = Some w -> exists c, has_cell rows i c /\ ds c = w).
Lemma wd_nth : forall r ws i,
  nth_error (wd ws r) i =
  match nth_error ws i, nth_error r i with
  | Some w, Some c => Some (N.max w (ds c))
  | Some w, None => Some w
  | None, Some c => Some (ds c)
  | None, None => None
  end.
Proof.
  induction r as [|c r IH]; intros ws i.
  - cbn [wd]. destruct (nth_error ws i); destruct i; reflexivity.
  - destruct ws as [|x xs]; cbn [wd].
    + destruct i as [|i]; cbn [nth_error]; [reflexivity|]. rewrite IH. destruct i; reflexivity.
    + destruct i as [|i]; cbn [nth_error]; [reflexivity|]. apply IH.
Qed.
Lemma widths_step : forall rows ws r, widths_for rows ws -> widths_for (rows ++ [r]) (wd ws r).
Proof.
  intros rows ws r [H1 H2]. split.
  - intros i c [q [Hq Hc]]. rewrite wd_nth. apply in_app_iff in Hq. destruct Hq as [Hq|[<-|[]]].
    + destruct (H1 i c) as [w [Hw L]]; [exists q; auto|]. rewrite Hw. destruct (nth_error r i) as [x|]; eexists; split; try reflexivity; lia.
    + rewrite Hc. destruct (nth_error ws i) as [w|]; eexists; split; try reflexivity; lia.
  - intros i w. rewrite wd_nth. destruct (nth_error ws i) as [x|] eqn:Ex.
    + destruct (H2 i x Ex) as [c [[q [Hq Hc]] Dc]]. destruct (nth_error r i) as [y|] eqn:Ey; intros [= <-].
      * destruct (N.max_spec x (ds y)) as [[_ ->]|[_ ->]].
        -- exists y. split; [|reflexivity]. exists r. split; [apply in_app_iff; right; left; reflexivity|exact Ey].
        -- exists c. split; [|exact Dc]. exists q. split; [apply in_app_iff; left; exact Hq|exact Hc].
      * exists c. split; [|exact Dc]. exists q. split; [apply in_app_iff; left; exact Hq|exact Hc].
    + destruct (nth_error r i) as [y|] eqn:Ey; [|discriminate]. intros [= <-]. exists y. split; [|reflexivity].
      exists r. split; [apply in_app_iff; right; left; reflexivity|exact Ey].
Qed.
Lemma widths_all : forall rows rows0 ws, widths_for rows0 ws -> widths_for (rows0 ++ rows) (fold_left wd rows ws).
Proof.
  induction rows as [|r rows IH]; intros rows0 ws H; [rewrite app_nil_r; exact H|]. cbn [fold_left].
  change (r :: rows) with ([r] ++ rows). rewrite app_assoc. apply IH. apply widths_step. exact H.
Qed.
Lemma widths_title : forall t, widths_for [t] (map ds t).
Proof.
  intro t. rewrite <- wd_nil. apply (widths_step [] [] t). split.
  - intros i c [q [[] _]].
  - intros [|i] w; discriminate.
Qed.
Lemma widths_columns : forall rows ws, Forall row_ok rows -> widths_for rows ws -> column_widths rows ws.
Proof.
  intros rows ws Hok [H1 H2]. rewrite Forall_forall in Hok.
  assert (Hb : forall r i c, In r rows -> nth_error r i = Some c -> bytes_ok c).
  { intros r i c Hr Hc. specialize (Hok r Hr). unfold row_ok in Hok. rewrite Forall_forall in Hok. apply Hok. eapply nth_error_In. exact Hc. }
  split.
  - intros r Hr. destruct (Nat.le_gt_cases (List.length r) (List.length ws)) as [L|L]; [exact L|]. exfalso.
    destruct (nth_error r (List.length ws)) as [c|] eqn:E; [|apply nth_error_None in E; lia].
    destruct (H1 (List.length ws) c) as [w [Hw _]]; [exists r; auto|].
    assert (nth_error ws (List.length ws) = None) by (apply nth_error_None; lia). congruence.
  - intros i w Hw. split.
    + intros r c Hr Hc. exists (ds c). split; [apply ds_val; eapply Hb; eassumption|].
      destruct (H1 i c) as [w' [Hw' L]]; [exists r; auto|]. congruence.
    + destruct (H2 i w Hw) as [c [[r [Hr Hc]] Dc]]. exists r, c. split; [exact Hr|]. split; [exact Hc|].
      rewrite <- Dc. apply ds_val. eapply Hb; eassumption.
Qed.

(** ** Lines *)
Lemma cell_text_some : forall w c, cell_ok c -> ds c <= w -> w < 2^30 ->
  cell 124 32 (u64 (w + u64 (len c + (2^64 - ds c)))) c = Val (b_ "| " ++ c ++ spaces (w - ds c) ++ b_ " ").
Proof.
  intros w c [Hok [_ L]] D W. pose proof (ds_len c Hok) as Dl.
  change (2^30) with 1073741824 in *.
  assert (E : u64 (w + u64 (len c + (2^64 - ds c))) = w + (len c - ds c)).
  { unfold u64. change (2^64) with 18446744073709551616.
    replace (len c + (18446744073709551616 - ds c)) with ((len c - ds c) + 1 * 18446744073709551616) by lia.
    rewrite N.mod_add by lia. rewrite (N.mod_small (len c - ds c)) by lia. apply N.mod_small. lia. }
  rewrite E. unfold cell, intPlus1, toInt. change (2^32) with 4294967296. change (2^31) with 2147483648.
  rewrite N.mod_small by lia. replace (w + (len c - ds c) <? 2147483648) with true by lia.
  replace (Z.of_N (w + (len c - ds c)) =? 2 ^ 31 - 1)%Z with false by (change (2^31)%Z with 2147483648%Z; lia).
  cbn [obind]. unfold putSetw.
  assert (P : (Z.to_nat (Z.of_N (w + (len c - ds c)) + 1) - List.length c)%nat = (N.to_nat (w - ds c) + 1)%nat).
  { unfold len in *. lia. }
  rewrite P, repeat_app. unfold spaces. change (b_ "| ") with [124; 32]. change (b_ " ") with [32]. cbn [app repeat].
  reflexivity.
Qed.
Lemma cell_text_none : forall d f w, w < 2^30 ->
  cell d f w [] = Val ([d; f] ++ repeat f (N.to_nat w) ++ [f]).
Proof.
  intros d f w W. change (2^30) with 1073741824 in *. unfold cell, intPlus1, toInt. change (2^32) with 4294967296. change (2^31) with 2147483648.
  rewrite N.mod_small by lia. replace (w <? 2147483648) with true by lia.
  replace (Z.of_N w =? 2 ^ 31 - 1)%Z with false by (change (2^31)%Z with 2147483648%Z; lia).
  cbn [obind]. unfold putSetw. cbn [List.length app].
  replace (Z.to_nat (Z.of_N w + 1) - 0)%nat with (N.to_nat w + 1)%nat by lia. rewrite repeat_app. reflexivity.
Qed.

Definition fits (ws : list N) (r : list bytes) : Prop :=
  forall i c w, nth_error r i = Some c -> nth_error ws i = Some w -> ds c <= w.
Lemma cells_print : forall ws r, Forall (fun w => w < 2^30) ws -> Forall cell_ok r -> fits ws r ->
  exists t, printCells 124 32 ws r = Val t /\ cells_text ws r (t ++ [124]).
Proof.
  induction ws as [|w ws IH]; intros r Hw Hr Hf.
  - exists []. cbn [printCells]. split; [reflexivity|]. apply cells_end.
  - apply Forall_cons_iff in Hw. destruct Hw as [Hw Hws]. cbn [printCells]. destruct r as [|c r].
    + rewrite cell_text_none by exact Hw. cbn [obind]. destruct (IH [] Hws) as [t [E T]]; [constructor|intros i c x H; destruct i; discriminate|].
      rewrite E. cbn [obind]. eexists. split; [reflexivity|]. rewrite <- !app_assoc.
      apply (cells_none w ws _ T).
    + apply Forall_cons_iff in Hr. destruct Hr as [Hc Hr].
      assert (D : ds c <= w) by (apply (Hf 0%nat); reflexivity).
      rewrite ds_val by apply Hc. cbn [obind]. rewrite cell_text_some by assumption. cbn [obind].
      destruct (IH r Hws Hr) as [t [E T]]; [intros i x y H1 H2; apply (Hf (S i)); assumption|].
      rewrite E. cbn [obind]. eexists. split; [reflexivity|]. rewrite <- !app_assoc.
      apply cells_some; [apply ds_val; apply Hc|exact D|exact T].
Qed.
Lemma border_print : forall ws, Forall (fun w => w < 2^30) ws ->
  exists t, printCells 43 45 ws [] = Val t /\ border_text ws (t ++ [43]).
Proof.
  induction ws as [|w ws IH]; intros Hw.
  - exists []. split; [reflexivity|]. apply border_end.
  - apply Forall_cons_iff in Hw. destruct Hw as [Hw Hws]. cbn [printCells]. rewrite cell_text_none by exact Hw. cbn [obind].
    destruct (IH Hws) as [t [E T]]. rewrite E. cbn [obind]. eexists. split; [reflexivity|]. rewrite <- !app_assoc.
    apply (border_some w ws _ T).
Qed.
Lemma line_print : forall ws l, Forall (fun w => w < 2^30) ws ->
  (match l with Border => True | Cells r => Forall cell_ok r /\ fits ws r end) ->
  exists t, line_text ws l t /\ (match l with Border => border ws | Cells r => printRow ws r 32 124 end) = Val (t ++ [10]).
Proof.
  intros ws [|r] Hw H.
  - destruct (border_print ws Hw) as [t [E T]]. exists (t ++ [43]). split; [constructor; exact T|].
    unfold border, printRow. rewrite E. cbn [obind]. rewrite <- app_assoc. reflexivity.
  - destruct H as [Hr Hf]. destruct (cells_print ws r Hw Hr Hf) as [t [E T]]. exists (t ++ [124]). split; [constructor; exact T|].
    unfold printRow. rewrite E. cbn [obind]. rewrite <- app_assoc. reflexivity.
Qed.

(** ** Whole tables *)
Lemma adds_rows : forall adds t,
  let r := fold_left (fun t a => addRow t (fst a) (snd a)) adds t in
  tTitle r = tTitle t /\ tCount r = tCount t
  /\ tRows r = tRows t ++ map fst (numbered_rows (tCount t) (len (tRows t) + 1) adds)
  /\ (forall i, hasSection r i = hasSection t i ||
        match nth_error (map snd adds) (N.to_nat (i - len (tRows t))) with
        | Some b => b && (len (tRows t) <=? i) | None => false end).
Proof.
  induction adds as [|[row s] adds IH]; intros t; cbn [fold_left].
  - cbv zeta. split; [reflexivity|]. split; [reflexivity|]. split; [cbn; rewrite app_nil_r; reflexivity|].
    intro i. cbn [map]. destruct (N.to_nat (i - len (tRows t))); cbn [nth_error]; rewrite orb_false_r; reflexivity.
  - cbv zeta. specialize (IH (addRow t row s)). cbv zeta in IH. destruct IH as [I1 [I2 [I3 I4]]].
    cbn [fst snd]. rewrite I1, I2. split; [reflexivity|]. split; [reflexivity|]. split.
    + rewrite I3. cbn [addRow tRows tCount]. rewrite len_app. change (len [if tCount t then to_string (len (tRows t) + 1) :: row else row]) with 1.
      cbn [numbered_rows map fst]. rewrite <- app_assoc. reflexivity.
    + intro i. rewrite I4. cbn [addRow tRows]. rewrite len_app. change (len [if tCount t then to_string (len (tRows t) + 1) :: row else row]) with 1.
      unfold hasSection. cbn [addRow tSections]. cbn [map].
      assert (A : existsb (N.eqb i) (if s then tSections t ++ [len (tRows t)] else tSections t)
                  = existsb (N.eqb i) (tSections t) || (s && (i =? len (tRows t)))).
      { destruct s; cbn [andb]; [rewrite existsb_app; cbn [existsb]; rewrite orb_false_r; reflexivity|rewrite orb_false_r; reflexivity]. }
      rewrite A, <- orb_assoc. f_equal.
      destruct (N.lt_trichotomy i (len (tRows t))) as [L|[L|L]].
      * replace (i - (len (tRows t) + 1)) with 0 by lia. replace (i - len (tRows t)) with 0 by lia. cbn [N.to_nat nth_error].
        replace (i =? len (tRows t)) with false by lia. replace (len (tRows t) <=? i) with false by lia.
        replace (len (tRows t) + 1 <=? i) with false by lia. rewrite !andb_false_r.
        change (nth_error (map snd adds) (N.to_nat 0)) with (nth_error (map snd adds) 0).
        destruct (map snd adds) as [|b ?]; cbn [nth_error]; rewrite ?andb_false_r; reflexivity.
      * subst i. rewrite N.sub_diag. cbn [N.to_nat nth_error]. rewrite N.eqb_refl, N.leb_refl, !andb_true_r.
        replace (len (tRows t) - (len (tRows t) + 1)) with 0 by lia.
        replace (len (tRows t) + 1 <=? len (tRows t)) with false by lia.
        change (nth_error (map snd adds) (N.to_nat 0)) with (nth_error (map snd adds) 0).
        destruct (map snd adds) as [|b ?]; cbn [nth_error]; rewrite ?andb_false_r, ?orb_false_r; reflexivity.
      * replace (i =? len (tRows t)) with false by lia. rewrite andb_false_r. cbn [orb].
        replace (N.to_nat (i - len (tRows t))) with (S (N.to_nat (i - (len (tRows t) + 1)))) by lia. cbn [nth_error].
        destruct (nth_error (map snd adds) (N.to_nat (i - (len (tRows t) + 1)))) as [b|]; [|reflexivity].
        replace (len (tRows t) + 1 <=? i) with true by lia. replace (len (tRows t) <=? i) with true by lia. reflexivity.
Qed.
Lemma numbered_snd : forall count adds k, map snd (numbered_rows count k adds) = map snd adds.
Proof. intros count. induction adds as [|[r s] adds IH]; intro k; [reflexivity|]. cbn [numbered_rows map snd]. rewrite IH. reflexivity. Qed.
Lemma table_state : forall title count adds, let t := table_of_adds title count adds in
  tTitle t = title /\ tRows t = map fst (numbered_rows count 1 adds)
  /\ forall i, hasSection t i = nth (N.to_nat i) (map snd (numbered_rows count 1 adds)) false.
Proof.
  intros title count adds t. destruct (adds_rows adds (newTable title count)) as [H1 [_ [H3 H4]]]. fold (table_of_adds title count adds) in *. fold t in H1, H3, H4.
  split; [exact H1|]. split; [exact H3|]. intro i. rewrite H4. cbn [newTable tRows]. change (len (@nil (list bytes))) with 0. rewrite N.sub_0_r.
  unfold hasSection. cbn [newTable tSections existsb orb]. rewrite numbered_snd. revert i. generalize (map snd adds).
  intros l i. destruct (nth_error l (N.to_nat i)) as [b|] eqn:E.
  - rewrite (nth_error_nth l (N.to_nat i) false E). replace (0 <=? i) with true by lia. rewrite andb_true_r. reflexivity.
  - apply nth_error_None in E. rewrite nth_overflow by exact E. reflexivity.
Qed.

Definition row_lines (r : list bytes * bool) : list line := (if snd r : bool then [Border] else []) ++ [Cells (fst r)].
Definition lines_text (ws : list N) (ls : list line) (ts : list bytes) : Prop := Forall2 (line_text ws) ls ts.
Definition joined (ts : list bytes) : bytes := flat_map (fun t => t ++ [10]) ts.
Lemma joined_app : forall a b, joined (a ++ b) = joined a ++ joined b.
Proof. intros. apply flat_map_app. Qed.
Lemma rows_print : forall t ws rows i, Forall (fun w => w < 2^30) ws ->
  Forall (fun r => Forall cell_ok (fst r) /\ fits ws (fst r)) rows ->
  (forall k, (k < List.length rows)%nat -> hasSection t (i + N.of_nat k) = nth k (map snd rows) false) ->
  exists ts, lines_text ws (flat_map row_lines rows) ts /\ printRows t ws i (map fst rows) = Val (joined ts).
Proof.
  intros t ws. induction rows as [|[r s] rows IH]; intros i Hw Hr Hs.
  - exists []. split; [constructor|reflexivity].
  - apply Forall_cons_iff in Hr. destruct Hr as [Hr Hrs]. cbn [map fst printRows].
    pose proof (Hs 0%nat ltac:(cbn; lia)) as H0. rewrite N.add_0_r in H0. cbn [map snd nth] in H0. rewrite H0.
    destruct (line_print ws (Cells r) Hw Hr) as [tr [Tr Er]]. cbv iota in Er.
    destruct (IH (i + 1) Hw Hrs) as [ts [Ts Es]].
    { intros k Hk. replace (i + 1 + N.of_nat k) with (i + N.of_nat (S k)) by lia. rewrite Hs by (cbn; lia). reflexivity. }
    destruct (line_print ws Border Hw I) as [tb [Tb Eb]]. cbv iota in Eb.
    destruct s; cbn [obind].
    + exists (tb :: tr :: ts). split; [constructor; [exact Tb|constructor; [exact Tr|exact Ts]]|].
      rewrite Eb. cbn [obind]. rewrite Er. cbn [obind]. rewrite Es. cbn [obind]. unfold joined. cbn [flat_map]. reflexivity.
    + exists (tr :: ts). split; [constructor; [exact Tr|exact Ts]|].
      rewrite Er. cbn [obind]. rewrite Es. cbn [obind]. unfold joined. cbn [flat_map]. reflexivity.
Qed.

Lemma decLoop_len : forall fuel x r, (List.length (decLoop fuel x r) <= fuel + List.length r)%nat.
Proof.
  induction fuel as [|f IH]; intros x r; cbn [decLoop]; [lia|]. destruct (x =? 0); [lia|].
  specialize (IH (x / 10) ((48 + x mod 10) :: r)). cbn [List.length] in IH. lia.
Qed.
Lemma to_string_short : forall x, x < 2^64 -> len (to_string x) < 2^30.
Proof.
  intros x Hx. unfold to_string. destruct x as [|p]; [vm_compute; reflexivity|].
  replace (N.pos p =? 0) with false by lia. pose proof (decLoop_len (N.size_nat (N.pos p)) (N.pos p) []) as L.
  assert (S : (N.size_nat (N.pos p) <= 65)%nat).
  { cbn [N.size_nat]. change 65%nat with (Pos.size_nat (2^64)%positive). apply Pos.size_nat_monotone. lia. }
  unfold len. cbn [List.length] in L. change (2^30) with 1073741824. lia.
Qed.
Lemma numbered_ok : forall count adds k, (forall a, In a adds -> Forall cell_ok (fst a)) -> k + len adds < 2^64 ->
  forall r, In r (numbered_rows count k adds) -> Forall cell_ok (fst r).
Proof.
  intros count. induction adds as [|[row s] adds IH]; intros k H L r Hr; [destruct Hr|]. rewrite len_cons in L. cbn [numbered_rows] in Hr.
  destruct Hr as [<-|Hr].
  - cbn [fst]. pose proof (H (row, s) (or_introl eq_refl)) as Hc. cbn [fst] in Hc. destruct count; [|exact Hc]. constructor; [|exact Hc].
    pose proof (to_string_digits k) as D. split; [|split].
    + eapply Forall_impl; [|exact D]. intros x Hx. unfold is_digit in Hx. lia.
    + eapply Forall_impl; [|exact D]. intros x Hx. unfold is_digit in Hx. lia.
    + (* at most 20 digits *)
      apply to_string_short. lia.
  - apply (IH (k + 1)); [intros a Ha; apply H; right; exact Ha|lia|exact Hr].
Qed.

(** the lines of a whole table, and its widths *)
Lemma fits_of : forall rows ws r, widths_for rows ws -> In r rows -> fits ws r.
Proof.
  intros rows ws r [H1 _] Hr i c w Hc Hw. destruct (H1 i c) as [w' [Hw' L]]; [exists r; auto|]. congruence.
Qed.
Lemma widths_small : forall rows ws, Forall (Forall cell_ok) rows -> widths_for rows ws -> Forall (fun w => w < 2^30) ws.
Proof.
  intros rows ws Hok [_ H2]. apply Forall_forall. intros w Hw. apply In_nth_error in Hw. destruct Hw as [i Hi].
  destruct (H2 i w Hi) as [c [[r [Hr Hc]] <-]]. rewrite Forall_forall in Hok. specialize (Hok r Hr). rewrite Forall_forall in Hok.
  destruct (Hok c (nth_error_In _ _ Hc)) as [Hb [_ L]]. pose proof (ds_len c Hb). lia.
Qed.
Lemma rows_row_ok : forall rows, Forall (Forall cell_ok) rows -> Forall row_ok rows.
Proof. intros rows H. eapply Forall_impl; [|exact H]. intros r Hr. eapply Forall_impl; [|exact Hr]. intros c [Hc _]. exact Hc. Qed.

Lemma print_lines : forall title count adds,
  Forall cell_ok title -> (forall a, In a adds -> Forall cell_ok (fst a)) -> len adds < 2^63 ->
  let rows := numbered_rows count 1 adds in
  exists ws, column_widths (title :: map fst rows) ws
    /\ (ws = [] -> print (table_of_adds title count adds) = Val [])
    /\ (ws <> [] -> exists ts, Forall2 (line_text ws) (table_lines title rows) ts
          /\ print (table_of_adds title count adds) = Val (flat_map (fun t => t ++ [10]) ts)).
Proof.
  intros title count adds Ht Ha L rows. destruct (table_state title count adds) as [St [Sr Ss]]. fold rows in Sr, Ss.
  set (t := table_of_adds title count adds) in *.
  assert (Hrows : forall r, In r rows -> Forall cell_ok (fst r)).
  { apply numbered_ok; [exact Ha|]. change (2^64) with 18446744073709551616. change (2^63) with 9223372036854775808 in L. lia. }
  assert (Hall : Forall (Forall cell_ok) (title :: map fst rows)).
  { constructor; [exact Ht|]. apply Forall_forall. intros r Hr. apply in_map_iff in Hr. destruct Hr as [x [<- Hx]]. apply Hrows. exact Hx. }
  pose proof (rows_row_ok _ Hall) as Hrow.
  set (ws := fold_left wd (map fst rows) (map ds title)).
  assert (W : widths_for (title :: map fst rows) ws).
  { change (title :: map fst rows) with ([title] ++ map fst rows). apply widths_all. apply widths_title. }
  pose proof (widths_small _ _ Hall W) as Wsmall.
  assert (E : forall k : list N -> out bytes, obind (sizes (tTitle t)) (fun ws => obind (widenRows ws (tRows t)) k) = k ws).
  { intro k. rewrite St, Sr. rewrite sizes_val by (inversion Hrow; assumption). cbn [obind].
    rewrite widenRows_val by (inversion Hrow; assumption). reflexivity. }
  exists ws. split; [apply widths_columns; assumption|]. unfold print. rewrite E. split.
  - intros ->. reflexivity.
  - intros Hne. destruct (line_print ws Border Wsmall I) as [tb [Tb Eb]]. cbv iota in Eb.
    assert (T : exists tt, lines_text ws (match title with [] => [] | _ => [Cells title] end) tt
              /\ (match tTitle t with [] => Val [] | _ => printRow ws (tTitle t) 32 124 end) = Val (joined tt)).
    { rewrite St. destruct title as [|c title']; [exists []; split; [constructor|reflexivity]|].
      destruct (line_print ws (Cells (c :: title')) Wsmall) as [tr [Tr Er]].
      { split; [exact Ht|]. eapply fits_of; [exact W|left; reflexivity]. }
      exists [tr]. split; [constructor; [exact Tr|constructor]|]. rewrite Er. unfold joined. cbn [flat_map]. rewrite app_nil_r. reflexivity. }
    destruct T as [tt [Tt Et]].
    destruct (rows_print t ws rows 0 Wsmall) as [tr [Tr Er]].
    { apply Forall_forall. intros r Hr. split; [apply Hrows; exact Hr|]. eapply fits_of; [exact W|right; apply in_map; exact Hr]. }
    { intros k Hk. rewrite N.add_0_l, Ss, Nat2N.id. reflexivity. }
    exists ([tb] ++ tt ++ tr ++ [tb]). split.
    + unfold table_lines. apply Forall2_app; [constructor; [exact Tb|constructor]|]. apply Forall2_app; [exact Tt|].
      apply Forall2_app; [exact Tr|constructor; [exact Tb|constructor]].
    + rewrite Sr. rewrite Eb. cbn [obind]. rewrite Et. cbn [obind]. rewrite Er. cbn [obind].
      change (flat_map (fun t0 => t0 ++ [10])) with joined. rewrite !joined_app.
      assert (J : joined [tb] = tb ++ [10]) by (unfold joined; cbn [flat_map]; apply app_nil_r). rewrite J.
      destruct ws; [congruence|reflexivity].
Qed.

(** ** Alignment *)
Lemma sp_ok : forall n, bytes_ok (spaces n) /\ no_nul (spaces n) /\ boundary (spaces n) /\ displaySize (spaces n) = Val n.
Proof.
  intro n. unfold spaces. destruct (repeat_ok 32 (N.to_nat n) ltac:(lia)) as [A [B C]]. repeat split; try assumption.
  rewrite size_repeat by lia. rewrite N2Nat.id. reflexivity.
Qed.
Lemma da_ok : forall n, bytes_ok (dashes n) /\ no_nul (dashes n) /\ boundary (dashes n) /\ displaySize (dashes n) = Val n.
Proof.
  intro n. unfold dashes. destruct (repeat_ok 45 (N.to_nat n) ltac:(lia)) as [A [B C]]. repeat split; try assumption.
  rewrite size_repeat by lia. rewrite N2Nat.id. reflexivity.
Qed.
Definition good (s : bytes) (n : N) : Prop := bytes_ok s /\ no_nul s /\ displaySize s = Val n.
Lemma good_app : forall a b x y, good a x -> good b y -> boundary b -> good (a ++ b) (x + y).
Proof.
  intros a b x y [A1 [A2 A3]] [B1 [B2 B3]] Hb. split; [apply bytes_ok_app; auto|]. split; [apply no_nul_app; auto|].
  apply size_app; assumption.
Qed.
Lemma good_spaces : forall n, good (spaces n) n.
Proof. intro n. destruct (sp_ok n) as [A [B [_ D]]]. split; [exact A|split; [exact B|exact D]]. Qed.
Lemma good_dashes : forall n, good (dashes n) n.
Proof. intro n. destruct (da_ok n) as [A [B [_ D]]]. split; [exact A|split; [exact B|exact D]]. Qed.
Ltac good_lit := split; [vm_compute; repeat constructor|split; [vm_compute; repeat constructor; discriminate|vm_compute; reflexivity]].
Lemma good_bar : good (b_ "| ") 2. Proof. good_lit. Qed.
Lemma good_space : good (b_ " ") 1. Proof. good_lit. Qed.
Lemma good_dash : good (b_ "-") 1. Proof. good_lit. Qed.
Lemma good_plus : good (b_ "+-") 2. Proof. good_lit. Qed.
Lemma good_end : good (b_ "|") 1. Proof. good_lit. Qed.
Lemma good_pend : good (b_ "+") 1. Proof. good_lit. Qed.
Lemma boundary_app : forall a b, boundary a -> boundary b -> boundary (a ++ b).
Proof. intros [|x a] b Ha Hb; [exact Hb|exact Ha]. Qed.
Lemma boundary_spaces : forall n, boundary (spaces n). Proof. intro n. apply (sp_ok n). Qed.
Lemma boundary_dashes : forall n, boundary (dashes n). Proof. intro n. apply (da_ok n). Qed.
Lemma boundary_lit : boundary (b_ " ") /\ boundary (b_ "-").
Proof. split; cbn; lia. Qed.
Lemma cells_boundary : forall ws r t, cells_text ws r t -> boundary t.
Proof. intros ws r t H. destruct H; cbn; lia. Qed.
Lemma border_boundary : forall ws t, border_text ws t -> boundary t.
Proof. intros ws t H. destruct H; cbn; lia. Qed.
Lemma good_ascii : forall x s n, 0 < x < 128 -> good s n -> good (x :: s) (1 + n).
Proof.
  intros x s n Hx [G1 [G2 G3]]. assert (K : bytes_ok (x :: s)) by (constructor; [lia|exact G1]). assert (M : no_nul (x :: s)) by (constructor; [lia|exact G2]).
  split; [exact K|]. split; [exact M|]. rewrite displaySize_decode in * by assumption. injection G3 as G3. f_equal.
  rewrite upto_nul_id in * by assumption. rewrite decode_cons. unfold dec1. replace (x <? 128) with true by lia. cbn [fst snd displaySizeCodes].
  rewrite G3. f_equal. pose proof (codeSize_columns x ltac:(lia)) as C. eapply columns_fun; [exact C|]. right. right. repeat split.
  - intro K2. apply ns_large in K2. lia.
  - intro K2. apply wide_large in K2. lia.
Qed.
Lemma good_bar_app : forall s n, good s n -> good (b_ "| " ++ s) (2 + n).
Proof.
  intros s n G. change (b_ "| " ++ s) with (124 :: 32 :: s). replace (2 + n) with (1 + (1 + n)) by lia.
  apply good_ascii; [lia|]. apply good_ascii; [lia|]. exact G.
Qed.
Lemma cells_good : forall ws r t, cells_text ws r t -> Forall cell_ok r -> good t (table_width ws).
Proof.
  intros ws r t H. induction H as [r|w ws c r d t Hd L H IH|w ws t H IH]; intro Hr.
  - exact good_end.
  - apply Forall_cons_iff in Hr. destruct Hr as [Hc Hr]. specialize (IH Hr). pose proof (cells_boundary _ _ _ H) as Bt.
    cbn [table_width]. replace (w + 3 + table_width ws) with (2 + (d + ((w - d) + (1 + table_width ws)))) by lia.
    (* the byte after "| " may be in the middle of a character: add the cell to the bar first *)
    assert (G : good (c ++ spaces (w - d) ++ b_ " " ++ t) (d + ((w - d) + (1 + table_width ws)))).
    { apply good_app; [split; [apply Hc|split; [apply Hc|exact Hd]]| |apply boundary_app; [apply boundary_spaces|cbn; lia]].
      apply good_app; [apply good_spaces| |cbn; lia]. apply good_app; [exact good_space|exact IH|exact Bt]. }
    apply good_bar_app. exact G.
  - pose proof (cells_boundary _ _ _ H) as Bt. cbn [table_width].
    replace (w + 3 + table_width ws) with (2 + (w + (1 + table_width ws))) by lia.
    apply good_app; [exact good_bar| |apply boundary_app; [apply boundary_spaces|cbn; lia]].
    apply good_app; [apply good_spaces| |cbn; lia]. apply good_app; [exact good_space|apply IH; exact Hr|exact Bt].
Qed.
Lemma border_good : forall ws t, border_text ws t -> good t (table_width ws).
Proof.
  intros ws t H. induction H as [|w ws t H IH]; [exact good_pend|]. pose proof (border_boundary _ _ H) as Bt. cbn [table_width].
  replace (w + 3 + table_width ws) with (2 + (w + (1 + table_width ws))) by lia.
  apply good_app; [exact good_plus| |apply boundary_app; [apply boundary_dashes|cbn; lia]].
  apply good_app; [apply good_dashes| |cbn; lia]. apply good_app; [exact good_dash|exact IH|exact Bt].
Qed.
Lemma cell_position : forall ws r t, cells_text ws r t -> Forall cell_ok r ->
  forall i c, nth_error r i = Some c -> (i < List.length ws)%nat ->
  exists pre post, t = pre ++ c ++ b_ " " ++ post /\ displaySize pre = Val (cell_start ws i).
Proof.
  intros ws r t H. induction H as [r|w ws c r d t Hd L H IH|w ws t H IH]; intros Hr i x Hx Hi.
  - cbn in Hi. lia.
  - apply Forall_cons_iff in Hr. destruct Hr as [Hc Hr]. destruct i as [|i]; cbn [nth_error] in Hx.
    + injection Hx as <-. exists (b_ "| "). unfold cell_start. cbn [firstn table_width].
      destruct (N.to_nat (w - d)) as [|k] eqn:E; unfold spaces; rewrite E; cbn [repeat].
      * exists t. split; [reflexivity|]. apply good_bar.
      * exists (repeat 32 k ++ b_ " " ++ t). split; [reflexivity|]. apply good_bar.
    + cbn [List.length] in Hi. destruct (IH Hr i x Hx ltac:(lia)) as [pre [post [E D]]].
      exists (b_ "| " ++ c ++ spaces (w - d) ++ b_ " " ++ pre), post. split; [rewrite E, <- !app_assoc; reflexivity|].
      assert (G : good pre (cell_start ws i)).
      { destruct (cells_good _ _ _ H Hr) as [T1 [T2 _]]. rewrite E in T1, T2. apply bytes_ok_app in T1. apply no_nul_app in T2.
        split; [apply T1|]. split; [apply T2|exact D]. }
      assert (B : boundary pre).
      { pose proof (cells_boundary _ _ _ H) as Bt. rewrite E in Bt. destruct pre; [exact I|exact Bt]. }
      assert (G2 : good (b_ "| " ++ c ++ spaces (w - d) ++ b_ " " ++ pre) (2 + (d + ((w - d) + (1 + cell_start ws i))))).
      { apply good_bar_app. apply good_app; [split; [apply Hc|split; [apply Hc|exact Hd]]| |apply boundary_app; [apply boundary_spaces|cbn; lia]].
        apply good_app; [apply good_spaces| |cbn; lia]. apply good_app; [exact good_space|exact G|exact B]. }
      destruct G2 as [_ [_ G2]]. rewrite G2. f_equal. unfold cell_start. cbn [firstn table_width]. lia.
  - destruct i; discriminate.
Qed.

(** ** Markdown *)
Lemma escape_unescape : forall s, unescape (escape s) = s.
Proof.
  assert (A : forall s c, c <> 92 \/ (match s with x :: _ => x <> 124 | [] => True end) -> unescape (c :: s) = c :: unescape s).
  { intros [|x s] c H; [reflexivity|]. cbn [unescape]. destruct (c =? 92) eqn:E1; destruct (x =? 124) eqn:E2; cbn [andb]; try reflexivity. lia. }
  induction s as [|c s IH]; [reflexivity|]. unfold escape. cbn [flat_map]. fold (escape s). destruct (c =? 124) eqn:E.
  - apply N.eqb_eq in E. subst c. cbn [app].
    change (unescape (92 :: 124 :: escape s)) with (unescape (124 :: escape s)). rewrite A by lia. rewrite IH. reflexivity.
  - cbn [app]. rewrite A; [rewrite IH; reflexivity|]. right. destruct s as [|x s]; [exact I|].
    unfold escape. cbn [flat_map]. destruct (x =? 124) eqn:E2; cbn [app]; lia.
Qed.
Lemma split_escaped : forall s rest cur, pipe_split false cur (escape s ++ 32 :: 124 :: rest)
  = (cur ++ escape s ++ [32]) :: pipe_split false [] rest.
Proof.
  assert (K : forall s rest cur b, (b = true -> match s with 124 :: _ => False | _ => True end \/ True) ->
     pipe_split b cur (escape s ++ 32 :: 124 :: rest) = (cur ++ escape s ++ [32]) :: pipe_split false [] rest).
  { induction s as [|c s IH]; intros rest cur b Hb.
    - cbn [escape flat_map app pipe_split]. change (32 =? 124) with false. change (32 =? 92) with false. change (124 =? 124) with true. cbn [andb negb]. reflexivity.
    - unfold escape. cbn [flat_map]. fold (escape s). destruct (c =? 124) eqn:E.
      + cbn [app pipe_split]. change (92 =? 124) with false. change (92 =? 92) with true. change (124 =? 124) with true.
        change (124 =? 92) with false. cbn [andb negb].
        rewrite IH by auto. f_equal. rewrite <- !app_assoc. reflexivity.
      + cbn [app pipe_split]. rewrite E. cbn [andb]. rewrite IH by auto. f_equal. rewrite <- !app_assoc. reflexivity. }
  intros. apply K. auto.
Qed.
Lemma bold_escape : forall s, bold (escape s) = escape (bold s).
Proof.
  intros [|c s]; [reflexivity|]. unfold bold. 
  assert (E : exists x y, escape (c :: s) = x :: y).
  { unfold escape. cbn [flat_map]. destruct (c =? 124); cbn [app]; eauto. }
  destruct E as [x [y E]]. rewrite E, <- E. unfold escape. rewrite !flat_map_app. reflexivity.
Qed.
Lemma mcells_parts : forall n section r rest, (List.length r <= n)%nat ->
  exists parts, pipe_split false [] (tl (markdownCells false section n r ++ 124 :: rest)) = parts ++ pipe_split false [] rest
    /\ Forall2 shows parts (map (if section then bold else fun c => c) (padded n r))
    /\ hd 0 (markdownCells false section n r ++ 124 :: rest) = 124.
Proof.
  induction n as [|n IH]; intros section r rest L.
  - destruct r as [|c r]; [|cbn in L; lia]. exists []. cbn. split; [reflexivity|]. split; [|reflexivity]. destruct section; constructor.
  - destruct (IH section (tl r) rest) as [parts [E [F H]]]; [destruct r; cbn in *; lia|].
    set (c := match r with c :: _ => c | [] => [] end). set (shown := if section then bold c else c).
    assert (X : markdownCells false section (S n) r = b_ "| " ++ escape shown ++ [32] ++ markdownCells false section n (tl r)).
    { cbn [markdownCells app]. f_equal. f_equal. f_equal. unfold shown, c. destruct r as [|c0 r]; [destruct section; reflexivity|].
      cbv zeta. destruct section; [rewrite <- bold_escape; unfold bold|]; destruct (escape c0); reflexivity. }
    exists ((32 :: escape shown ++ [32]) :: parts). rewrite X. split; [|split].
    + rewrite <- !app_assoc. change (b_ "| ") with [124; 32]. cbn [app tl pipe_split]. change (32 =? 124) with false. change (32 =? 92) with false. cbn [andb app].
      remember (markdownCells false section n (tl r) ++ 124 :: rest) as Q eqn:EQ. destruct Q as [|q Q]; [cbn in H; lia|]. cbn [hd] in H. subst q.
      rewrite split_escaped. cbn [app]. f_equal. rewrite <- E. reflexivity.
    + replace (padded (S n) r) with (c :: padded n (tl r)).
      * cbn [map]. constructor; [|exact F]. exists (escape shown). split; [reflexivity|]. rewrite escape_unescape. unfold shown. destruct section; reflexivity.
      * unfold padded, c. destruct r as [|c0 r]; cbn [tl List.length app Nat.sub]; [rewrite Nat.sub_0_r; reflexivity|reflexivity].
    + reflexivity.
Qed.
Lemma mline : forall n section r, (List.length r <= n)%nat -> exists t, markdownRow false section n r = t ++ [10]
  /\ markdown_line t (map (if section then bold else fun c => c) (padded n r)).
Proof.
  intros n section r L. exists (markdownCells false section n r ++ [124]). split; [unfold markdownRow; rewrite <- app_assoc; reflexivity|].
  destruct (mcells_parts n section r [] L) as [parts [E [F H]]]. exists parts. split; [|exact F].
  remember (markdownCells false section n r ++ [124]) as Q eqn:EQ. destruct Q as [|q Q]; [cbn in H; lia|]. cbn [hd tl] in *. subst q.
  cbn [pipe_split]. change (124 =? 124) with true. cbn [andb negb]. rewrite E. reflexivity.
Qed.
Lemma mheader_cells : forall n rest, exists parts, pipe_split false [] (tl (markdownCells true false n [] ++ 124 :: rest)) = parts ++ pipe_split false [] rest
    /\ Forall2 shows parts (repeat (b_ "---") n) /\ hd 0 (markdownCells true false n [] ++ 124 :: rest) = 124.
Proof.
  induction n as [|n IH]; intro rest; [exists []; repeat split; constructor|].
  destruct (IH rest) as [parts [E [F H]]]. exists (b_ " --- " :: parts). split; [|split; [|reflexivity]].
  - cbn [markdownCells tl]. rewrite <- !app_assoc. remember (markdownCells true false n [] ++ 124 :: rest) as Q eqn:EQ. destruct Q as [|q Q]; [cbn in H; lia|].
    cbn [hd tl] in *. subst q. change (tl (b_ "| " ++ b_ "---" ++ [] ++ [32] ++ 124 :: Q)) with (b_ " --- " ++ 124 :: Q).
    change (pipe_split false [] (b_ " --- " ++ 124 :: Q)) with (b_ " --- " :: pipe_split false [] Q). rewrite E. reflexivity.
  - cbn [repeat]. constructor; [|exact F]. exists (b_ "---"). split; reflexivity.
Qed.
Lemma mheader : forall n, exists t, markdownRow true false n [] = t ++ [10] /\ markdown_line t (repeat (b_ "---") n).
Proof.
  intro n. exists (markdownCells true false n [] ++ [124]). split; [unfold markdownRow; rewrite <- app_assoc; reflexivity|].
  destruct (mheader_cells n []) as [parts [E [F H]]]. exists parts. split; [|exact F].
  remember (markdownCells true false n [] ++ [124]) as Q eqn:EQ. destruct Q as [|q Q]; [cbn in H; lia|]. cbn [hd tl] in *. subst q.
  cbn [pipe_split]. change (124 =? 124) with true. cbn [andb negb]. rewrite E. reflexivity.
Qed.
Lemma max_fold : forall rows m, let n := fold_left (fun m (r : list bytes) => Nat.max m (List.length r)) rows m in
  (m <= n)%nat /\ (forall r, In r rows -> (List.length r <= n)%nat) /\ (n = m \/ exists r, In r rows /\ List.length r = n).
Proof.
  induction rows as [|r rows IH]; intro m; cbn [fold_left]; cbv zeta.
  - split; [lia|]. split; [intros r []|left; reflexivity].
  - destruct (IH (Nat.max m (List.length r))) as [A [B C]]. split; [lia|]. split.
    + intros q [<-|Hq]; [lia|apply B; exact Hq].
    + destruct C as [C|[q [Hq C]]]; [|right; exists q; split; [right; exact Hq|exact C]].
      destruct (Nat.max_spec m (List.length r)) as [[_ K]|[_ K]]; [right; exists r; split; [left; reflexivity|lia]|left; lia].
Qed.
Lemma mrows : forall t n rows i, (forall r, In r rows -> (List.length (fst r) <= n)%nat) ->
  (forall k, (k < List.length rows)%nat -> hasSection t (i + N.of_nat k) = nth k (map snd rows) false) ->
  exists ts, markdownRows t n i (map fst rows) = joined ts
   /\ Forall2 (fun s r => markdown_line s (map (if snd r : bool then bold else fun c => c) (padded n (fst r)))) ts rows.
Proof.
  intros t n. induction rows as [|[r s] rows IH]; intros i L Hs.
  - exists []. split; [reflexivity|constructor].
  - cbn [map fst markdownRows]. pose proof (Hs 0%nat ltac:(cbn; lia)) as H0. rewrite N.add_0_r in H0. cbn [map snd nth] in H0. rewrite H0.
    destruct (mline n s r) as [x [Ex Fx]]; [apply (L (r, s)); left; reflexivity|].
    destruct (IH (i + 1)) as [ts [Et Ft]]; [intros q Hq; apply L; right; exact Hq| |].
    { intros k Hk. replace (i + 1 + N.of_nat k) with (i + N.of_nat (S k)) by lia. rewrite Hs by (cbn; lia). reflexivity. }
    exists (x :: ts). split; [rewrite Ex, Et; reflexivity|]. constructor; [exact Fx|exact Ft].
Qed.
Lemma markdown_lines : forall title count adds, let rows := numbered_rows count 1 adds in
  exists n, (forall r, In r (title :: map fst rows) -> (List.length r <= n)%nat)
    /\ (exists r, In r (title :: map fst rows) /\ List.length r = n)
    /\ (n = 0%nat -> printMarkdown (table_of_adds title count adds) = [])
    /\ (n <> 0%nat -> exists head rule body,
          printMarkdown (table_of_adds title count adds) = flat_map (fun t => t ++ [10]) (head :: rule :: body)
          /\ markdown_line head (padded n title) /\ markdown_line rule (repeat (b_ "---") n)
          /\ Forall2 (fun s r => markdown_line s (map (if snd r : bool then bold else fun c => c) (padded n (fst r)))) body rows).
Proof.
  intros title count adds rows. destruct (table_state title count adds) as [St [Sr Ss]]. fold rows in Sr, Ss.
  set (t := table_of_adds title count adds) in *. exists (maxColumns t).
  destruct (max_fold (tRows t) (List.length (tTitle t))) as [A [B C]]. fold (maxColumns t) in A, B, C. rewrite Sr in B, C. rewrite St in A, C.
  split; [intros r [<-|Hr]; [exact A|apply B; exact Hr]|]. split.
  { destruct C as [C|[r [Hr C]]]; [exists title; split; [left; reflexivity|lia]|exists r; split; [right; exact Hr|exact C]]. }
  unfold printMarkdown. cbv zeta. split; [intros ->; reflexivity|]. intro Hn.
  destruct (mline (maxColumns t) false title A) as [h [Eh Fh]]. destruct (mheader (maxColumns t)) as [u [Eu Fu]].
  destruct (mrows t (maxColumns t) rows 0) as [ts [Et Ft]].
  { intros r Hr. apply B. apply in_map. exact Hr. }
  { intros k Hk. rewrite N.add_0_l, Ss, Nat2N.id. reflexivity. }
  exists h, u, ts. split; [|split; [rewrite map_id in Fh; exact Fh|split; [exact Fu|exact Ft]]].
  rewrite St, Sr, Eh, Eu, Et. destruct (maxColumns t); [congruence|]. cbn [flat_map]. unfold joined. reflexivity.
Qed.
