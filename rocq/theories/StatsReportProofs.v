(** Proofs about the whole report of the program kanjiStats and its command line. *)
From Verif Require Import BaseFacts Utf8Proofs Utf8CharProofs StringProofs ColumnFileLemmas ArgsProofs LaunchProofs LaunchLoop CountProofs StatsProofs
  StatsReportSpec StatsReportPercent StatsReportCount StatsReportRows.
From Verif Require Import StatsReportSpec.
Open Scope N_scope.
Arguments N.mul : simpl never.
Arguments N.add : simpl never.
Arguments N.sub : simpl never.

(** ** Decimal numbers *)
Lemma digit_list : forall s, Forall is_digit s -> exists ds, map digit_value s = map Some ds /\ Forall (fun d => d < 10) ds
  /\ positional 10 ds = decimal s /\ List.length ds = List.length s /\ ds = map (fun c => c - 48) s.
Proof.
  intros s H. exists (map (fun c => c - 48) s). split; [|split; [|split; [|split; [apply map_length|reflexivity]]]].
  - rewrite map_map. apply map_ext_in. intros c Hc. rewrite Forall_forall in H. specialize (H c Hc). unfold is_digit in H. unfold digit_value.
    replace ((48 <=? c) && (c <=? 57)) with true by lia. reflexivity.
  - apply Forall_map. eapply Forall_impl; [|exact H]. unfold is_digit. cbn. intros. lia.
  - unfold positional, decimal. generalize 0. clear. induction s as [|c s IH]; intro a; [reflexivity|]. cbn [map fold_left]. apply IH.
Qed.
Lemma to_string_short : forall p x, (0 < p)%nat -> x < 10 ^ N.of_nat p -> (List.length (to_string x) <= p)%nat.
Proof.
  intros p x Hp Hx. destruct (N.eq_dec x 0) as [->|Hn]; [change (List.length (to_string 0)) with 1%nat; lia|].
  destruct (to_string_head x Hn) as [c [r [E Hc]]].
  destruct (digit_list (to_string x) (to_string_digits x)) as [ds (D1 & D2 & D3 & D4 & D5)]. rewrite to_string_decimal in D3.
  rewrite E in *. cbn [map] in D5. subst ds.
  assert (Hc' : c - 48 <> 0).
  { pose proof (to_string_digits x) as F. rewrite E in F. inversion F as [|? ? F1 _]; subst. unfold is_digit in F1. lia. }
  pose proof (positional_lower 10 (c - 48) (map (fun c => c - 48) r) Hc') as L. rewrite D3 in L.
  unfold len in L. rewrite map_length in L. cbn [List.length].
  destruct (Nat.le_gt_cases (S (List.length r)) p) as [|G]; [assumption|]. exfalso.
  assert (10 ^ N.of_nat p <= 10 ^ N.of_nat (List.length r)) by (apply N.pow_le_mono_r; lia). lia.
Qed.
Lemma pad_denotes : forall k s x, denotes 10 s x -> denotes 10 (repeat 48 k ++ s) x.
Proof.
  intros k s x [ds (H1 & H2 & H3 & H4)]. exists (repeat 0 k ++ ds). split; [|split; [|split]].
  - rewrite !map_app, H1. f_equal. clear. induction k as [|k IH]; [reflexivity|]. cbn [repeat map]. rewrite IH. reflexivity.
  - apply Forall_app. split; [|exact H2]. apply Forall_forall. intros d Hd. apply repeat_spec in Hd. lia.
  - destruct s; [congruence|]. destruct k; discriminate.
  - rewrite positional_zeros. exact H4.
Qed.
Lemma to_string_denotes : forall x, denotes 10 (to_string x) x.
Proof.
  intro x. destruct (digit_list (to_string x) (to_string_digits x)) as [ds (D1 & D2 & D3 & _)]. exists ds.
  split; [exact D1|]. split; [exact D2|]. split; [apply to_string_nonempty|]. rewrite D3. apply to_string_decimal.
Qed.
Lemma fixed_shows : forall p x, (0 < p)%nat -> shows p (roundDiv (fNum x * 10 ^ N.of_nat p) (fDen x)) (putFixed p x).
Proof.
  intros p x Hp. unfold putFixed. cbv zeta. set (v := roundDiv _ _).
  assert (Hm : v mod 10 ^ N.of_nat p < 10 ^ N.of_nat p) by (apply N.mod_lt; apply N.pow_nonzero; lia).
  pose proof (to_string_short p _ Hp Hm) as L. eexists. split; [reflexivity|]. split.
  - rewrite app_length, repeat_length. lia.
  - apply pad_denotes. apply to_string_denotes.
Qed.
Lemma percent_shows : forall d a t, (0 < d)%nat -> 0 < t -> a <= t -> t * 10 ^ N.of_nat d < 2 ^ 46 ->
  exists v, nearest_percent d a t v /\ shows d v (percent d a t).
Proof.
  intros d a t Hd Ht Ha Hb.
  assert (P1 : 1 <= 10 ^ N.of_nat d) by (pose proof (N.pow_nonzero 10 (N.of_nat d)); lia).
  assert (Ht' : t < 2 ^ 46) by (change (2 ^ 46) with 70368744177664 in *; nia).
  pose proof (percent_nearest (10 ^ N.of_nat d) a t Ht Ha Ht' Hb) as [_ [H1 H2]].
  eexists. split; [|apply fixed_shows; exact Hd]. set (v := roundDiv _ _) in *. unfold nearest_percent.
  replace (10 ^ Z.of_nat d)%Z with (Z.of_N (10 ^ N.of_nat d)) by (rewrite N2Z.inj_pow, nat_N_Z; reflexivity).
  set (P := 10 ^ N.of_nat d) in *. nia.
Qed.
Lemma percent_all : forall t, 0 < t -> t * 100 < 2 ^ 46 -> percent 2 t t = b_ "100.00".
Proof.
  intros t Ht Hb. assert (Ht' : t < 2 ^ 46) by (change (2 ^ 46) with 70368744177664 in *; lia).
  pose proof (percent_nearest 100 t t Ht ltac:(lia) Ht' Hb) as [_ [H1 H2]]. unfold percent, putFixed. cbv zeta.
  change (10 ^ N.of_nat 2) with 100. set (v := roundDiv _ _) in *. assert (E : v = 10000) by nia. rewrite E. vm_compute. reflexivity.
Qed.
Lemma percent_none : forall t, 0 < t -> t * 100 < 2 ^ 46 -> percent 2 0 t = b_ "0.00".
Proof.
  intros t Ht Hb. assert (Ht' : t < 2 ^ 46) by (change (2 ^ 46) with 70368744177664 in *; lia).
  pose proof (percent_nearest 100 0 t Ht ltac:(lia) Ht' Hb) as [_ [H1 H2]]. unfold percent, putFixed. cbv zeta.
  change (10 ^ N.of_nat 2) with 100. set (v := roundDiv _ _) in *. assert (E : v = 0) by nia. rewrite E. vm_compute. reflexivity.
Qed.
(** the numbers shown for parts of a whole add up, up to half a unit for each *)
Lemma percent_sum : forall d t l vs, 0 < t -> Forall2 (fun a v => nearest_percent d a t v) l vs -> total l = t ->
  (2 * Z.abs (Z.of_N (total vs) - 100 * 10 ^ Z.of_nat d) <= Z.of_nat (List.length l))%Z.
Proof.
  intros d t l vs Ht F E.
  assert (H : (2 * Z.abs (100 * 10 ^ Z.of_nat d * Z.of_N (total l) - Z.of_N (total vs) * Z.of_N t) <= Z.of_nat (List.length l) * Z.of_N t)%Z).
  { clear E. induction F as [|a v l vs H F IH]; [change (total []) with 0; change (Z.of_N 0) with 0%Z; rewrite Z.mul_0_r; cbn [List.length]; lia|]. unfold nearest_percent in H. cbn [total fold_right List.length].
    change (fold_right N.add 0 l) with (total l). change (fold_right N.add 0 vs) with (total vs).
    set (P := (100 * 10 ^ Z.of_nat d)%Z) in *. rewrite !N2Z.inj_add. rewrite Nat2Z.inj_succ. nia. }
  rewrite E in H. set (P := (100 * 10 ^ Z.of_nat d)%Z) in *.
  assert (G : (2 * Z.abs ((Z.of_N (total vs) - P) * Z.of_N t) <= Z.of_nat (List.length l) * Z.of_N t)%Z) by lia.
  rewrite Z.abs_mul in G. nia.
Qed.

(** ** Paths *)
Lemma slash_in : forall l, existsb (N.eqb 47) l = true <-> In 47 l.
Proof. intro l. rewrite existsb_exists. split; [intros [x [H E]]; apply N.eqb_eq in E; subst; exact H|intro H; exists 47; split; [exact H|reflexivity]]. Qed.
Lemma filename_spec : forall p, counted_name p (filename p).
Proof.
  induction p as [|c p IH]; [split; [intros []|left; reflexivity]|]. cbn [filename].
  destruct (existsb (N.eqb 47) (c :: p)) eqn:E.
  - destruct IH as [H1 H2]. split; [exact H1|]. right. destruct H2 as [H2|[a H2]].
    + assert (c = 47).
      { apply slash_in in E. destruct E as [E|E]; [exact E|]. exfalso. rewrite H2 in E. exact (H1 E). }
      subst c. exists []. cbn [app]. f_equal. exact H2.
    + exists (c :: a). cbn [app]. f_equal. exact H2.
  - split; [|left; reflexivity]. intro H. apply slash_in in H. congruence.
Qed.
Lemma drop_spec : forall p, exists z, p = z ++ dropSlashes p /\ Forall (eq 47) z /\ match dropSlashes p with [] => True | c :: _ => c <> 47 end.
Proof.
  induction p as [|c p IH]; [exists []; repeat split; constructor|]. cbn [dropSlashes]. destruct (c =? 47) eqn:E.
  - destruct IH as [z (H1 & H2 & H3)]. exists (c :: z). split; [cbn [app]; f_equal; exact H1|]. split; [|exact H3]. constructor; [lia|exact H2].
  - exists []. split; [reflexivity|]. split; [constructor|]. lia.
Qed.
Lemma shown_ok : forall p, shown_name p (shownOf p).
Proof.
  intro p. unfold shownOf. destruct (filename_spec p) as [F1 F2]. destruct (filename p) as [|x n] eqn:E.
  - unfold parentName. destruct (drop_spec (rev p)) as [z (D1 & D2 & D3)]. set (q := dropSlashes (rev p)) in *.
    assert (Ep : p = rev q ++ rev z) by (rewrite <- (rev_involutive p), D1, rev_app_distr; reflexivity).
    assert (Hz : Forall (eq 47) (rev z)).
    { apply Forall_forall. intros y Hy. apply in_rev in Hy. rewrite Forall_forall in D2. exact (D2 y Hy). }
    destruct (filename_spec (rev q)) as [G1 G2]. split; [exact G1|].
    assert (Hn : filename (rev q) = [] -> rev q = []).
    { intro N. rewrite N in G2. destruct G2 as [G2|[a G2]]; [exact G2|]. exfalso. cbn [app] in G2.
      assert (Q : q = 47 :: rev a) by (rewrite <- (rev_involutive q), G2, rev_app_distr; reflexivity). rewrite Q in D3. congruence. }
    destruct G2 as [G2|[a G2]].
    + exists [], (rev z). split; [cbn [app]; rewrite <- G2; exact Ep|]. split; [exact Hz|]. split; [left; reflexivity|].
      intro N. rewrite Ep, (Hn N). exact Hz.
    + exists (a ++ [47]), (rev z). split; [rewrite Ep, G2 at 1; rewrite <- !app_assoc; reflexivity|]. split; [exact Hz|].
      split; [right; exists a; reflexivity|]. intro N. rewrite Ep, (Hn N). exact Hz.
  - split; [exact F1|]. destruct F2 as [F2|[a F2]].
    + exists [], []. split; [rewrite app_nil_r; exact F2|]. split; [constructor|]. split; [left; reflexivity|discriminate].
    + exists (a ++ [47]), []. split; [rewrite app_nil_r, <- app_assoc; exact F2|]. split; [constructor|]. split; [right; exists a; reflexivity|discriminate].
Qed.
Lemma filename_ok : forall p, bytes_ok p -> bytes_ok (filename p).
Proof.
  intros p H. destruct (filename_spec p) as [_ [E|[a E]]]; [rewrite <- E; exact H|]. rewrite E in H. unfold bytes_ok in *.
  apply Forall_app in H. destruct H as [_ H]. apply Forall_app in H. tauto.
Qed.

(** ** The command line *)
Definition outcome (b v : bool) (files l : list bytes) : out Command :=
  match other_switch l with
  | Some a => if beq a (b_ "-h") then Val Help else Throw DomainError
  | None => Val (Count (b || has (b_ "-b") (switches l)) (v || has (b_ "-v") (switches l)) (files ++ file_names l))
  end.
Lemma option_starts : forall s, BlockModel.startsWith s (b_ "-") = option_like s.
Proof. intros [|c s]; [reflexivity|]. change (b_ "-") with [45]. cbn [BlockModel.startsWith option_like].
  destruct s; cbn [BlockModel.startsWith]; rewrite andb_true_r; apply N.eqb_sym. Qed.

Lemma outcome_file : forall a l b v files, option_like a = false -> outcome b v files (a :: l) = outcome b v (files ++ [a]) l.
Proof.
  intros a l b v files H. assert (N : beq a (b_ "--") = false) by (apply beq_neq; intros ->; discriminate H).
  unfold outcome, other_switch, switches, file_names. cbn [before_end after_end]. rewrite N. cbn [filter]. rewrite H. cbn [negb].
  destruct (List.find _ _); [reflexivity|]. rewrite <- !app_assoc. reflexivity.
Qed.
Lemma outcome_end : forall l b v files, outcome b v files (b_ "--" :: l) = Val (Count b v (files ++ l)).
Proof.
  intros l b v files. unfold outcome, other_switch, switches, file_names. cbn [before_end after_end]. rewrite beq_refl.
  cbn [filter List.find app has existsb]. rewrite !orb_false_r. reflexivity.
Qed.
Lemma outcome_switch : forall a l b v files, option_like a = true -> beq a (b_ "--") = false ->
  outcome b v files (a :: l) =
    if beq a (b_ "-h") then Val Help
    else if beq a (b_ "-b") then outcome true v files l
    else if beq a (b_ "-v") then outcome b true files l
    else Throw DomainError.
Proof.
  intros a l b v files H N. unfold outcome at 1, other_switch at 1, switches, file_names. cbn [before_end after_end]. rewrite N. cbn [filter]. rewrite H. cbn [negb].
  cbn [List.find has existsb]. rewrite orb_false_r. fold (switches l). fold (file_names l).
  destruct (beq a (b_ "-h")) eqn:E1; [apply beq_eq in E1; subst a; reflexivity|].
  destruct (beq a (b_ "-b")) eqn:E2.
  - apply beq_eq in E2. subst a. cbn [orb negb]. unfold outcome, other_switch. destruct (List.find _ _); [reflexivity|].
    change (beq (b_ "-v") (b_ "-b")) with false. change (beq (b_ "-b") (b_ "-b")) with true. cbn [orb]. rewrite !orb_true_r. reflexivity.
  - destruct (beq a (b_ "-v")) eqn:E3; cbn [orb negb]; [|rewrite E1; reflexivity].
    apply beq_eq in E3. subst a. unfold outcome, other_switch. destruct (List.find _ _); [reflexivity|].
    change (beq (b_ "-b") (b_ "-v")) with false. change (beq (b_ "-v") (b_ "-v")) with true. cbn [orb]. rewrite !orb_true_r. reflexivity.
Qed.
Lemma loop_outcome : forall fuel a i js, visitArgs fuel a i = Val js ->
  forall l, Forall2 (fun j s => argAt a j = Val s) js l -> forall b v files,
    argsLoop fuel a i b false v files = outcome b v files l
    /\ argsLoop fuel a i b true v files = Val (Count b v (files ++ l)).
Proof.
  induction fuel as [|f IH]; intros a i js V l F b v files; [discriminate|]. cbn [visitArgs] in V. cbn [argsLoop].
  destruct (i <? argc a).
  - destruct (nextArg f a i) as [next| | |] eqn:En; try discriminate. cbn [obind] in V.
    destruct (visitArgs f a next) as [r| | |] eqn:Er; try discriminate. cbn [obind] in V. inversion V; subst js.
    inversion F as [|j s r' l' A F']; subst. rewrite A. cbn [obind]. cbv zeta. cbn [negb andb]. rewrite option_starts.
    pose proof (IH a next r Er l' F') as IHn. split.
    + destruct (option_like s) eqn:O.
      * destruct (beq s (b_ "--")) eqn:N.
        -- apply beq_eq in N. subst s. rewrite outcome_end. change (beq (b_ "--") (b_ "-h")) with false.
           change (beq (b_ "--") (b_ "-b")) with false. change (beq (b_ "--") (b_ "-v")) with false. cbv iota. apply IHn.
        -- rewrite (outcome_switch s l' b v files O N). destruct (beq s (b_ "-h")); [reflexivity|].
           destruct (beq s (b_ "-b")); [apply IHn|]. destruct (beq s (b_ "-v")); [apply IHn|]. reflexivity.
      * rewrite (outcome_file s l' b v files O). apply IHn.
    + replace (files ++ s :: l') with ((files ++ [s]) ++ l') by (rewrite <- app_assoc; reflexivity). apply IHn.
  - inversion V; subst. inversion F; subst. unfold outcome. cbn. rewrite !orb_false_r, app_nil_r. split; reflexivity.
Qed.
Lemma read_outcome : forall fuel prog l, len (prog :: l) < 65535 -> (S (List.length (prog :: l)) < fuel)%nat ->
  readArgs fuel (argsOf (prog :: l)) = outcome false false [] (kept l).
Proof.
  intros fuel prog l Hl Hf. pose proof (allArgs_spec fuel prog l Hl Hf) as A. unfold readArgs. unfold allArgs in A.
  destruct (nextArg fuel (argsOf (prog :: l)) 0) as [i| | |]; try discriminate. cbn [obind] in *.
  pose proof (others_kept l [prog]) as K. change (len [prog]) with 1 in K.
  assert (F : Forall2 (fun j s => argAt (argsOf (prog :: l)) j = Val s) (others 1 l) (kept l)).
  { clear A. induction K as [|j s js ss H K IH]; constructor; [apply argAt_spec; exact H|exact IH]. }
  apply (loop_outcome fuel _ i _ A _ F).
Qed.

(** ** The whole report *)
Lemma combine_map : forall (A B C : Type) (f : A -> B) (g : A -> C) l, combine (map f l) (map g l) = map (fun x => (f x, g x)) l.
Proof. intros A B C f g. induction l as [|x l IH]; [reflexivity|]. cbn [map combine]. rewrite IH. reflexivity. Qed.
Lemma pick_one : forall (g : bytes * (bytes -> out bool) -> N) l r, NoDup (map fst l) -> In r l ->
  total (map (fun row => if is_row (fst r) row then g row else 0) l) = g r.
Proof.
  intros g l r. unfold is_row, row_name. induction l as [|x l IH]; intros Hn Hin; [destruct Hin|]. cbn [map] in *. inversion Hn as [|? ? H1 H2]; subst.
  cbn [total fold_right]. change (fold_right N.add 0 (map (fun row => if beq (fst row) (fst r) then g row else 0) l))
    with (total (map (fun row => if beq (fst row) (fst r) then g row else 0) l)).
  destruct Hin as [->|Hin].
  - rewrite beq_refl. replace (total _) with 0; [lia|]. symmetry. clear - H1.
    induction l as [|y l IH]; [reflexivity|]. cbn [map In] in *. 
    change (total ((if beq (fst y) (fst r) then g y else 0) :: map (fun row => if beq (fst row) (fst r) then g row else 0) l))
      with ((if beq (fst y) (fst r) then g y else 0) + total (map (fun row => if beq (fst row) (fst r) then g row else 0) l)).
    rewrite IH by tauto. replace (beq (fst y) (fst r)) with false; [reflexivity|]. symmetry. apply beq_neq. intuition congruence.
  - rewrite (IH H2 Hin). replace (beq (fst x) (fst r)) with false; [reflexivity|]. symmetry. apply beq_neq. intro E. apply H1. rewrite E.
    apply in_map. exact Hin.
Qed.
Lemma names_once : forall ucd, NoDup (map fst (rows ucd)).
Proof.
  intro ucd. change (map fst (rows ucd)) with [b_ "Hiragana"; b_ "Katakana"; b_ "Common Kanji"; b_ "Rare Kanji"; b_ "Non-UCD Kanji"; b_ "MB-Punctuation"; b_ "MB-Symbol"; b_ "MB-Letter"; b_ "Unrecognized"].
  match goal with |- NoDup ?l => replace l with (nodup bytes_eq_dec l) by (vm_compute; reflexivity) end. apply NoDup_nodup.
Qed.
Lemma total_line : forall n1 n2 n3 n4 n5 r,
  totalLine ((b_ "Hiragana", n1) :: (b_ "Katakana", n2) :: (b_ "Common Kanji", n3) :: (b_ "Rare Kanji", n4) :: (b_ "Non-UCD Kanji", n5) :: r)
  = let t := n1 + n2 + n3 + n4 + n5 in
    b_ ">>> Total Kana+Kanji: " ++ to_string t
    ++ (if t =? 0 then []
        else b_ " (" ++ (if n1 =? 0 then [] else b_ "Hiragana" ++ b_ ": " ++ percent 1 n1 t ++ b_ "%, ")
             ++ (if n2 =? 0 then [] else b_ "Katakana" ++ b_ ": " ++ percent 1 n2 t ++ b_ "%, ") ++ b_ "Kanji: "
             ++ percent 1 (n3 + n4 + n5) t ++ b_ "%)")
    ++ [10].
Proof.
  intros n1 n2 n3 n4 n5 r. cbv zeta. unfold totalLine. cbn [firstn IncludeInTotals fold_left snd percentLoop].
  replace (isKanjiRow (b_ "Hiragana")) with false by (vm_compute; reflexivity). replace (isKanjiRow (b_ "Katakana")) with false by (vm_compute; reflexivity).
  replace (isKanjiRow (b_ "Common Kanji")) with true by (vm_compute; reflexivity). replace (isKanjiRow (b_ "Rare Kanji")) with true by (vm_compute; reflexivity).
  replace (isKanjiRow (b_ "Non-UCD Kanji")) with true by (vm_compute; reflexivity).
  rewrite !N.add_0_l. unfold percent.
  destruct (n1 + n2 + n3 + n4 + n5 =? 0), (n1 =? 0), (n2 =? 0); cbn [negb]; rewrite <- ?app_assoc; reflexivity.
Qed.
Lemma last_ok : forall ucd I t name verbose,
  totalLine (map (fun row => (fst row, len (row_chars I t name verbose row))) (rows ucd)) = last_line ucd I t name verbose.
Proof.
  intros ucd I t name verbose. set (g := fun row => len (row_chars I t name verbose row)).
  assert (P : forall r, In r (rows ucd) -> chars_of ucd I t name verbose (fst r) = g r).
  { intros r Hr. exact (pick_one g (rows ucd) r (names_once ucd) Hr). }
  unfold last_line, share. unfold kana_kanji.
  destruct (rows ucd) as [|r1 [|r2 [|r3 [|r4 [|r5 rs]]]]] eqn:E; try discriminate.
  assert (N : fst r1 = b_ "Hiragana" /\ fst r2 = b_ "Katakana" /\ fst r3 = b_ "Common Kanji" /\ fst r4 = b_ "Rare Kanji" /\ fst r5 = b_ "Non-UCD Kanji").
  { unfold rows in E. inversion E. repeat split; reflexivity. }
  destruct N as (E1 & E2 & E3 & E4 & E5). clear E. cbn [map]. rewrite E1, E2, E3, E4, E5, total_line. cbv zeta.
  rewrite <- E1, <- E2, <- E3, <- E4, <- E5. rewrite !P by (cbn [In]; tauto). rewrite E1, E2. reflexivity.
Qed.

Section Whole.
  Variable mf : N.
  Hypothesis Hmf : mf < 65535.
  Variable ucd : bytes -> bool.
  Variable findByName : bytes -> option Entry.
  Variable order : list SCount -> list SCount.
  Hypothesis Horder : forall l, exists t, built (less mf) l t /\ order l = inorder t.
  Variable fs : bytes -> option node.
  Variable I : bytes -> list item.
  Hypothesis HI : reader I.
  Hypothesis Hfs : forall p n, fs p = Some n -> node_ok n.

  Lemma rows_printed : forall b v top n t, fs top = Some n -> resolve n = Some t -> bytes_ok (filename top) ->
    forall rs, (forall row, In row rs -> In row (rows ucd) /\ is_row (b_ "Hiragana") row = false) -> forall text,
    exists texts, printRows (map (run findByName order fs b v false top) rs) text
        = (text ++ concat texts, Val (map (fun row => len (row_chars I t (filename top) v row)) rs))
      /\ Forall2 (row_text mf findByName I t (filename top) b v) rs texts.
  Proof.
    intros b v top n t Hf Hr Hb. induction rs as [|row rs IH]; intros H text.
    - exists []. cbn [map printRows concat]. rewrite app_nil_r. split; [reflexivity|constructor].
    - destruct (H row (or_introl eq_refl)) as [Hin Hh].
      destruct (run_ok mf Hmf ucd findByName order Horder fs I HI b v row false top n t Hin Hf Hr (Hfs _ _ Hf) Hb) as [s [E Hs]].
      unfold replaced in E. rewrite Hh in E. cbn [andb app] in E.
      destruct (IH (fun r Hr => H r (or_intror Hr)) (text ++ s)) as [texts [E2 F]].
      exists (s :: texts). cbn [map printRows]. rewrite E. cbv iota beta. rewrite E2. cbn [obind concat]. rewrite <- app_assoc.
      split; [reflexivity|constructor; assumption].
  Qed.
  Lemma count_ok : forall b v top n t, fs top = Some n -> resolve n = Some t -> bytes_ok (filename top) ->
    exists s, countKanji ucd findByName order fs b v top = (s, Val tt)
      /\ report mf ucd findByName I t (filename top) (shownOf top) b v s.
  Proof.
    intros b v top n t Hf Hr Hb.
    destruct (rows ucd) as [|row rs] eqn:Er; [discriminate|].
    assert (Eh : row_name row = b_ "Hiragana") by (unfold rows in Er; inversion Er; reflexivity).
    assert (Hh : is_row (b_ "Hiragana") row = true) by (unfold is_row; rewrite Eh; reflexivity).
    assert (Hrs : forall r, In r rs -> In r (rows ucd) /\ is_row (b_ "Hiragana") r = false).
    { intros r Hin. split; [rewrite Er; right; exact Hin|]. unfold rows in Er. inversion Er; subst rs. clear - Hin.
      repeat (destruct Hin as [<-|Hin]; [vm_compute; reflexivity|]). destruct Hin. }
    destruct (run_ok mf Hmf ucd findByName order Horder fs I HI b v row true top n t ltac:(rewrite Er; left; reflexivity) Hf Hr (Hfs _ _ Hf) Hb) as [s [E Hs]].
    unfold replaced in E. rewrite Hh in E. cbn [andb] in E.
    unfold countKanji, runRows. rewrite Er. cbn [printRows]. rewrite E. cbv iota beta.
    match goal with |- context [printRows _ ?x] => destruct (rows_printed b v top n t Hf Hr Hb rs Hrs x) as [texts [E2 F]] end.
    rewrite E2. cbn [obind].
    eexists. split; [reflexivity|]. exists row, rs, (s :: texts). split; [exact Er|]. split; [constructor; assumption|].
    change (len (row_chars I t (filename top) v row) :: map (fun row0 => len (row_chars I t (filename top) v row0)) rs)
      with (map (fun row0 => len (row_chars I t (filename top) v row0)) (row :: rs)).
    rewrite combine_map, <- Er, last_ok. cbn [concat app].
    destruct v; repeat (progress (rewrite <- ?app_assoc; cbn [app])); reflexivity.
  Qed.
  Lemma count_missing : forall b v top, missing fs top -> countKanji ucd findByName order fs b v top = ([], Throw DomainError).
  Proof.
    intros b v top H. 
    assert (E : forall find allow debug addTag st, addFileV find allow debug (fs top) (filename top) addTag true true st = Throw DomainError).
    { intros. unfold addFileV. destruct (fs top) as [n|] eqn:Ef; [|reflexivity]. destruct (resolve n) as [t|] eqn:Er; [|reflexivity].
      exfalso. apply (H t). exists n. auto. }
    unfold countKanji, runRows, rows. cbn [printRows]. unfold run at 1. cbv zeta. rewrite E. reflexivity.
  Qed.
  Lemma about_ok : forall b v p, bytes_ok p -> (exists s, countKanji ucd findByName order fs b v p = (s, Val tt)
      /\ report_about mf ucd findByName I fs b v p s)
    \/ (missing fs p /\ countKanji ucd findByName order fs b v p = ([], Throw DomainError)).
  Proof.
    intros b v p Hp. 
    assert (D : (exists n t, fs p = Some n /\ resolve n = Some t) \/ missing fs p).
    { destruct (fs p) as [n|] eqn:Ef.
      - destruct (resolve n) as [t|] eqn:Er; [left; exists n, t; auto|]. right. intros t [m [H1 H2]]. congruence.
      - right. intros t [m [H1 H2]]. congruence. }
    destruct D as [(n & t & Ef & Er)|M]; [left|right; split; [exact M|apply count_missing; exact M]].
    destruct (count_ok b v p n t Ef Er (filename_ok p Hp)) as [s [E R]]. exists s. split; [exact E|].
    exists t, (filename p), (shownOf p). split; [exists n; auto|]. split; [apply filename_spec|]. split; [apply shown_ok|exact R].
  Qed.
  Lemma all_ok : forall b v files, Forall bytes_ok files -> forall text,
    (exists texts, countAll ucd findByName order fs b v files text = (text ++ concat texts, Val tt)
       /\ Forall2 (report_about mf ucd findByName I fs b v) files texts)
    \/ (exists done p rest texts, files = done ++ p :: rest /\ missing fs p
       /\ Forall2 (report_about mf ucd findByName I fs b v) done texts
       /\ countAll ucd findByName order fs b v files text = (text ++ concat texts, Throw DomainError)).
  Proof.
    intros b v files H. induction H as [|p files Hp H IH]; intro text.
    - left. exists []. cbn [countAll concat]. rewrite app_nil_r. split; [reflexivity|constructor].
    - cbn [countAll]. destruct (about_ok b v p Hp) as [(s & E & R)|[M E]]; rewrite E.
      + destruct (IH (text ++ s)) as [(texts & E2 & F)|(done & q & rest & texts & E1 & M & F & E2)].
        * left. exists (s :: texts). cbn [concat]. rewrite E2, <- app_assoc. split; [reflexivity|constructor; assumption].
        * right. exists (p :: done), q, rest, (s :: texts). split; [rewrite E1; reflexivity|]. split; [exact M|].
          split; [constructor; assumption|]. cbn [concat]. rewrite E2, <- app_assoc. reflexivity.
      + right. exists [], p, files, []. split; [reflexivity|]. split; [exact M|]. split; [constructor|]. reflexivity.
  Qed.
  Lemma stats_session : forall fuel prog l debug, len (prog :: l) < 65535 -> (S (List.length (prog :: l)) < fuel)%nat ->
    Forall bytes_ok (file_names (kept l)) ->
    let r := stats ucd findByName order fs fuel (argsOf (prog :: l)) debug in
    session mf ucd findByName I fs debug (kept l) (fst r) (snd r).
  Proof.
    intros fuel prog l debug Hl Hf Hb. cbv zeta. unfold stats. rewrite (read_outcome fuel prog l Hl Hf). unfold outcome.
    destruct (other_switch (kept l)) as [a|] eqn:O.
    - destruct (beq a (b_ "-h")) eqn:E; cbn [fst snd].
      + apply beq_eq in E. subst a. apply session_help. exact O.
      + eapply session_illegal; [exact O|]. intros ->. vm_compute in E. discriminate.
    - cbn [orb app]. destruct (file_names (kept l)) as [|p r] eqn:Fn.
      + pose proof (session_nothing mf ucd findByName I fs debug (kept l) O Fn) as S1. destruct debug; exact S1.
      + destruct (all_ok (has (b_ "-b") (switches (kept l))) (has (b_ "-v") (switches (kept l))) (p :: r) Hb []) as [(texts & E & F)|(done & q & rest & texts & E1 & M & F & E)]; rewrite E; cbn [fst snd app].
        * apply session_reports; [exact O|congruence|rewrite Fn; exact F].
        * eapply session_missing; [exact O|rewrite Fn; exact E1|exact M|exact F].
  Qed.
End Whole.

(** ** A set can be built from any values *)
Definition comb (l : list SCount) : tree SCount := fold_right (fun x t => Node Leaf x t) Leaf l.
Lemma comb_order : forall l, inorder (comb l) = l.
Proof. induction l as [|x l IH]; [reflexivity|]. cbn [comb fold_right inorder app]. f_equal. exact IH. Qed.
Definition some_order (mf : N) (l : list SCount) : list SCount := fold_left (fun acc k => insertPos (less mf) k (comb acc)) l [].
Lemma some_order_built : forall mf l, exists t, built (less mf) l t /\ some_order mf l = inorder t.
Proof.
  intros mf l. exists (comb (some_order mf l)). split; [|symmetry; apply comb_order].
  induction l as [|k l IH] using rev_ind; [constructor|]. econstructor; [exact IH|]. rewrite comb_order. unfold some_order. rewrite fold_left_app. reflexivity.
Qed.
