(** Proofs about the lines shown for a Kanji. *)
From Verif Require Import BaseFacts Utf8Proofs BlockProofs DisplayProofs KanjiProofs MapProofs DetailsSpec.
Open Scope N_scope.
Arguments N.mul : simpl never.
Arguments N.add : simpl never.
Arguments N.sub : simpl never.
Arguments N.div : simpl never.
Arguments N.modulo : simpl never.
Arguments N.min : simpl never.
Arguments N.max : simpl never.

(** ** Lines of three *)
Lemma triple_ind : forall A (P : list A -> Prop), P [] -> (forall a, P [a]) -> (forall a b, P [a; b]) ->
  (forall a b c r, P r -> P (a :: b :: c :: r)) -> forall l, P l.
Proof.
  intros A P H0 H1 H2 H3 l. assert (G : forall n l, (length l <= n)%nat -> P l).
  { induction n as [|n IH]; intros k Hk; [destruct k; [exact H0|cbn in Hk; lia]|].
    destruct k as [|a [|b [|c r]]]; auto. apply H3. apply IH. cbn in Hk. lia. }
  exact (G (length l) l (Nat.le_refl _)).
Qed.
Fixpoint chunks {A} (l : list A) : list (list A) :=
  match l with
  | [] => []
  | a :: r1 => match r1 with
               | [] => [[a]]
               | b :: r2 => match r2 with [] => [[a; b]] | c :: r => [a; b; c] :: chunks r end
               end
  end.
Lemma chunks_by_three : forall A (l : list A), by_three l (chunks l).
Proof.
  intros A l. induction l as [|a|a b|a b c r IH] using triple_ind; cbn [chunks].
  - constructor.
  - constructor. cbn. lia.
  - constructor. cbn. lia.
  - destruct r as [|x r]; [cbn [chunks]; constructor; cbn; lia|]. apply bt_cons; [discriminate|exact IH].
Qed.
Lemma by_three_unique : forall A (l : list A) a, by_three l a -> a = chunks l.
Proof.
  intros A l a H. induction H as [|l Hl|x y z r ls Hr H IH]; [reflexivity| |cbn [chunks]; rewrite IH; reflexivity].
  destruct l as [|x [|y [|z [|w r]]]]; cbn [length] in Hl; try lia; reflexivity.
Qed.
Lemma chunks_map : forall A B (f : A -> B) l, chunks (map f l) = map (map f) (chunks l).
Proof.
  intros A B f l. induction l as [|a|a b|a b c r IH] using triple_ind; cbn [chunks map]; try reflexivity.
  rewrite IH. reflexivity.
Qed.

(** ** The widths of the columns *)
Notation top es := (fold_right N.max 0 (map (fun e => size_of e + 2) es)).
Definition step (w s : N) : N := N.min 30 (N.max w (s + 2)).
Lemma entry_size : forall j, entry_ok j -> displaySize (nameAndReading j) = Val (size_of (nameAndReading j)) /\ size_of (nameAndReading j) < 2 ^ 30.
Proof.
  intros j [H1 [H2 [H3 H4]]]. destruct (size_total _ H1) as [n [E [L _]]]. unfold size_of. rewrite E. split; [reflexivity|lia].
Qed.
Lemma width_step : forall c j (ws : N * N * N) (k : N * N * N -> out (N * N * N)), entry_ok j -> getWidth c ws <= 30 ->
  (x <- (if getWidth c ws <? MaxJukugoSize then
           n <- displaySize (nameAndReading j) ;;
           let size := u64 (n + 2) in
           Val (if getWidth c ws <? size then setWidth c (if size <? MaxJukugoSize then size else MaxJukugoSize) ws else ws)
         else Val ws) ;; k x)
  = k (setWidth c (step (getWidth c ws) (size_of (nameAndReading j))) ws).
Proof.
  intros c j ws k Hj Hw. destruct (entry_size j Hj) as [E L]. unfold MaxJukugoSize, step.
  set (n := size_of (nameAndReading j)) in *.
  assert (S : forall w, w = getWidth c ws -> setWidth c w ws = ws).
  { intros w ->. destruct ws as [[a b] d]. unfold setWidth, getWidth. destruct (c =? 0); [reflexivity|]. destruct (c =? 1); reflexivity. }
  destruct (getWidth c ws <? 30) eqn:E1.
  - rewrite E. cbn [obind]. cbv zeta. assert (U : u64 (n + 2) = n + 2).
    { unfold u64. apply N.mod_small. change (2 ^ 64) with 18446744073709551616. change (2 ^ 30) with 1073741824 in L. lia. }
    rewrite U. destruct (getWidth c ws <? n + 2) eqn:E2.
    + destruct (n + 2 <? 30) eqn:E3; f_equal; f_equal; lia.
    + f_equal. symmetry. apply S. lia.
  - cbn [obind]. f_equal. symmetry. apply S. lia.
Qed.
Lemma step_le : forall w s, step w s <= 30.
Proof. intros w s. unfold step. lia. Qed.
Lemma triple_eq : forall a b c a' b' c' : N, a = a' -> b = b' -> c = c' -> Val (a, b, c) = Val (a', b', c').
Proof. intros. subst. reflexivity. Qed.
Lemma col_widths : forall l i a b c, Forall entry_ok l -> i mod 3 = 0 -> a <= 30 -> b <= 30 -> c <= 30 ->
  let ls := chunks (map nameAndReading l) in
  colWidths i l (a, b, c) = Val (N.min 30 (N.max a (top (column 0 ls))), N.min 30 (N.max b (top (column 1 ls))), N.min 30 (N.max c (top (column 2 ls)))).
Proof.
  intro l. induction l as [|x|x y|x y z r IH] using triple_ind; intros i a b c F Hi Ha Hb Hc ls; unfold ls; cbn [map chunks].
  - cbn [colWidths column flat_map map fold_right]. apply triple_eq; lia.
  - inversion F as [|? ? F1 F']; subst. cbn [colWidths]. unfold JukugoPerLine. rewrite Hi. rewrite width_step by (assumption || exact Ha).
    cbn [setWidth getWidth N.eqb colWidths column flat_map nth_error map fold_right app]. unfold step. cbv beta iota delta [setWidth getWidth N.eqb Pos.eqb]. apply triple_eq; lia.
  - inversion F as [|? ? F1 F']; subst. inversion F' as [|? ? F2 F'']; subst. cbn [colWidths]. unfold JukugoPerLine. rewrite Hi. rewrite width_step by (assumption || exact Ha).
    replace ((i + 1) mod 3) with 1 by lia. rewrite width_step; [|assumption|cbn [setWidth getWidth N.eqb]; exact Hb].
    cbn [setWidth getWidth N.eqb N.succ Pos.eqb colWidths column flat_map nth_error map fold_right app]. unfold step. cbv beta iota delta [setWidth getWidth N.eqb Pos.eqb]. apply triple_eq; lia.
  - inversion F as [|? ? F1 F']; subst. inversion F' as [|? ? F2 F'']; subst. inversion F'' as [|? ? F3 F4]; subst.
    cbn [colWidths]. unfold JukugoPerLine. rewrite Hi. rewrite width_step by (assumption || exact Ha).
    replace ((i + 1) mod 3) with 1 by lia. rewrite width_step; [|assumption|cbn [setWidth getWidth N.eqb]; exact Hb].
    replace ((i + 1 + 1) mod 3) with 2 by lia. rewrite width_step; [|assumption|cbn [setWidth getWidth N.eqb Pos.eqb]; exact Hc].
    cbv beta iota delta [setWidth getWidth N.eqb Pos.eqb]. fold N.eqb. rewrite IH; [|assumption|lia|apply step_le|apply step_le|apply step_le].
    change (column 0 ([nameAndReading x; nameAndReading y; nameAndReading z] :: chunks (map nameAndReading r))) with (nameAndReading x :: column 0 (chunks (map nameAndReading r))).
    change (column 1 ([nameAndReading x; nameAndReading y; nameAndReading z] :: chunks (map nameAndReading r))) with (nameAndReading y :: column 1 (chunks (map nameAndReading r))).
    change (column 2 ([nameAndReading x; nameAndReading y; nameAndReading z] :: chunks (map nameAndReading r))) with (nameAndReading z :: column 2 (chunks (map nameAndReading r))).
    cbn [map fold_right]. unfold step. cbv beta iota delta [setWidth getWidth N.eqb Pos.eqb]. apply triple_eq; lia.
Qed.

(** ** The cells *)
Lemma cell : forall w j, entry_ok j -> w <= 30 ->
  exists z, wideSetw (nameAndReading j) w = Val z /\ putSetw true 32 z (nameAndReading j) = padded w (nameAndReading j).
Proof.
  intros w j Hj Hw. destruct (entry_size j Hj) as [E L]. destruct Hj as [H1 [H2 [H3 H4]]].
  change (2 ^ 30) with 1073741824 in H4.
  destruct (wideSetw_pads true _ w _ H1 H2 H3 E) as [z [Z1 [_ Z2]]]; [change (2 ^ 31) with 2147483648; lia|].
  exists z. split; [exact Z1|exact Z2].
Qed.
Definition row (ws : N * N * N) (l : list bytes) : bytes :=
  [10] ++ concat (map (fun p => padded (getWidth (N.of_nat (fst p)) ws) (snd p)) (combine (seq 0 (length l)) l)).
Lemma cells : forall l i ws, Forall entry_ok l -> i mod 3 = 0 -> (forall c, getWidth c ws <= 30) ->
  jukugoCells i l ws = Val (flat_map (row ws) (chunks (map nameAndReading l))).
Proof.
  intro l. induction l as [|x|x y|x y z r IH] using triple_ind; intros i ws F Hi Hw; cbn [map chunks].
  - reflexivity.
  - inversion F as [|? ? F1 F']; subst. cbn [jukugoCells]. unfold JukugoPerLine. rewrite Hi.
    destruct (cell (getWidth 0 ws) x F1 (Hw 0)) as [z [Z1 Z2]]. rewrite Z1. cbn [obind]. rewrite Z2. cbn [flat_map]. unfold row. cbn [length seq combine map concat fst snd N.of_nat].
    change (N.of_nat 1) with 1. f_equal. change (0 =? 0) with true. change (1 =? 0) with false. cbv iota. rewrite !app_nil_r. rewrite <- ?app_assoc. reflexivity.
  - inversion F as [|? ? F1 F']; subst. inversion F' as [|? ? F2 F'']; subst. cbn [jukugoCells]. unfold JukugoPerLine. rewrite Hi.
    replace ((i + 1) mod 3) with 1 by lia.
    destruct (cell (getWidth 0 ws) x F1 (Hw 0)) as [z [Z1 Z2]]. destruct (cell (getWidth 1 ws) y F2 (Hw 1)) as [z' [Z1' Z2']].
    rewrite Z1. cbn [obind]. rewrite Z1'. cbn [obind]. rewrite Z2, Z2'. cbn [flat_map]. unfold row. cbn [length seq combine map concat fst snd N.of_nat].
    change (N.of_nat 1) with 1. f_equal. change (0 =? 0) with true. change (1 =? 0) with false. cbv iota. rewrite !app_nil_r. rewrite <- ?app_assoc. reflexivity.
  - inversion F as [|? ? F1 F']; subst. inversion F' as [|? ? F2 F'']; subst. inversion F'' as [|? ? F3 F4]; subst.
    cbn [jukugoCells]. unfold JukugoPerLine. rewrite Hi. replace ((i + 1) mod 3) with 1 by lia. replace ((i + 1 + 1) mod 3) with 2 by lia.
    destruct (cell (getWidth 0 ws) x F1 (Hw 0)) as [a [A1 A2]]. destruct (cell (getWidth 1 ws) y F2 (Hw 1)) as [b [B1 B2]].
    destruct (cell (getWidth 2 ws) z F3 (Hw 2)) as [c [C1 C2]].
    rewrite A1. cbn [obind]. rewrite B1. cbn [obind]. rewrite C1. cbn [obind]. rewrite IH; [|assumption|lia|exact Hw]. cbn [obind].
    rewrite A2, B2, C2. cbn [flat_map]. set (rest := flat_map (row ws) _). unfold row. cbn [length seq combine map concat fst snd N.of_nat].
    change (N.of_nat 1) with 1. change (N.of_nat 2) with 2. f_equal. change (0 =? 0) with true. change (1 =? 0) with false. change (2 =? 0) with false. cbv iota.
    rewrite <- !app_assoc. reflexivity.
Qed.
Lemma chunk_short : forall A (l : list A) x, In x (chunks l) -> (length x <= 3)%nat.
Proof.
  intros A l. induction l as [|a|a b|a b c r IH] using triple_ind; intros x Hx; cbn [chunks] in Hx.
  - destruct Hx.
  - destruct Hx as [<-|[]]. cbn. lia.
  - destruct Hx as [<-|[]]. cbn. lia.
  - destruct Hx as [<-|Hx]; [cbn; lia|exact (IH x Hx)].
Qed.
Lemma jukugo_list : forall name l, Forall entry_ok l ->
  exists t, jukugoList name l = Val t /\ jukugo_lines (b_ "    " ++ name ++ b_ ":") (map nameAndReading l) t.
Proof.
  intros name l F. unfold jukugoList, jukugo_lines, JukugoPerLine.
  assert (L : len (map nameAndReading l) = len l) by (unfold len; rewrite map_length; reflexivity). rewrite L.
  destruct (len l <=? 3) eqn:E.
  - cbn [obind]. eexists. split; [reflexivity|]. rewrite <- !app_assoc. do 3 f_equal. rewrite flat_map_concat_map, flat_map_concat_map, map_map. reflexivity.
  - rewrite col_widths by (assumption || reflexivity || lia). cbn [obind]. cbv zeta.
    set (ls := chunks (map nameAndReading l)).
    set (ws := (N.min 30 (N.max 0 (top (column 0 ls))), N.min 30 (N.max 0 (top (column 1 ls))), N.min 30 (N.max 0 (top (column 2 ls))))).
    rewrite cells; [|assumption|reflexivity|].
    + cbn [obind]. eexists. split; [reflexivity|]. exists ls. split; [apply chunks_by_three|].
      rewrite <- !app_assoc. do 4 f_equal. change (b_ " ") with [32]. cbn [app]. f_equal. f_equal.
      rewrite !flat_map_concat_map. f_equal. apply map_ext_in. intros x Hx. unfold row, table_line. do 2 f_equal.
      apply map_ext_in. intros [c e] Hp. cbn [fst snd]. f_equal.
      apply in_combine_l in Hp. apply in_seq in Hp. pose proof (chunk_short _ _ _ Hx) as Hs.
      unfold ws, getWidth, width. assert (c = 0 \/ c = 1 \/ c = 2)%nat as [-> | [-> | ->]] by lia;
        [change (N.of_nat 0) with 0|change (N.of_nat 1) with 1|change (N.of_nat 2) with 2]; cbv beta iota delta [N.eqb Pos.eqb]; rewrite N.max_0_l; reflexivity.
    + intro c. unfold ws, getWidth. destruct (c =? 0); [lia|]. destruct (c =? 1); lia.
Qed.

(** ** Jukugo by grade *)
Lemma same_grade_eq : forall k j, hasGrade k = true -> (gradeNumber (kGrade k) + 1 =? jGrade j) = same_grade k j.
Proof.
  intros k j H. unfold hasGrade, same_grade in *. destruct (kGrade k); try discriminate; cbn [gradeNumber];
    match goal with |- (?a =? _) = _ => change a with 1 || change a with 2 || change a with 3 || change a with 4 || change a with 5 || change a with 6 || change a with 7 end; apply N.eqb_sym.
Qed.
Lemma filter_nil_existsb : forall A (f : A -> bool) l, existsb f l = match filter f l with [] => false | _ => true end.
Proof. intros A f l. induction l as [|x l IH]; [reflexivity|]. cbn [existsb filter]. destruct (f x); [reflexivity|exact IH]. Qed.
Lemma Forall_filter : forall A (P : A -> Prop) f l, Forall P l -> Forall P (filter f l).
Proof. intros A P f l H. rewrite Forall_forall in *. intros x Hx. apply filter_In in Hx. apply H. tauto. Qed.
Lemma jukugo_text : forall jd k, Forall entry_ok (jFind jd (kName k)) ->
  exists t, jukugoText jd k = Val t /\ jukugo_part k (jFind jd (kName k)) t.
Proof.
  intros jd k F. unfold jukugoText, jukugo_part. cbv zeta. set (l := jFind jd (kName k)) in *.
  destruct l as [|j0 l0] eqn:El; [exists [10]; split; reflexivity|]. rewrite <- El in *. unfold JukugoPerLine.
  destruct (jukugo_list (b_ " Jukugo") l F) as [t [T1 T2]].
  destruct (hasGrade k && (3 <? len l)) eqn:Eg; cbn [andb].
  - apply andb_true_iff in Eg. destruct Eg as [Eg _].
    assert (E1 : filter (fun j => gradeNumber (kGrade k) + 1 =? jGrade j) l = filter (same_grade k) l).
    { apply filter_ext. intro j. apply same_grade_eq. exact Eg. }
    assert (E2 : filter (fun j => negb (gradeNumber (kGrade k) + 1 =? jGrade j)) l = filter (fun j => negb (same_grade k j)) l).
    { apply filter_ext. intro j. f_equal. apply same_grade_eq. exact Eg. }
    rewrite E1, E2. rewrite filter_nil_existsb. destruct (filter (fun j => negb (same_grade k j)) l) as [|o os] eqn:Eo.
    + rewrite T1. cbn [obind]. eexists. split; [reflexivity|]. exists t. split; [exact T2|reflexivity].
    + rewrite <- Eo in *.
      destruct (jukugo_list (b_ "Same Grade Jukugo") (filter (same_grade k) l) (Forall_filter _ _ _ _ F)) as [a [A1 A2]].
      destruct (jukugo_list (b_ "Other Grade Jukugo") (filter (fun j => negb (same_grade k j)) l) (Forall_filter _ _ _ _ F)) as [b [B1 B2]].
      rewrite A1. cbn [obind]. rewrite B1. cbn [obind]. eexists. split; [reflexivity|]. exists a, b. split; [exact A2|]. split; [exact B2|].
      rewrite app_assoc. reflexivity.
  - rewrite T1. cbn [obind]. eexists. split; [reflexivity|]. exists t. split; [exact T2|reflexivity].
Qed.

(** ** The other lines *)
Lemma FOP_filter : forall A (R : A -> A -> Prop) f l, ForallOrdPairs R l -> ForallOrdPairs R (filter f l).
Proof.
  intros A R f l H. induction H as [|x l F H IH]; [constructor|]. cbn [filter]. destruct (f x); [|exact IH].
  constructor; [|exact IH]. apply Forall_filter. exact F.
Qed.
Lemma Permutation_filter : forall A (f : A -> bool) l m, Permutation l m -> Permutation (filter f l) (filter f m).
Proof.
  intros A f l m H. induction H as [|x l m H IH|x y l|l m n H1 IH1 H2 IH2]; cbn [filter].
  - constructor.
  - destruct (f x); [constructor|]; exact IH.
  - destruct (f x); destruct (f y); try apply Permutation_refl. apply perm_swap.
  - exact (Permutation_trans IH1 IH2).
Qed.
Lemma similar_names : forall k l,
  similarNames k l = Val (flat_map (fun j => b_ " " ++ with_suffix j) (filter (fun j => negb (beq (kName j) (kName k))) l)).
Proof.
  intros k l. induction l as [|j l IH]; [reflexivity|]. cbn [similarNames filter]. rewrite IH. cbn [obind]. unfold kanjiEqual.
  destruct (negb (beq (kName j) (kName k))); [|reflexivity].
  destruct (qualifiedName_spec j) as [c [G Q]]. rewrite Q. cbn [obind flat_map]. unfold with_suffix. rewrite G.
  change (b_ " ") with [32]. rewrite <- !app_assoc. reflexivity.
Qed.
Lemma strict_weak_sub : forall A (P Q : A -> Prop) lt, (forall x, P x -> Q x) -> strict_weak Q lt -> strict_weak P lt.
Proof.
  intros A P Q lt H [A1 [A2 [A3 A4]]]. split; [|split; [|split]].
  - intros a b Ha Hb. exact (A1 a b (H a Ha) (H b Hb)).
  - intros a Ha. exact (A2 a (H a Ha)).
  - intros a b c Ha Hb Hc. exact (A3 a b c (H a Ha) (H b Hb) (H c Hc)).
  - intros a b c Ha Hb Hc. exact (A4 a b c (H a Ha) (H b Hb) (H c Hc)).
Qed.
(** the names of all members of the groups are byte strings *)
Definition members_ok (gs : list Group) : Prop := Forall (fun g => Forall (fun q => kanji_ok (qKanji q)) (gMembers g)) gs.
Lemma similar_text : forall sort gd gs k, sorts orderByQualifiedName sort -> members_ok gs ->
  mfind (kName k) (patternMap gd) = find (has_member (kName k)) gs ->
  exists t, similarText sort gd k = Val t /\ similar_line k gs t.
Proof.
  intros sort gd gs k Hs Hm E. unfold similarText, similar_line. rewrite E. destruct (find (has_member (kName k)) gs) as [g|] eqn:F; [|exists []; split; reflexivity].
  assert (K : gPattern g = Reading \/ gPattern g <> Reading) by (destruct (gPattern g); (left; reflexivity) || (right; discriminate)).
  destruct K as [K|K].
  - rewrite K. exists []. split; [reflexivity|]. left. split; reflexivity.
  - apply find_some in F. destruct F as [I _]. unfold members_ok in Hm. rewrite Forall_forall in Hm. specialize (Hm g I). cbn beta in Hm.
    destruct (Hs (map qKanji (gMembers g))) as [S1 S2].
    { apply (strict_weak_sub _ _ kanji_ok); [|exact qualified_strict_weak]. intros x Hx. apply in_map_iff in Hx. destruct Hx as [q [<- Hq]].
      rewrite Forall_forall in Hm. exact (Hm q Hq). }
    eexists. split.
    + destruct (gPattern g); try (exfalso; apply K; reflexivity); rewrite similar_names; cbn [obind]; reflexivity.
    + right. split; [exact K|]. eexists. split; [reflexivity|]. split; [apply Permutation_filter; exact S1|apply FOP_filter; exact S2].
Qed.
Lemma ids_text : forall k, idsText k = ids_lines k.
Proof.
  intro k. unfold idsText, ids_lines. f_equal.
  - destruct (fst (kMorohashi k)) as [|p]; reflexivity.
  - destruct (kNelson k) as [|i [|j l]]; [reflexivity| |].
    + change (len [i] =? 1) with true. cbv iota. cbn [flat_map]. rewrite app_nil_r. rewrite <- !app_assoc. reflexivity.
    + assert (L : len (i :: j :: l) =? 1 = false) by (rewrite !len_cons; lia). rewrite L.
      assert (G : forall l i, flat_map (fun i => [32] ++ to_string i) (i :: l) = b_ " " ++ sep_by (b_ " ") (map to_string (i :: l))).
      { induction l0 as [|x l0 IH]; intro y; [cbn [flat_map map sep_by]; rewrite app_nil_r; reflexivity|].
        cbn [flat_map] in *. rewrite IH. cbn [map sep_by]. rewrite <- !app_assoc. reflexivity. }
      rewrite G. rewrite !app_assoc. do 2 f_equal.
Qed.
Lemma category_names : forall l g, categoryNames true (g :: l) = sep_by (b_ ", ") (map (fun g => b_ "[" ++ gName g ++ b_ "]") (g :: l)).
Proof.
  assert (G : forall l, categoryNames false l = match l with [] => [] | _ => b_ ", " ++ sep_by (b_ ", ") (map (fun g => b_ "[" ++ gName g ++ b_ "]") l) end).
  { induction l as [|x l IH]; [reflexivity|]. cbn [categoryNames]. rewrite IH. destruct l as [|y l]; [cbn [map sep_by]; rewrite app_nil_r; reflexivity|].
    cbn [map sep_by]. rewrite <- !app_assoc. reflexivity. }
  intros l g. cbn [categoryNames]. rewrite G. destruct l as [|y l]; [cbn [map sep_by]; rewrite app_nil_r; reflexivity|].
  cbn [map sep_by]. cbn [app]. rewrite <- !app_assoc. reflexivity.
Qed.
Lemma category_text : forall gd gs k, categories gd (kName k) = filter (has_member (kName k)) gs -> categoryText gd k = category_line k gs.
Proof.
  intros gd gs k E. unfold categoryText, category_line. rewrite E. destruct (filter (has_member (kName k)) gs) as [|g [|h l]]; [reflexivity| |].
  - change (len [g] =? 1) with true. cbv iota. rewrite category_names. cbn [map sep_by]. rewrite <- !app_assoc. reflexivity.
  - assert (L : len (g :: h :: l) =? 1 = false) by (rewrite !len_cons; lia). rewrite L. rewrite category_names. reflexivity.
Qed.
Lemma review_text : forall sort gd jd ms ps k, sorts orderByQualifiedName sort -> members_ok ps ->
  categories gd (kName k) = filter (has_member (kName k)) ms -> mfind (kName k) (patternMap gd) = find (has_member (kName k)) ps ->
  Forall entry_ok (jFind jd (kName k)) ->
  exists t, reviewText sort gd jd k = Val t /\ review_lines (dReading (kDetails k)) k ms ps (jFind jd (kName k)) t.
Proof.
  intros sort gd jd ms ps k Hs Hm Ec Ep Hj. unfold reviewText, review_lines.
  destruct (similar_text sort gd ps k Hs Hm Ep) as [s [S1 S2]]. destruct (jukugo_text jd k Hj) as [j [J1 J2]].
  rewrite S1. cbn [obind]. rewrite J1. cbn [obind]. rewrite ids_text, (category_text gd ms k Ec).
  eexists. split; [reflexivity|]. exists s, j. split; [exact S2|]. split; [exact J2|reflexivity].
Qed.

(** the order of the similar Kanji is the only one possible when no two members compare equal *)
Lemma in_order_unique : forall (lt : Kanji -> Kanji -> out bool) l m, strict_weak (fun x => In x l) lt ->
  (forall a b, In a l -> In b l -> lt a b = Val false -> lt b a = Val false -> a = b) ->
  Permutation l m -> in_order lt l -> in_order lt m -> l = m.
Proof.
  intros lt l. induction l as [|x l IH]; intros m W T P O1 O2.
  - symmetry. apply Permutation_nil. exact P.
  - destruct m as [|y m]; [exfalso; symmetry in P; exact (Permutation_nil_cons P)|].
    assert (E : x = y).
    { inversion O1 as [|? ? F1 O1']; subst. inversion O2 as [|? ? F2 O2']; subst. rewrite Forall_forall in F1, F2.
      assert (Ix : In x (y :: m)) by (apply (Permutation_in _ P); left; reflexivity).
      assert (Iy : In y (x :: l)) by (apply (Permutation_in _ (Permutation_sym P)); left; reflexivity).
      destruct Ix as [Ix|Ix]; [symmetry; exact Ix|]. destruct Iy as [Iy|Iy]; [exact Iy|].
      destruct W as [W1 _]. apply T; [left; reflexivity|right; exact Iy| |].
      - destruct (W1 x y) as [r Hr]; [left; reflexivity|right; exact Iy|]. rewrite Hr. destruct r; [|reflexivity]. exfalso. exact (F2 x Ix Hr).
      - destruct (W1 y x) as [r Hr]; [right; exact Iy|left; reflexivity|]. rewrite Hr. destruct r; [|reflexivity]. exfalso. exact (F1 y Iy Hr). }
    subst y. f_equal. apply IH.
    + apply (strict_weak_sub _ _ (fun z => In z (x :: l))); [intros z Hz; right; exact Hz|exact W].
    + intros a b Ha Hb. apply T; right; assumption.
    + exact (Permutation_cons_inv P).
    + inversion O1; assumption.
    + inversion O2; assumption.
Qed.
