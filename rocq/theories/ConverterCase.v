(** Letter case and characters Romaji does not use. *)
From Verif Require Import BaseFacts ConverterModel ConverterSpec Utf8Proofs BlockProofs KanaProofs
  Utf8CharProofs Utf8CharLemmas ConverterProofs ConverterKana ConverterRomaji ConverterTables ConverterTrip ConverterBack.
Open Scope N_scope.
Arguments N.ltb : simpl never.
Arguments N.leb : simpl never.
Arguments N.eqb : simpl never.
Arguments N.add : simpl never.
Arguments N.sub : simpl never.

Lemma tolower_code : forall c, c_tolower c = lower_code c.
Proof. intro c. reflexivity. Qed.
Lemma lower_twice : forall c, lower_code (lower_code c) = lower_code c.
Proof.
  intro c. unfold lower_code. destruct ((0x41 <=? c) && (c <=? 0x5A)) eqn:E; [|rewrite E; reflexivity].
  replace ((0x41 <=? c + 0x20) && (c + 0x20 <=? 0x5A)) with false by lia. reflexivity.
Qed.
Lemma toLower_twice : forall l, toLower (toLower l) = toLower l.
Proof. intro l. unfold toLower. rewrite map_map. apply map_ext. intro. rewrite !tolower_code. apply lower_twice. Qed.
Lemma toLower_app : forall a b, toLower (a ++ b) = toLower a ++ toLower b.
Proof. intros. apply map_app. Qed.
Lemma toLower_len : forall l, len (toLower l) = len l.
Proof. intro. unfold len, toLower. rewrite map_length. reflexivity. Qed.
Lemma lower_high : forall b, Forall (fun x => 0x80 <= x) b -> toLower b = b.
Proof.
  induction b as [|x b IH]; intro H; [reflexivity|]. inversion H; subst. cbn [toLower map]. change (map c_tolower b) with (toLower b).
  rewrite IH by assumption. f_equal. rewrite tolower_code. unfold lower_code. replace (x <=? 0x5A) with false by lia.
  rewrite andb_false_r. reflexivity.
Qed.
Lemma lower_gb : forall g, glyph_ok g -> gb (lower_glyph g) = toLower (gb g).
Proof.
  intros [c|c v] H.
  - cbn [lower_glyph]. rewrite !gb_G. destruct (N.lt_ge_cases c 0x80) as [Hc|Hc].
    + unfold enc. replace (c <? 128) with true by lia.
      replace (lower_code c <? 128) with true by (unfold lower_code; destruct ((0x41 <=? c) && (c <=? 0x5A)) eqn:E; lia). reflexivity.
    + unfold lower_code. replace (c <=? 0x5A) with false by lia. rewrite andb_false_r.
      symmetry. apply lower_high. apply mb_tail; [apply H|exact Hc].
  - cbn [lower_glyph]. rewrite gb_GV. symmetry. apply lower_high. destruct H as [H1 [[H2 _] H3]]. unfold is_selector in H3.
    apply Forall_app. split; apply mb_tail; try assumption; [unfold scalar; lia|lia].
Qed.
Lemma lower_gtext : forall us, Forall glyph_ok us -> gtext (map lower_glyph us) = toLower (gtext us).
Proof.
  induction us as [|u us IH]; intro H; [reflexivity|]. inversion H; subst. cbn [map]. rewrite !gtext_cons, toLower_app.
  rewrite lower_gb, IH by assumption. reflexivity.
Qed.
Lemma lower_ok : forall g, glyph_ok g -> glyph_ok (lower_glyph g).
Proof.
  intros [c|c v] H; [|exact H]. cbn [lower_glyph]. unfold lower_code.
  destruct ((0x41 <=? c) && (c <=? 0x5A)) eqn:E; [|exact H]. split; [unfold scalar; lia|]. split; [lia|]. left. lia.
Qed.

Lemma quiet_tail : forall p l, quiet (p ++ l) = true -> quiet l = true.
Proof.
  induction p as [|x p IH]; intros l H; [exact H|]. apply IH. cbn [app quiet] in H.
  destruct (p ++ l) eqn:E; [reflexivity|]. apply andb_true_iff in H. apply H.
Qed.
Lemma quiet_front : forall l p, quiet (l ++ p) = true -> quiet l = true.
Proof.
  induction l as [|x l IH]; intros p H; [reflexivity|]. cbn [app quiet] in *. destruct l as [|y l]; [reflexivity|].
  cbn [app] in H. apply andb_true_iff in H. destruct H as [H1 H2]. rewrite H1. apply (IH p). exact H2.
Qed.
Lemma quiet_snoc : forall l v, quiet l = true -> (forall a, shout a v = false) -> quiet (l ++ [v]) = true.
Proof.
  induction l as [|x l IH]; intros v H Hv; [reflexivity|]. cbn [app quiet] in *. destruct l as [|y l].
  - cbn [app]. rewrite Hv. reflexivity.
  - cbn [app]. apply andb_true_iff in H. destruct H as [H1 H2]. rewrite H1. apply IH; assumption.
Qed.
Lemma quiet_drop : forall a b r, (forall y, shout a y = false) -> quiet (a :: b :: r) = true -> quiet (a :: r) = true.
Proof.
  intros a b r Ha H. cbn [quiet] in *. apply andb_true_iff in H. destruct H as [_ H]. destruct r as [|c r]; [reflexivity|].
  rewrite Ha. apply andb_true_iff in H. apply H.
Qed.

Section Case.
Variables (target : CharType) (flags : ConvertFlags).
Notation proc := (processRomaji target flags).
Definition same (a b : bytes) : Prop := toLower a = toLower b.
Lemma same_refl : forall a, same a a. Proof. reflexivity. Qed.
Lemma same_lower : forall a, same a (toLower a). Proof. intro. unfold same. symmetry. apply toLower_twice. Qed.
Lemma same_app : forall a a' b b', same a a' -> same b b' -> same (a ++ b) (a' ++ b').
Proof. unfold same. intros. rewrite !toLower_app. congruence. Qed.

Lemma first_case : forall x y l, shout x y = false ->
  same (firstOut target flags (x :: y :: l) (toLower (x :: y :: l)))
       (firstOut target flags (toLower (x :: y :: l)) (toLower (x :: y :: l))).
Proof.
  intros x y l H. unfold firstOut. cbn [toLower map nth].
  destruct (c_tolower x =? 110) eqn:E1; [apply same_refl|].
  assert (F : same (firstn 1 (x :: y :: l)) (firstn 1 (c_tolower x :: c_tolower y :: map c_tolower l))).
  { cbn [firstn]. apply (same_lower [x]). }
  destruct ((c_tolower x =? c_tolower y) || (c_tolower x =? 116) && (c_tolower y =? 99)) eqn:E2; [|exact F].
  change c_tolower with lower_code in *. unfold shout in H.
  destruct ((0x41 <=? x) && (x <=? 0x5A)) eqn:U.
  - assert (V : mem x [0x41; 0x45; 0x49; 0x4F; 0x55; 0x4E] = true).
    { destruct (mem x [0x41; 0x45; 0x49; 0x4F; 0x55; 0x4E]); [reflexivity|]. cbn [negb andb] in H.
      assert (lower_code x = x + 0x20) as Lx by (unfold lower_code; rewrite U; reflexivity).
      rewrite Lx in H, E2. destruct (x + 0x20 =? lower_code y) eqn:Q1; [discriminate|]. cbn [orb] in *.
      replace (x =? 0x54) with (x + 0x20 =? 116) in H by lia. rewrite H in E2. discriminate. }
    assert (W : containsN repeatingConsonants x = false /\ containsN repeatingConsonants (lower_code x) = false).
    { unfold mem in V. cbn [existsb] in V. rewrite !orb_true_iff, !N.eqb_eq in V.
      destruct V as [V|[V|[V|[V|[V|[V|V]]]]]]; try discriminate V; rewrite V; split; vm_compute; reflexivity. }
    destruct W as [-> ->]. exact F.
  - assert (lower_code x = x) as -> by (unfold lower_code; rewrite U; reflexivity).
    destruct (containsN repeatingConsonants x); [apply same_refl|]. cbn [firstn]. apply same_refl.
Qed.
Lemma proc_cons : forall x l, proc (x :: l) =
  match mapFind RomajiMap (toLower (x :: l)) with
  | Some k => (cget target flags (kd k), [])
  | None => if len (x :: l) =? 3 then
              let '(r, m) := proc l in (firstOut target flags (x :: l) (toLower (x :: l)) ++ r, m)
            else ([], x :: l)
  end.
Proof. reflexivity. Qed.
Lemma proc_case : forall l, quiet l = true ->
  same (fst (proc l)) (fst (proc (toLower l))) /\ snd (proc (toLower l)) = toLower (snd (proc l)).
Proof.
  induction l as [|x l IH]; intro H; [split; reflexivity|].
  change (proc (toLower (x :: l))) with (proc (c_tolower x :: toLower l)). rewrite !proc_cons.
  rewrite (toLower_twice (x :: l) : toLower (c_tolower x :: toLower l) = toLower (x :: l)).
  destruct (mapFind RomajiMap (toLower (x :: l))); [split; reflexivity|].
  change (c_tolower x :: toLower l) with (toLower (x :: l)). rewrite toLower_len.
  destruct (len (x :: l) =? 3) eqn:E; [|split; [apply same_refl|reflexivity]].
  specialize (IH (quiet_tail [x] l H)). destruct IH as [I1 I2].
  destruct (proc l) as [r m] eqn:P. destruct (proc (toLower l)) as [r' m'] eqn:P'. cbn [fst snd] in *.
  split; [|exact I2]. apply same_app; [|exact I1].
  destruct l as [|y l]; [vm_compute in E; discriminate|]. apply first_case.
  cbn [quiet] in H. apply andb_true_iff in H. destruct H as [H _]. rewrite negb_true_iff in H. exact H.
Qed.
Lemma isN_lower : forall l, isN (toLower l) = isN l.
Proof.
  intros [|x [|y l]]; [reflexivity| |].
  - unfold isN, toLower. cbn [map]. rewrite tolower_code. change (b_ "n") with [110]. change (b_ "N") with [78]. cbn [beq].
    unfold lower_code. destruct ((0x41 <=? x) && (x <=? 0x5A)) eqn:E; lia.
  - unfold isN, toLower. cbn [map]. change (b_ "n") with [110]. change (b_ "N") with [78]. cbn [beq]. rewrite !andb_false_r. reflexivity.
Qed.
Lemma end_case : forall f l r r', quiet l = true -> same r r' ->
  match toKanaEnd target flags f r l, toKanaEnd target flags f r' (toLower l) with
  | Val a, Val b => same a b | Fuel, Fuel => True | _, _ => False end.
Proof.
  induction f as [|f IH]; intros l r r' Hq Hr.
  - destruct l as [|x l]; cbn [toLower map toKanaEnd]; [exact Hr|exact I].
  - destruct l as [|x l]; [exact Hr|]. cbn [toLower map toKanaEnd]. change (c_tolower x :: map c_tolower l) with (toLower (x :: l)).
    rewrite isN_lower. destruct (isN (x :: l)).
    + apply (IH [] _ _ eq_refl). apply same_app; [exact Hr|apply same_refl].
    + change (map c_tolower l) with (toLower l). pose proof (quiet_tail [x] l Hq) as Ql. destruct (proc_case l Ql) as [P1 P2].
      pose proof (romaji_suffix target flags l) as [p Sf].
      destruct (proc l) as [a m]. destruct (proc (toLower l)) as [a' m']. cbn [fst snd] in *. subst m'.
      apply IH; [rewrite Sf in Ql; apply quiet_tail in Ql; exact Ql|].
      apply same_app; [exact Hr|]. apply same_app; [apply (same_lower [x])|exact P1].
Qed.
Lemma flush_case : forall l, quiet l = true -> same (flush target flags l) (flush target flags (toLower l)).
Proof.
  intros l H. unfold flush. rewrite (map_length c_tolower l : List.length (toLower l) = _).
  pose proof (end_case (List.length l) l [] [] H (same_refl _)) as E.
  pose proof (end_flush target flags [] l) as E1. pose proof (end_flush target flags [] (toLower l)) as E2.
  rewrite (map_length c_tolower l : List.length (toLower l) = _) in E2. rewrite E1, E2 in *. exact E.
Qed.
Lemma removelast_lower : forall l, toLower (removelast l) = removelast (toLower l).
Proof.
  induction l as [|x l IH]; [reflexivity|]. destruct l as [|y l]; [reflexivity|].
  change (removelast (x :: y :: l)) with (x :: removelast (y :: l)). cbn [toLower map]. change (map c_tolower (removelast (y :: l))) with (toLower (removelast (y :: l))).
  rewrite IH. reflexivity.
Qed.
Lemma macron_vowel : forall b v k, macronFind Macrons b = Some (v, k) ->
  (forall a, shout a v = false) /\ c_tolower v = v /\ snd (proc [v]) = [].
Proof.
  intros b v k H.
  assert (D : v = 97 \/ v = 105 \/ v = 117 \/ v = 101 \/ v = 111).
  { unfold Macrons in H. cbn [macronFind] in H.
    repeat match type of H with (if ?c then _ else _) = _ => destruct c; [injection H; intros; subst; tauto|] end. discriminate. }
  assert (L : lower_code v = v) by (destruct D as [->|[->|[->|[->| ->]]]]; reflexivity).
  split; [|split; [exact L|destruct D as [->|[->|[->|[->| ->]]]]; reflexivity]].
  intro a. unfold shout. rewrite L. destruct ((0x41 <=? a) && (a <=? 0x5A)) eqn:U; [|reflexivity].
  destruct (mem a [0x41; 0x45; 0x49; 0x4F; 0x55; 0x4E]) eqn:M; [reflexivity|]. cbn [andb negb].
  unfold mem in M. cbn [existsb] in M. unfold lower_code. rewrite U. lia.
Qed.
Lemma macron_case : forall b l, quiet l = true ->
  match processRomajiMacron target flags b l, processRomajiMacron target flags b (toLower l) with
  | Some (r, m), Some (r', m') => same r r' /\ m = [] /\ m' = []
  | None, None => True | _, _ => False end.
Proof.
  intros b l H. unfold processRomajiMacron. destruct (macronFind Macrons b) as [[v k]|] eqn:E; [|exact I].
  apply macron_vowel in E. destruct E as [Sh [Lv Pv]].
  assert (Q : toLower (l ++ [v]) = toLower l ++ [v]) by (rewrite toLower_app; cbn [toLower map]; rewrite Lv; reflexivity).
  pose proof (proc_case (l ++ [v]) (quiet_snoc l v H Sh)) as [P1 P2]. rewrite Q in *.
  destruct (proc (l ++ [v])) as [r m]. destruct (proc (toLower l ++ [v])) as [r' m']. cbn [fst snd] in *. subst m'.
  destruct m as [|x m]; cbn [toLower map].
  - split; [apply same_app; [exact P1|apply same_refl]|]. split; reflexivity.
  - destruct (proc [v]) as [r2 l2]. cbn [snd] in Pv. subst l2. split; [|split; reflexivity].
    apply same_app; [exact P1|]. apply same_app; [|apply same_refl].
    change (c_tolower x :: map c_tolower m) with (toLower (x :: m)). rewrite <- removelast_lower. apply same_lower.
Qed.
Definition rel (st st' : bytes * bytes) : Prop := same (fst st) (fst st') /\ snd st' = toLower (snd st).
Lemma delim_lower : forall u, is_delim (lower_glyph u) = is_delim u /\ (is_delim u = true -> lower_glyph u = u).
Proof.
  intros [c|c v]; [|split; [reflexivity|discriminate]]. cbn [lower_glyph is_delim]. unfold lower_code.
  destruct ((0x41 <=? c) && (c <=? 0x5A)) eqn:E; [|split; reflexivity].
  assert (A : containsN narrowDelimList c = false).
  { destruct (containsN narrowDelimList c) eqn:D; [|reflexivity]. unfold containsN in D. apply existsb_exists in D.
    destruct D as [x [Hx D]]. apply N.eqb_eq in D. subst x.
    assert (F : forallb (fun c => negb ((0x41 <=? c) && (c <=? 0x5A))) narrowDelimList = true) by reflexivity.
    rewrite forallb_forall in F. specialize (F c Hx). rewrite E in F. discriminate. }
  assert (B : containsN narrowDelimList (c + 0x20) = false).
  { destruct (containsN narrowDelimList (c + 0x20)) eqn:D; [|reflexivity]. unfold containsN in D. apply existsb_exists in D.
    destruct D as [x [Hx D]]. apply N.eqb_eq in D. subst x.
    assert (F : forallb (fun c => negb ((0x61 <=? c) && (c <=? 0x7A))) narrowDelimList = true) by reflexivity.
    rewrite forallb_forall in F. specialize (F _ Hx). rewrite negb_true_iff in F. lia. }
  rewrite A, B. split; [reflexivity|discriminate].
Qed.
Lemma n_alone : forall l, isN l = true -> exists x, l = [x] /\ forall y, shout x y = false.
Proof.
  intros l H. unfold isN in H. apply orb_true_iff in H.
  destruct H as [H|H]; apply beq_eq in H; subst l; eexists; (split; [reflexivity|]); intro y; reflexivity.
Qed.
Lemma step_case : forall u rest st st', glyph_ok u -> rel st st' -> quiet (snd st ++ ascii_codes (u :: rest)) = true ->
  rel (mstep target flags st u) (mstep target flags st' (lower_glyph u))
  /\ quiet (snd (mstep target flags st u) ++ ascii_codes rest) = true.
Proof.
  intros u rest [r l] [r' l'] Hu [R1 R2] Q. cbn [fst snd] in *. subst l'.
  assert (Ql : quiet l = true) by (apply quiet_front in Q; exact Q).
  unfold mstep. destruct (delim_lower u) as [D1 D2]. rewrite D1. destruct (is_delim u) eqn:D.
  - rewrite D2 by reflexivity. split.
    + split; [|reflexivity]. cbn [fst snd]. apply same_app; [exact R1|]. apply same_app; [apply flush_case; exact Ql|apply same_refl].
    + cbn [snd app]. change (ascii_codes (u :: rest)) with ((match u with G c => if c <? 0x80 then [c] else [] | _ => [] end) ++ ascii_codes rest) in Q.
      rewrite app_assoc in Q. apply quiet_tail in Q. exact Q.
  - unfold toKanaStep. rewrite !(single_byte flags) by (try apply lower_ok; exact Hu).
    destruct (is_ascii u) eqn:A.
    + destruct u as [c|]; [|discriminate]. cbn [is_ascii] in A.
      assert (Hg : gb (G c) = [c]) by (rewrite gb_G; unfold enc; rewrite A; reflexivity).
      assert (A' : is_ascii (lower_glyph (G c)) = true).
      { cbn [lower_glyph is_ascii]. unfold lower_code. destruct ((0x41 <=? c) && (c <=? 0x5A)) eqn:E; lia. }
      rewrite A'. rewrite lower_gb by exact Hu. rewrite isN_lower, Hg.
      assert (Qc : ascii_codes (G c :: rest) = c :: ascii_codes rest).
      { unfold ascii_codes. cbn [flat_map]. rewrite A. reflexivity. }
      rewrite Qc in Q.
      destruct (isN [c]) eqn:Nc; cbn [negb].
      * destruct l as [|x l].
        { cbn [toLower map]. split; [split; [exact R1|reflexivity]|exact Q]. }
        { change (toLower (x :: l)) with (c_tolower x :: toLower l). cbv iota.
          change (c_tolower x :: toLower l) with (toLower (x :: l)). rewrite isN_lower.
          destruct (isN (x :: l)) eqn:Nl.
          - split; [split; [apply same_app; [exact R1|apply same_refl]|reflexivity]|].
            cbn [snd]. apply n_alone in Nl. destruct Nl as [z [Ez Sh]]. rewrite Ez in *. cbn [app] in *.
            apply quiet_drop in Q; [exact Q|exact Sh].
          - split; [split; [apply same_app; [exact R1|apply same_lower]|reflexivity]|].
            cbn [snd]. apply quiet_tail in Q. exact Q. }
      * rewrite <- toLower_app. pose proof (quiet_front (l ++ [c]) (ascii_codes rest)) as Qf.
        rewrite <- app_assoc in Qf. specialize (Qf Q). destruct (proc_case (l ++ [c]) Qf) as [P1 P2].
        destruct (romaji_suffix target flags (l ++ [c])) as [p Sf].
        destruct (proc (l ++ [c])) as [a m]. destruct (proc (toLower (l ++ [c]))) as [a' m']. cbn [fst snd] in *. subst m'.
        split; [split; [apply same_app; assumption|reflexivity]|].
        replace (l ++ c :: ascii_codes rest) with ((l ++ [c]) ++ ascii_codes rest) in Q by (rewrite <- app_assoc; reflexivity).
        rewrite Sf, <- app_assoc in Q. apply quiet_tail in Q. exact Q.
    + assert (E : lower_glyph u = u).
      { destruct u as [c|]; [|reflexivity]. cbn [is_ascii] in A. cbn [lower_glyph]. unfold lower_code.
        replace (c <=? 0x5A) with false by lia. rewrite andb_false_r. reflexivity. }
      assert (Qc : ascii_codes (u :: rest) = ascii_codes rest).
      { unfold ascii_codes. cbn [flat_map]. destruct u as [c|]; [|reflexivity]. cbn [is_ascii] in A. rewrite A. reflexivity. }
      rewrite E, A. rewrite Qc in Q. pose proof (macron_case (gb u) l Ql) as M.
      destruct (processRomajiMacron target flags (gb u) l) as [[a m]|];
        destruct (processRomajiMacron target flags (gb u) (toLower l)) as [[a' m']|]; try contradiction.
      * destruct M as [M1 [-> ->]]. split; [split; [apply same_app; assumption|reflexivity]|]. cbn [snd].
        apply quiet_tail in Q. exact Q.
      * destruct (proc_case l Ql) as [P1 P2]. destruct (romaji_suffix target flags l) as [p Sf].
        destruct (proc l) as [a m]. destruct (proc (toLower l)) as [a' m']. cbn [fst snd] in *. subst m'.
        split; [split; [apply same_app; [exact R1|apply same_app; [exact P1|apply same_refl]]|reflexivity]|].
        rewrite Sf, <- app_assoc in Q. apply quiet_tail in Q. exact Q.
Qed.
Lemma run_case : forall us st st', Forall glyph_ok us -> rel st st' -> quiet (snd st ++ ascii_codes us) = true ->
  same (finish target flags (run_m target flags us st)) (finish target flags (run_m target flags (map lower_glyph us) st')).
Proof.
  induction us as [|u us IH]; intros st st' Hok R Q.
  - cbn [run_m fold_left map]. unfold run_m. cbn [fold_left]. unfold finish. destruct R as [R1 R2]. rewrite R2.
    change (ascii_codes []) with (@nil N) in Q. rewrite app_nil_r in Q.
    apply same_app; [exact R1|apply flush_case; exact Q].
  - inversion Hok as [|? ? Hu Hus]; subst. destruct (step_case u us st st' Hu R Q) as [R' Q'].
    exact (IH _ _ Hus R' Q').
Qed.
Lemma romaji_case : forall ltr ltr' us, target <> Romaji -> Forall glyph_ok us -> quiet (ascii_codes us) = true ->
  exists a b, convertFrom target flags ltr Romaji (gtext us) = Val a
    /\ convertFrom target flags ltr' Romaji (toLower (gtext us)) = Val b /\ toLower a = toLower b.
Proof.
  intros ltr ltr' us Ht Hok Q. eexists. eexists. split; [apply romaji_to_kana; assumption|]. split.
  - rewrite <- lower_gtext by exact Hok. apply romaji_to_kana; [exact Ht|]. apply Forall_map. revert Hok. apply Forall_impl. apply lower_ok.
  - apply (run_case us ([], []) ([], [])); [exact Hok|split; reflexivity|exact Q].
Qed.
End Case.

(** ** Characters Romaji does not use *)
Section Other.
Variables (t : CharType) (flags : ConvertFlags).
Hypothesis Ht : kana_type t.
Definition silent (b : bytes) : Prop := exists os, b = gtext os /\ Forall glyph_ok os /\ filter (foreign t) os = [].
Lemma silent_app : forall a b, silent a -> silent b -> silent (a ++ b).
Proof.
  intros a b [o1 [-> [K1 F1]]] [o2 [-> [K2 F2]]]. exists (o1 ++ o2). rewrite gtext_app, filter_app, F1, F2.
  split; [reflexivity|]. split; [apply Forall_app; split; assumption|reflexivity].
Qed.
Lemma silent_nil : silent []. Proof. exists []. repeat split; constructor. Qed.
Definition letters_ok (l : bytes) : Prop := Forall (fun c => 0 < c < 0x80) l.
Lemma silent_letters : forall l, letters_ok l -> silent l.
Proof.
  intros l H. exists (map G l). induction H as [|c l Hc H [E [K F]]]; [repeat split; constructor|].
  cbn [map]. rewrite gtext_cons, gb_G, <- E. unfold enc at 1. replace (c <? 128) with true by lia. split; [reflexivity|]. split.
  - constructor; [|exact K]. split; [unfold scalar; lia|]. split; [lia|left; lia].
  - cbn [filter]. unfold foreign at 1. cbn [is_ascii]. replace (c <? 0x80) with true by lia. exact F.
Qed.
(** a kana text the table produces *)
Definition all_outs : list bytes :=
  map (fun c => text [c]) (kana_codes t) ++ flat_map (fun c => map (fun d => text [c; d]) (smalls t)) (kana_codes t).
Definition out_ok (b : bytes) : bool := existsb (fun l => beq l b) all_outs.
Lemma kana_codes_is : forall c, In c (kana_codes t) -> is_kana t c = true.
Proof.
  intros c H. unfold kana_codes in H. apply in_map_iff in H. destruct H as [i [<- Hi]]. apply in_upto in Hi. unfold is_kana. lia.
Qed.
Lemma smalls_is : forall c, In c (smalls t) -> is_kana t c = true.
Proof.
  intros c H. apply small_is_kana. unfold is_small, mem. apply existsb_exists. exists c. split; [exact H|lia].
Qed.
Lemma silent_kana : forall l, Forall (fun c => is_kana t c = true) l -> silent (text l).
Proof.
  intros l H. exists (map G l). rewrite gtext_G. split; [reflexivity|]. split.
  - apply Forall_map. revert H. apply Forall_impl. intros c Hc. apply (kana_ok t). exact Hc.
  - apply filter_none. apply Forall_map. revert H. apply Forall_impl. intros c Hc. apply foreign_kana. exact Hc.
Qed.
Lemma out_silent : forall b, out_ok b = true -> silent b.
Proof.
  intros b H. unfold out_ok in H. apply existsb_exists in H. destruct H as [l [Hl E]]. apply beq_eq in E. subst b.
  unfold all_outs in Hl. apply in_app_iff in Hl. destruct Hl as [Hl|Hl].
  - apply in_map_iff in Hl. destruct Hl as [c [<- Hc]]. apply silent_kana. constructor; [apply kana_codes_is; exact Hc|constructor].
  - apply in_flat_map in Hl. destruct Hl as [c [Hc Hl]]. apply in_map_iff in Hl. destruct Hl as [d [<- Hd]].
    apply silent_kana. constructor; [apply kana_codes_is; exact Hc|]. constructor; [apply smalls_is; exact Hd|constructor].
Qed.
End Other.
Definition outs_check (t : CharType) (f : KanaData -> bytes) (m : list (bytes * Kana)) : bool :=
  let outs := all_outs t in forallb (fun p => existsb (fun l => beq l (f (kd (snd p)))) outs) m.
Lemma outs_in : forall t f m, outs_check t f m = true -> forall p, In p m -> out_ok t (f (kd (snd p))) = true.
Proof. intros t f m H p Hp. unfold outs_check in H. rewrite forallb_forall in H. exact (H p Hp). Qed.
Lemma outs_h : outs_check Hiragana hira RomajiMap = true. Proof. vm_compute. reflexivity. Qed.
Lemma outs_k : outs_check Katakana kata RomajiMap = true. Proof. vm_compute. reflexivity. Qed.
Lemma mapFind_key : forall m s k, mapFind m s = Some k -> exists q, In (q, k) m.
Proof.
  induction m as [|[q k'] m IH]; intros s k H; [discriminate|]. cbn [mapFind] in H. destruct (beq q s).
  - injection H as ->. exists q. left. reflexivity.
  - destruct (IH _ _ H) as [q' Hq]. exists q'. right. exact Hq.
Qed.
Section Other2.
Variables (t : CharType) (flags : ConvertFlags).
Hypothesis Ht : kana_type t.
Notation proc := (processRomaji t flags).
Lemma get_silent : forall s k, mapFind RomajiMap s = Some k -> silent t (cget t flags (kd k)).
Proof.
  intros s k H. apply mapFind_key in H. destruct H as [q H]. apply out_silent. unfold cget.
  destruct t; [| |exfalso; apply Ht; reflexivity].
  - exact (outs_in Hiragana hira RomajiMap outs_h _ H).
  - exact (outs_in Katakana kata RomajiMap outs_k _ H).
Qed.
Lemma n_silent : silent t (getN t flags).
Proof. apply out_silent. destruct t; [vm_compute; reflexivity|vm_compute; reflexivity|exfalso; apply Ht; reflexivity]. Qed.
Lemma tsu_silent : silent t (getSmallTsu t flags).
Proof. apply out_silent. destruct t; [vm_compute; reflexivity|vm_compute; reflexivity|exfalso; apply Ht; reflexivity]. Qed.
Lemma suffix_ok : forall l, letters_ok l -> letters_ok (snd (proc l)).
Proof. intros l H. destruct (romaji_suffix t flags l) as [p E]. rewrite E in H. apply Forall_app in H. apply H. Qed.
Lemma proc_silent : forall l, letters_ok l -> silent t (fst (proc l)).
Proof.
  induction l as [|x l IH]; intro H.
  - apply silent_nil.
  - cbn [processRomaji]. destruct (mapFind RomajiMap (toLower (x :: l))) eqn:E; [exact (get_silent _ _ E)|].
    destruct (len (x :: l) =? 3); [|apply silent_nil]. inversion H as [|? ? Hx Hl]; subst. specialize (IH Hl).
    destruct (proc l) as [r m]. cbn [fst] in *. apply silent_app; [|exact IH].
    unfold firstOut. destruct (nth 0 (toLower (x :: l)) 0 =? 110); [exact n_silent|].
    assert (F : silent t (firstn 1 (x :: l))) by (apply silent_letters; cbn [firstn]; constructor; [exact Hx|constructor]).
    destruct ((nth 0 (toLower (x :: l)) 0 =? nth 1 (toLower (x :: l)) 0) || _); [|exact F].
    destruct (containsN repeatingConsonants _); [exact tsu_silent|exact F].
Qed.
Lemma end_silent : forall f l r x, letters_ok l -> silent t r -> toKanaEnd t flags f r l = Val x -> silent t x.
Proof.
  induction f as [|f IH]; intros l r x Hl Hr E.
  - destruct l; cbn [toKanaEnd] in E; [injection E as <-; exact Hr|discriminate].
  - destruct l as [|c l]; cbn [toKanaEnd] in E; [injection E as <-; exact Hr|].
    inversion Hl as [|? ? Hc Hl']; subst. destruct (isN (c :: l)).
    + apply IH in E; [exact E|constructor|]. apply silent_app; [exact Hr|exact n_silent].
    + pose proof (proc_silent l Hl') as P. pose proof (suffix_ok l Hl') as Sf. destruct (proc l) as [a m]. cbn [fst snd] in *.
      apply IH in E; [exact E|exact Sf|]. apply silent_app; [exact Hr|].
      apply (silent_app t [c]); [apply silent_letters; constructor; [exact Hc|constructor]|exact P].
Qed.
Lemma flush_silent : forall l, letters_ok l -> silent t (flush t flags l).
Proof.
  intros l H. pose proof (end_flush t flags [] l) as E. cbn [app] in E.
  apply (end_silent _ _ _ _ H (silent_nil t) E).
Qed.
Definition good (st : bytes * bytes) (us : list glyph) : Prop :=
  letters_ok (snd st) /\ exists os, fst st = gtext os /\ Forall glyph_ok os /\ filter (foreign t) os = filter (foreign t) us.
Lemma good_more : forall r l b l' us u, good (r, l) us -> silent t b -> letters_ok l' -> foreign t u = false ->
  good (r ++ b, l') (us ++ [u]).
Proof.
  intros r l b l' us u [_ [o1 [E1 [K1 F1]]]] [o2 [-> [K2 F2]]] Hl Fu. cbn [fst] in E1. subst r. split; [exact Hl|].
  exists (o1 ++ o2). cbn [fst]. rewrite gtext_app, !filter_app, F1, F2. cbn [filter]. rewrite Fu.
  split; [reflexivity|]. split; [apply Forall_app; split; assumption|reflexivity].
Qed.
Lemma wide_silent : forall c, containsN narrowDelimList c = true -> silent t (delim_bytes flags (G c)).
Proof.
  intros c D. cbn [delim_bytes]. unfold delimOut. destruct (_ && _ && _); [|apply silent_nil].
  destruct (narrowFind Delims c) as [w|] eqn:E; [|apply silent_nil].
  assert (In (c, w) Delims) as I.
  { revert E. generalize Delims. induction l as [|[n v] l IH]; [discriminate|]. cbn [narrowFind]. destruct (n =? c) eqn:Q.
    - intros [= ->]. left. f_equal. lia.
    - intro H. right. apply IH. exact H. }
  rewrite delims_codes in I. apply in_map_iff in I. destruct I as [[n v] [[= -> <-] I]]. exists [G v]. rewrite gtext_one.
  split; [reflexivity|]. split.
  - constructor; [|constructor]. pose proof wide_codes_ok as W. rewrite Forall_forall in W. exact (W _ I).
  - cbn [filter]. unfold foreign. rewrite (wide_in _ _ I). cbn [negb]. rewrite !andb_false_r. reflexivity.
Qed.
Lemma macron_silent : forall u l r m, glyph_ok u -> letters_ok l -> processRomajiMacron t flags (gb u) l = Some (r, m) ->
  silent t r /\ letters_ok m /\ foreign t u = false.
Proof.
  intros u l r m Hu Hl E.
  assert (F : foreign t u = false).
  { unfold foreign. destruct (is_macron u) eqn:M; [rewrite andb_false_r; reflexivity|].
    unfold processRomajiMacron in E. rewrite (macron_find flags) in E by assumption. discriminate. }
  unfold processRomajiMacron in E. destruct (macronFind Macrons (gb u)) as [[v k]|] eqn:Mf; [|discriminate].
  assert (V : 0 < v < 0x80 /\ silent t k \/ 0 < v < 0x80 /\ hiraganaTarget t = false).
  { destruct (hiraganaTarget t) eqn:Hh.
    - left. assert (t = Hiragana) as T by (destruct t; [reflexivity|discriminate|discriminate]).
      unfold Macrons in Mf. cbn [macronFind] in Mf.
      repeat match type of Mf with (if ?c then _ else _) = _ => destruct c;
        [injection Mf; intros; subst v k; split; [lia|apply out_silent; rewrite T; vm_compute; reflexivity]|] end. discriminate.
    - right. split; [|reflexivity]. unfold Macrons in Mf. cbn [macronFind] in Mf.
      repeat match type of Mf with (if ?c then _ else _) = _ => destruct c; [injection Mf; intros; subst v; lia|] end. discriminate. }
  assert (Vr : 0 < v < 0x80) by (destruct V as [[? _]|[? _]]; assumption).
  assert (Hlv : letters_ok (l ++ [v])) by (apply Forall_app; split; [exact Hl|constructor; [exact Vr|constructor]]).
  assert (Hv : letters_ok [v]) by (constructor; [exact Vr|constructor]).
  pose proof (proc_silent _ Hlv) as P1. pose proof (suffix_ok _ Hlv) as S1.
  pose proof (proc_silent _ Hv) as P2. pose proof (suffix_ok _ Hv) as S2.
  destruct (proc (l ++ [v])) as [a q]. destruct (proc [v]) as [a2 q2]. cbn [fst snd] in *.
  split; [|split; [|exact F]]; destruct q as [|x q]; injection E as <- <-.
  - apply silent_app; [exact P1|]. destruct V as [[_ V]|[_ V]].
    + destruct (hiraganaTarget t && hasFlag flags FlagNoProlongMark); [exact V|].
      exists [G 0x30FC]. repeat split. apply F1. apply ok_G; [lia|reflexivity].
    + rewrite V. cbn [andb]. exists [G 0x30FC]. repeat split. apply F1. apply ok_G; [lia|reflexivity].
  - apply silent_app; [exact P1|]. apply silent_app; [|exact P2]. apply silent_letters.
    assert (exists z, x :: q = removelast (x :: q) ++ [z]) as [z Z] by (exists (List.last (x :: q) 0); apply app_removelast_last; discriminate).
    rewrite Z in S1. apply Forall_app in S1. apply S1.
  - constructor.
  - exact S2.
Qed.
Lemma step_good : forall u us st, glyph_ok u -> good st us -> good (mstep t flags st u) (us ++ [u]).
Proof.
  intros u us [r l] Hu Hg. pose proof Hg as [Hl [os [Eo [Ko Fo]]]]. cbn [fst snd] in *.
  unfold mstep. destruct (is_delim u) eqn:D.
  - destruct u as [c|]; [|discriminate]. cbn [is_delim] in D. cbn [fst snd].
    apply (good_more r l); [exact Hg| |constructor|].
    + apply silent_app; [apply flush_silent; exact Hl|apply wide_silent; exact D].
    + unfold foreign. cbn [is_ascii]. replace (c <? 0x80) with true by (pose proof (delim_ascii c D); lia). reflexivity.
  - unfold toKanaStep. rewrite (single_byte flags) by exact Hu. destruct (is_ascii u) eqn:A.
    + assert (F : foreign t u = false) by (unfold foreign; rewrite A; reflexivity).
      destruct u as [c|]; [|discriminate]. cbn [is_ascii] in A.
      assert (Hc : letters_ok [c]) by (constructor; [destruct Hu as [_ [? _]]; lia|constructor]).
      replace (gb (G c)) with [c] by (rewrite gb_G; unfold enc; rewrite A; reflexivity).
      destruct (negb (isN [c])).
      * assert (Hlc : letters_ok (l ++ [c])) by (apply Forall_app; split; assumption).
        pose proof (proc_silent _ Hlc) as P. pose proof (suffix_ok _ Hlc) as Sf.
        destruct (proc (l ++ [c])) as [a m]. cbn [fst snd] in *. apply (good_more r l); assumption.
      * destruct l as [|x l].
        { replace r with (r ++ []) by apply app_nil_r. apply (good_more r []); try assumption. apply silent_nil. }
        destruct (isN (x :: l)).
        { apply (good_more r (x :: l)); try assumption. exact n_silent. }
        { apply (good_more r (x :: l)); try assumption. apply silent_letters. exact Hl. }
    + destruct (processRomajiMacron t flags (gb u) l) as [[a m]|] eqn:M.
      * apply macron_silent in M; [|exact Hu|exact Hl]. destruct M as [M1 [M2 M3]]. apply (good_more r l); assumption.
      * pose proof (proc_silent l Hl) as P. pose proof (suffix_ok l Hl) as Sf. destruct (proc l) as [a m]. cbn [fst snd] in *.
        destruct P as [oa [-> [Ka Fa]]]. split; [exact Sf|]. exists (os ++ oa ++ [u]). cbn [fst].
        rewrite !gtext_app, gtext_one, Eo, !filter_app, Fo, Fa. split; [reflexivity|]. split; [|reflexivity].
        apply Forall_app. split; [exact Ko|]. apply Forall_app. split; [exact Ka|]. apply F1. exact Hu.
Qed.
Lemma run_good : forall us st p, Forall glyph_ok us -> good st p -> good (run_m t flags us st) (p ++ us).
Proof.
  induction us as [|u us IH]; intros st p Hok Hg; [rewrite app_nil_r; exact Hg|].
  inversion Hok; subst. change (run_m t flags (u :: us) st) with (run_m t flags us (mstep t flags st u)).
  replace (p ++ u :: us) with ((p ++ [u]) ++ us) by (rewrite <- app_assoc; reflexivity).
  apply IH; [assumption|]. apply step_good; assumption.
Qed.
Lemma romaji_foreign : forall ltr us, Forall glyph_ok us ->
  exists os, convertFrom t flags ltr Romaji (gtext us) = Val (gtext os) /\ Forall glyph_ok os
    /\ filter (foreign t) os = filter (foreign t) us.
Proof.
  intros ltr us Hok.
  assert (G0 : good ([], []) []) by (split; [constructor|exists []; repeat split; constructor]).
  pose proof (run_good us ([], []) [] Hok G0) as [Hl [os [E [K F]]]]. cbn [app] in F.
  destruct (flush_silent _ Hl) as [o2 [E2 [K2 F2]]]. exists (os ++ o2).
  rewrite romaji_to_kana by assumption. unfold finish. rewrite E, E2, gtext_app, filter_app, F, F2, app_nil_r.
  split; [reflexivity|]. split; [apply Forall_app; split; assumption|reflexivity].
Qed.
End Other2.
