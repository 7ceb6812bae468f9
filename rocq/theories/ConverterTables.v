(** Checks of every possible group of kana against the Kana table. *)
From Verif Require Import BaseFacts ConverterModel ConverterSpec Utf8Proofs BlockProofs KanaProofs
  Utf8CharProofs Utf8CharLemmas ConverterProofs ConverterKana ConverterRomaji.
Open Scope N_scope.
Arguments N.ltb : simpl never.
Arguments N.leb : simpl never.
Arguments N.eqb : simpl never.
Arguments N.add : simpl never.
Arguments N.sub : simpl never.

(** ** Flags: only two bits matter for Romaji output *)
Definition style (fl : ConvertFlags) : ConvertFlags :=
  (if hasFlag fl FlagHepburn then 1 else 0) + (if hasFlag fl FlagKunrei then 2 else 0).
Lemma romaji_style : forall k fl, getRomaji k fl = getRomaji k (style fl).
Proof.
  intros k fl. unfold getRomaji.
  assert (H : hasFlag (style fl) FlagHepburn = hasFlag fl FlagHepburn)
    by (unfold style; destruct (hasFlag fl FlagHepburn), (hasFlag fl FlagKunrei); reflexivity).
  assert (K : hasFlag (style fl) FlagKunrei = hasFlag fl FlagKunrei)
    by (unfold style; destruct (hasFlag fl FlagHepburn), (hasFlag fl FlagKunrei); reflexivity).
  rewrite H, K. reflexivity.
Qed.
Lemma sokuon_style : forall k fl, getSokuonRomaji k fl = getSokuonRomaji k (style fl).
Proof. intros. unfold getSokuonRomaji. rewrite romaji_style. reflexivity. Qed.
Lemma macron_style : forall fl p pv k so, processKanaMacron Romaji fl p pv k so = processKanaMacron Romaji (style fl) p pv k so.
Proof.
  intros. unfold processKanaMacron, cget, getKana. rewrite sokuon_style, romaji_style. reflexivity.
Qed.
Lemma process_style : forall fl ltr t g pv p, processKana Romaji fl ltr t g pv p = processKana Romaji (style fl) ltr t g pv p.
Proof.
  intros. unfold processKana, processKana1. destruct g as [|n g]; [reflexivity|].
  destruct (mapFind (getMap t) (n :: g)); [apply macron_style|].
  destruct (3 <? len (n :: g)); [|reflexivity].
  destruct (mapFind (getMap t) (firstn 3 (n :: g))) as [a|]; [rewrite (macron_style fl)|];
  (destruct (mapFind (getMap t) (skipn 3 (n :: g))) as [k|]; [|reflexivity]); rewrite !(macron_style fl); 
  try reflexivity.
  destruct (processKanaMacron Romaji (style fl) false None a false) as [o q]. rewrite !(macron_style fl). reflexivity.
Qed.
Lemma style_cases : forall fl, style fl = 0 \/ style fl = 1 \/ style fl = 2 \/ style fl = 3.
Proof. intro fl. unfold style. destruct (hasFlag fl FlagHepburn), (hasFlag fl FlagKunrei); auto. Qed.

(** ** The glyphs of a group's Romaji *)
Definition letters_of (b : bytes) : list glyph := map G (decode b).
Definition okb (g : glyph) : bool :=
  match g with
  | G c => negb (c =? 0) && ((c <? 0x80) || ((c <? 0xD800) && negb (is_mark c)))
  | _ => false
  end.
Lemma okb_ok : forall g, okb g = true -> glyph_ok g.
Proof.
  intros [c|] H; [|discriminate]. cbn in H. rewrite andb_true_iff, negb_true_iff in H. destruct H as [H0 H].
  destruct (c <? 0x80) eqn:E.
  - cbn. unfold scalar. lia.
  - cbn [orb] in H. rewrite andb_true_iff, negb_true_iff in H. apply ok_G; [lia|tauto].
Qed.
Definition group_out (fl : ConvertFlags) (t : CharType) (g : list N) (p : bool) : bytes :=
  fst (processKana Romaji fl true t (text g) None p).
Definition is_source (t : CharType) (g : glyph) : bool := match g with G c => is_kana t c || is_repeat t c | _ => false end.
Definition broken_group (t : CharType) (g : list N) : bool :=
  match g with [a; x; s] => broken t (G a) (G x) (G s) | _ => false end.
(** *** each entry of the table on its own *)
Definition fine (t : CharType) (clean : Prop) (b : bytes) : Prop :=
  gtext (letters_of b) = b /\ Forall glyph_ok (letters_of b) /\ Forall (fun u => foreign t u = false) (letters_of b)
  /\ (clean -> Forall (fun u => is_source t u = false) (letters_of b)).
Definition fineb (t : CharType) (o : bytes) : bool :=
  let os := letters_of o in
  beq (gtext os) o && forallb okb os && forallb (fun u => negb (foreign t u)) os && forallb (fun u => negb (is_source t u)) os.
Lemma fineb_fine : forall t b c, fineb t b = true -> fine t c b.
Proof.
  intros t b c H. unfold fineb in H. cbv zeta in H. rewrite !andb_true_iff in H. destruct H as [[[K1 K2] K3] K4].
  split; [apply beq_eq; exact K1|]. split; [|split; [|intros _]]; apply Forall_forall; intros x Hx.
  - rewrite forallb_forall in K2. apply okb_ok. exact (K2 x Hx).
  - rewrite forallb_forall in K3. specialize (K3 x Hx). rewrite negb_true_iff in K3. exact K3.
  - rewrite forallb_forall in K4. specialize (K4 x Hx). rewrite negb_true_iff in K4. exact K4.
Qed.
Lemma letters_app : forall a b, gtext (letters_of a) = a -> Forall glyph_ok (letters_of a) ->
  gtext (letters_of b) = b -> Forall glyph_ok (letters_of b) -> letters_of (a ++ b) = letters_of a ++ letters_of b.
Proof.
  intros a b Ea Ka Eb Kb. unfold letters_of in *. rewrite gtext_G in Ea, Eb. rewrite <- map_app. f_equal.
  rewrite <- Ea, <- Eb at 1. rewrite <- text_app. apply decode_text.
  assert (K : forall l, Forall glyph_ok (map G l) -> Forall (fun c => scalar c /\ c <> 0) l).
  { intros l H. rewrite Forall_map in H. revert H. apply Forall_impl. intros c [H1 [H2 _]]. auto. }
  apply Forall_app. split; apply K; assumption.
Qed.
Lemma fine_app : forall t c a b, fine t c a -> fine t c b -> fine t c (a ++ b).
Proof.
  intros t c a b [A1 [A2 [A3 A4]]] [B1 [B2 [B3 B4]]]. unfold fine. rewrite letters_app by assumption.
  split; [rewrite gtext_app, A1, B1; reflexivity|]. split; [apply Forall_app; auto|]. split; [apply Forall_app; auto|].
  intro H. apply Forall_app. auto.
Qed.
Lemma fine_weaken : forall t (c c' : Prop) b, (c' -> c) -> fine t c b -> fine t c' b.
Proof. intros t c c' b H [A1 [A2 [A3 A4]]]. repeat split; auto. Qed.
Lemma fine_raw : forall t g, kana_list t g -> fine t False (text g).
Proof.
  intros t g H. assert (E : letters_of (text g) = map G g).
  { unfold letters_of. rewrite decode_text; [reflexivity|]. revert H. apply Forall_impl. intros c Hc. apply is_kana_range in Hc. unfold scalar. lia. }
  unfold fine. rewrite E. split; [apply gtext_G|]. split; [|split; [|intros []]]; apply Forall_map; revert H; apply Forall_impl; intros c Hc.
  - apply (kana_ok t). exact Hc.
  - unfold foreign. rewrite Hc. cbn [orb negb]. rewrite andb_false_r. reflexivity.
Qed.
Definition piece_check (t : CharType) (fl : ConvertFlags) (k : Kana) : bool :=
  forallb (fun so => forallb (fun p => fineb t (fst (processKanaMacron Romaji fl p None k so))) [true; false]) [true; false].
Lemma pieces : forall t fl, kana_type t -> (fl = 0 \/ fl = 1 \/ fl = 2 \/ fl = 3) -> forallb (piece_check t fl) allKana = true.
Proof. intros [| |] fl Ht [-> | [-> | [-> | ->]]]; try (vm_compute; reflexivity); exfalso; apply Ht; reflexivity. Qed.
Lemma piece_fine : forall t fl p pv k so c, kana_type t -> (fl = 0 \/ fl = 1 \/ fl = 2 \/ fl = 3) -> In k allKana ->
  fine t c (fst (processKanaMacron Romaji fl p pv k so)).
Proof.
  intros t fl p pv k so c Ht Hf Hk. pose proof (table_sweep _ (pieces t fl Ht Hf) k Hk) as K. unfold piece_check in K.
  cbn [forallb] in K. rewrite !andb_true_iff in K. apply fineb_fine.
  replace (fst (processKanaMacron Romaji fl p pv k so)) with (fst (processKanaMacron Romaji fl p None k so))
    by (unfold processKanaMacron; destruct p; [|reflexivity]; destruct (negb (romajiTarget Romaji)); [reflexivity|]; destruct (macronOf _); reflexivity).
  destruct so, p; tauto.
Qed.
Lemma single_found : forall t c, kana_type t -> is_kana t c = true -> exists k, mapFind (getMap t) (enc c) = Some k /\ In k allKana.
Proof.
  intros t c Ht Hc. pose proof (is_kana_range t c Hc) as R. pose proof (lookup_code t c Ht ltac:(unfold scalar; lia)) as L. rewrite Hc in L.
  destruct (mapFind (getMap t) (enc c)) as [k|] eqn:E; [|discriminate]. exists k. split; [reflexivity|]. apply lookup_exact in E. tauto.
Qed.
Lemma pair_found : forall t x s, kana_type t -> known_pair t x s = true -> exists k, mapFind (getMap t) (text [x; s]) = Some k.
Proof.
  intros t x s Ht H. unfold known_pair in H. cbv zeta in H. apply existsb_exists in H. destruct H as [k [Hk E]].
  apply beq_eq in E. exists k. apply lookup_exact. split; [exact Hk|].
  destruct t; [left; exact E|left; exact E|exfalso; apply Ht; reflexivity].
Qed.
Lemma cut_first : forall t c g, is_kana t c = true -> firstn 3 (text (c :: g)) = enc c /\ skipn 3 (text (c :: g)) = text g.
Proof.
  intros t c g Hc. rewrite text_cons. pose proof (len_enc_kana t c Hc) as L. unfold len in L.
  assert (Ln : List.length (enc c) = 3%nat) by lia. clear L. destruct (enc c) as [|x [|y [|z [|w r]]]]; try discriminate Ln.
  split; reflexivity.
Qed.
Lemma group_fine : forall t fl g s p, kana_type t -> (fl = 0 \/ fl = 1 \/ fl = 2 \/ fl = 3) -> gstate t g s -> g <> [] ->
  fine t (broken_group t g = false) (group_out fl t g p).
Proof.
  intros t fl g s p Ht Hf Hg Hn. destruct g as [|c g]; [congruence|]. clear Hn.
  pose proof (gstate_kana t _ s Hg) as K. inversion K as [|? ? Kc Kg]; subst.
  unfold group_out, processKana. destruct (text (c :: g)) as [|b0 bs] eqn:Et.
  { exfalso. apply (f_equal len) in Et. rewrite text_cons, len_app, (len_enc_kana t c Kc), len_nil in Et. lia. }
  rewrite <- Et. clear Et b0 bs.
  destruct (mapFind (getMap t) (text (c :: g))) as [k|] eqn:E.
  { apply piece_fine; try assumption. apply lookup_exact in E. tauto. }
  destruct (cut_first t c g Kc) as [F1 F2]. rewrite F1, F2.
  destruct (single_found t c Ht Kc) as [k1 [S1 S2]].
  assert (P1 : forall cl, fine t cl (fst (processKana1 Romaji fl t (enc c)))).
  { intro cl. unfold processKana1. rewrite S1. apply piece_fine; assumption. }
  destruct (3 <? len (text (c :: g))) eqn:L.
  - destruct (mapFind (getMap t) (text g)) as [k|] eqn:E2.
    + assert (Ik : In k allKana) by (apply lookup_exact in E2; tauto).
      destruct (romajiTarget Romaji && _ && _); [apply piece_fine; assumption|].
      specialize (P1 (broken_group t (c :: g) = false)). destruct (processKana1 Romaji fl t (enc c)) as [a p1]. cbn [fst] in P1.
      pose proof (piece_fine t fl p p1 k false (broken_group t (c :: g) = false) Ht Hf Ik) as P2.
      destruct (processKanaMacron Romaji fl p p1 k false) as [b p2]. cbn [fst] in *. apply fine_app; assumption.
    + specialize (P1 False). destruct (processKana1 Romaji fl t (enc c)) as [a p1]. cbn [fst] in *.
      assert (B : broken_group t (c :: g) = false -> False).
      { intro B. destruct g as [|y [|z g]].
        - rewrite text_cons, len_app, (len_enc_kana t _ Kc) in L. change (text []) with (@nil N) in L. rewrite len_nil in L. lia.
        - inversion Kg as [|? ? Ky Kr]; subst. destruct (single_found t _ Ht Ky) as [k [Q _]].
          rewrite text_cons in E2. change (text []) with (@nil N) in E2. rewrite app_nil_r in E2. congruence.
        - assert (H : g = [] /\ is_tsu t c = true /\ is_plain t y = true /\ is_small t z = true).
          { unfold gstate in Hg. decompose [or ex and] Hg; try discriminate.
            match goal with H : c :: y :: z :: g = _ |- _ => injection H; intros; subst end. auto. }
          destruct H as [-> [H1 [H2 H3]]]. cbn [broken_group broken] in B. rewrite H1, H2, H3 in B. cbn [andb] in B.
          rewrite negb_false_iff in B. destruct (pair_found t _ _ Ht B) as [k Q]. congruence. }
      apply (fine_weaken t False); [exact B|]. apply fine_app; [exact P1|]. apply fine_raw. exact Kg.
  - exfalso. assert (G1 : g = []).
    { destruct g as [|y g]; [reflexivity|]. exfalso. inversion Kg; subst.
      rewrite !text_cons, !len_app, (len_enc_kana t c Kc), (len_enc_kana t y) in L by assumption. lia. }
    subst g. rewrite text_cons in E. change (text []) with (@nil N) in E. rewrite app_nil_r in E. congruence.
Qed.

(** ** Reading a group's Romaji back *)
Definition pend (t : CharType) (l : bytes) : bytes := match l with [] => [] | _ => enc (0x3093 + off t) end.
Definition head_after_n (t : CharType) (g : list N) : bool := match g with c :: _ => is_after_n t (G c) | [] => false end.
Definition just_n (t : CharType) (g : list N) : bool := match g with [c] => is_n t c | _ => false end.
Definition trip_check (fl : ConvertFlags) (t : CharType) (g : list N) : bool :=
  forallb (fun p =>
    let os := letters_of (group_out fl t g p) in
    let back := gtext (drop_long t (map G g ++ long_if p)) in
    forallb (fun l =>
      (match l with [] => false | _ => head_after_n t g end)
      || let '(r', l') := run_m t 0 os ([], l) in
         if just_n t g && negb p then beq l' [110] && beq r' (pend t l)
         else beq l' [] && beq r' (pend t l ++ back)) [[]; [110]]) [true; false].
Lemma trip_groups : forall t, kana_type t -> forallb (trip_check 0 t) (all_groups t) = true.
Proof.
  intros [| |] Ht; try (vm_compute; reflexivity); exfalso; apply Ht; reflexivity.
Qed.
