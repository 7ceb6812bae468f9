(** From kana to Romaji and back. *)
From Verif Require Import BaseFacts ConverterModel ConverterSpec Utf8Proofs BlockProofs KanaProofs
  Utf8CharProofs Utf8CharLemmas ConverterProofs ConverterKana ConverterRomaji ConverterTables ConverterTrip.
Open Scope N_scope.
Arguments N.ltb : simpl never.
Arguments N.leb : simpl never.
Arguments N.eqb : simpl never.
Arguments N.add : simpl never.
Arguments N.sub : simpl never.

Section Back.
Variables (t : CharType) (fl : ConvertFlags).
Hypothesis Ht : kana_type t.
Hypothesis Hp : hasFlag fl FlagNoProlongMark = false \/ t = Katakana.
Hypothesis Hs : hasFlag fl FlagRemoveSpaces = false.

(** the flags do not matter then *)
Lemma get_flags : forall k, cget t fl k = cget t 0 k.
Proof. intro k. unfold cget, getKana. destruct t; [reflexivity|reflexivity|exfalso; apply Ht; reflexivity]. Qed.
Lemma romaji_flags : forall l, processRomaji t fl l = processRomaji t 0 l.
Proof.
  induction l as [|x l IH]; cbn [processRomaji].
  - destruct (mapFind RomajiMap (toLower [])); [rewrite get_flags|]; reflexivity.
  - destruct (mapFind RomajiMap (toLower (x :: l))); [rewrite get_flags; reflexivity|].
    rewrite IH. unfold firstOut, getN, getSmallTsu. rewrite !get_flags. reflexivity.
Qed.
Lemma end_flags : forall f r l, toKanaEnd t fl f r l = toKanaEnd t 0 f r l.
Proof.
  induction f as [|f IH]; intros r l; destruct l as [|x l]; try reflexivity.
  cbn [toKanaEnd]. unfold getN. rewrite get_flags, romaji_flags. destruct (isN (x :: l)); [apply IH|].
  destruct (processRomaji t 0 l). apply IH.
Qed.
Lemma flush_flags : forall l, flush t fl l = flush t 0 l.
Proof. intro l. unfold flush. rewrite end_flags. reflexivity. Qed.
Lemma step_flags : forall st u, toKanaStep t fl st u = toKanaStep t 0 st u.
Proof.
  intros [r l] u. unfold toKanaStep, processRomajiMacron, getN. rewrite get_flags, !romaji_flags.
  assert (H : hiraganaTarget t && hasFlag fl FlagNoProlongMark = hiraganaTarget t && hasFlag 0 FlagNoProlongMark).
  { destruct Hp as [-> | ->]; [destruct (hiraganaTarget t); reflexivity|reflexivity]. }
  rewrite H. destruct (isSingleByte u true); [reflexivity|]. destruct (macronFind Macrons u) as [[v k]|]; [|reflexivity].
  rewrite !romaji_flags. reflexivity.
Qed.
Lemma mstep_flags : forall st u, mstep t fl st u = mstep t 0 st u.
Proof.
  intros st u. unfold mstep. rewrite flush_flags, step_flags. destruct (is_delim u); [|reflexivity].
  unfold delim_bytes, delimOut. rewrite Hs. reflexivity.
Qed.
Lemma run_flags : forall us st, run_m t fl us st = run_m t 0 us st.
Proof. induction us as [|u us IH]; intro st; [reflexivity|]. cbn. rewrite mstep_flags. apply IH. Qed.
Lemma finish_flags : forall st, finish t fl st = finish t 0 st.
Proof. intros [r l]. unfold finish. rewrite flush_flags. reflexivity. Qed.

(** the glyphs of the output when there are no iteration marks *)
Definition apos_glyphs (g : list N) (e : ender) : list glyph :=
  if containsKana KanaN (text g) && (match e with EKana c => is_after_n t (G c) | _ => false end) then [G 39] else [].
Definition end_glyphs (e : ender) : list glyph :=
  match e with
  | EOther u => [match u with G c => match narrow_of wide_of c with Some d => G d | None => u end | _ => u end]
  | _ => []
  end.
Fixpoint emit_g (l : list (list N * ender)) : list glyph :=
  match l with
  | [] => []
  | (g, e) :: r => letters_of (group_out 0 t g (is_long_end e)) ++ apos_glyphs g e ++ end_glyphs e ++ emit_g r
  end.
Definition L_ok (g : list N) (l : bytes) : Prop := l = [] \/ (l = [110] /\ g <> [] /\ head_after_n t g = false).

Lemma group_back : forall g s l p r, gstate t g s -> L_ok g l ->
  run_m t 0 (letters_of (group_out 0 t g p)) (r, l) =
  if just_n t g && negb p then (r ++ pend t l, [110])
  else (r ++ pend t l ++ gtext (drop_long t (map G g ++ long_if p)), []).
Proof.
  intros g s l p r Hg Hl. rewrite run_from. destruct g as [|c g'].
  - assert (l = []) by (destruct Hl as [H|[_ [H _]]]; [exact H|congruence]). subst l.
    assert (E : group_out 0 t [] p = if p then ProlongMark else []) by reflexivity. rewrite E.
    destruct p; destruct t; try (exfalso; apply Ht; reflexivity); unfold pre; cbn [just_n andb]; try reflexivity.
  - pose proof (trip_groups t Ht) as K. rewrite forallb_forall in K.
    specialize (K _ (groups_in t _ s Hg ltac:(discriminate))). unfold trip_check in K.
    assert (K' : (match l with [] => false | _ => head_after_n t (c :: g') end)
      || (let '(r', l') := run_m t 0 (letters_of (group_out 0 t (c :: g') p)) ([], l) in
         if just_n t (c :: g') && negb p then beq l' [110] && beq r' (pend t l)
         else beq l' [] && beq r' (pend t l ++ gtext (drop_long t (map G (c :: g') ++ long_if p)))) = true).
    { cbn [forallb] in K. rewrite !andb_true_iff in K. destruct K as [[K1 [K2 _]] [[K3 [K4 _]] _]].
      destruct Hl as [-> | [-> _]]; destruct p; assumption. }
    clear K.
    assert (H0 : (match l with [] => false | _ => head_after_n t (c :: g') end) = false).
    { destruct Hl as [-> | [-> [_ H]]]; [reflexivity|exact H]. }
    rewrite H0 in K'. cbn [orb] in K'.
    destruct (run_m t 0 (letters_of (group_out 0 t (c :: g') p)) ([], l)) as [r' l'].
    unfold pre. cbn [fst snd].
    destruct (just_n t (c :: g') && negb p); rewrite andb_true_iff in K'; destruct K' as [K1 K2];
      apply beq_eq in K1; apply beq_eq in K2; subst; reflexivity.
Qed.

Lemma flush_n : flush t 0 [110] = enc (0x3093 + off t).
Proof. destruct t; [reflexivity|reflexivity|exfalso; apply Ht; reflexivity]. Qed.
Lemma flush_nil : flush t 0 [] = []. Proof. reflexivity. Qed.
Definition L_any (l : bytes) : Prop := l = [] \/ l = [110].
Lemma flush_any : forall l, L_any l -> flush t 0 l = pend t l.
Proof. intros l [-> | ->]; [reflexivity|apply flush_n]. Qed.
Lemma macron_find : forall g, glyph_ok g -> is_macron g = false -> macronFind Macrons (gb g) = None.
Proof.
  intros g Hg Hm. unfold Macrons. cbn [macronFind].
  change [196; 129] with (gb (G 0x101)). change [196; 171] with (gb (G 0x12B)). change [197; 171] with (gb (G 0x16B)).
  change [196; 147] with (gb (G 0x113)). change [197; 141] with (gb (G 0x14D)).
  rewrite !(beq_sym _ (gb g)), !beq_gb by (first [assumption | apply ok_G; [lia|reflexivity]]).
  destruct g as [c|]; [|reflexivity]. unfold is_macron, mem in Hm. cbn [existsb] in Hm. cbn [glyph_eqb].
  replace (c =? 257) with false by lia. replace (c =? 299) with false by lia. replace (c =? 363) with false by lia.
  replace (c =? 275) with false by lia. replace (c =? 333) with false by lia. reflexivity.
Qed.
Lemma single_byte : forall g, glyph_ok g -> isSingleByte (gb g) true = is_ascii g.
Proof.
  intros [c|c v] H.
  - rewrite gb_G. unfold is_ascii. destruct (c <? 0x80) eqn:E.
    + unfold enc. rewrite E. unfold isSingleByte. cbn. unfold isSingleByteChar. rewrite E. reflexivity.
    + pose proof (enc_len_mb c ltac:(lia)) as Hl. unfold isSingleByte.
      replace (len (enc c) =? 1) with false by lia. destruct (len (enc c) =? 0); reflexivity.
  - rewrite gb_GV. unfold is_ascii. destruct H as [_ [[Hc _] _]]. pose proof (enc_len_mb c Hc) as Hl.
    unfold isSingleByte. rewrite len_app. replace (len (enc c) + len (enc v) =? 1) with false by lia.
    destruct (len (enc c) + len (enc v) =? 0); reflexivity.
Qed.
Lemma other_back : forall u r l, glyph_ok u -> romaji_free t u = true -> L_any l ->
  mstep t 0 (r, l) (match u with G c => match narrow_of wide_of c with Some d => G d | None => u end | _ => u end)
  = (r ++ pend t l ++ gb u, []).
Proof.
  intros u r l Hu Hf Hl.
  unfold romaji_free in Hf. rewrite !andb_true_iff, !negb_true_iff in Hf. destruct Hf as [[Ha Hm] _].
  assert (Plain_ : mstep t 0 (r, l) u = (r ++ pend t l ++ gb u, [])).
  { unfold mstep. replace (is_delim u) with false.
    2:{ destruct u as [c|]; [|reflexivity]. symmetry. destruct (is_delim (G c)) eqn:E; [|reflexivity].
        cbn [is_delim] in E. apply delim_ascii in E. cbn in Ha. lia. }
    unfold toKanaStep. rewrite single_byte by exact Hu. rewrite Ha. unfold processRomajiMacron.
    rewrite macron_find by assumption.
    assert (Pl : processRomaji t 0 l = (pend t l, [])).
    { destruct Hl as [-> | ->]; destruct t; try reflexivity; exfalso; apply Ht; reflexivity. }
    rewrite Pl. reflexivity. }
  destruct u as [c|]; [|exact Plain_]. destruct (narrow_of wide_of c) as [n|] eqn:E; [|exact Plain_].
  apply narrow_in in E.
  assert (A : forallb (fun p => is_delim (G (fst p)) && beq (delim_bytes 0 (G (fst p))) (gb (G (snd p)))) wide_of = true)
    by (vm_compute; reflexivity).
  rewrite forallb_forall in A. specialize (A _ E). cbn [fst snd] in A. rewrite andb_true_iff in A. destruct A as [A1 A2].
  apply beq_eq in A2. unfold mstep. rewrite A1. cbn [fst snd]. rewrite flush_any, A2 by exact Hl. reflexivity.
Qed.
Lemma apos_back : forall r l, L_any l -> mstep t 0 (r, l) (G 39) = (r ++ pend t l, []).
Proof.
  intros r l Hl. unfold mstep. change (is_delim (G 39)) with true. cbv iota. cbn [fst snd].
  rewrite flush_any by exact Hl. change (delim_bytes 0 (G 39)) with (@nil N). rewrite app_nil_r. reflexivity.
Qed.
Lemma contains_n : forall g s, gstate t g s -> containsKana KanaN (text g) = just_n t g.
Proof.
  intros g s Hg. destruct g as [|a [|b g]].
  - reflexivity.
  - cbn [just_n]. unfold text. cbn [flat_map]. rewrite app_nil_r.
    pose proof (gstate_kana t _ s Hg) as K. inversion K; subst. apply is_n_kana; assumption.
  - cbn [just_n]. pose proof (len_group t _ (gstate_kana t _ s Hg)) as Hl. rewrite !len_cons in Hl.
    unfold containsKana.
    assert (D : forall x, len x = 3 -> beq (text (a :: b :: g)) x = false).
    { intros x Hx. apply beq_neq. intro E. rewrite E, Hx in Hl. lia. }
    rewrite !D by reflexivity. reflexivity.
Qed.

Lemma drop_n : forall x, is_n t x = true -> gtext (drop_long t (map G [x])) = enc (0x3093 + off t).
Proof.
  intros x H. unfold is_n in H. assert (x = 0x3093 + off t) by lia. subst x.
  unfold drop_long. cbn [map walk]. rewrite gtext_one. apply gb_G.
Qed.
Lemma walk_back : forall us g s r l, Forall glyph_ok us -> Forall (fun u => romaji_free t u = true) us ->
  gstate t g s -> L_ok g l ->
  finish t 0 (run_m t 0 (emit_g (groups t g s us)) (r, l)) = r ++ pend t l ++ gtext (drop_long t (map G g ++ us)).
Proof.
  induction us as [|u us IH]; intros g s r l Hok Hf Hg Hl.
  - cbn [groups emit_g is_long_end end_glyphs]. unfold apos_glyphs. rewrite andb_false_r. cbn [app]. rewrite !app_nil_r.
    rewrite (group_back g s l false r Hg Hl). cbn [negb long_if]. rewrite andb_true_r.
    destruct (just_n t g) eqn:J.
    + unfold finish. cbn [fst snd]. rewrite flush_n. destruct g as [|x [|]]; try discriminate. cbn [just_n] in J.
      rewrite <- app_assoc. rewrite drop_n by exact J. reflexivity.
    + unfold finish. cbn [fst snd]. rewrite flush_nil, !app_nil_r. reflexivity.
  - inversion Hok as [|? ? Hu Hus]; subst. inversion Hf as [|? ? Hfu Hfus]; subst. cbn [groups].
    pose proof (class_cases t u Hu) as CC.
    assert (Bd : boundary t g s u -> is_long u = false ->
      gtext (drop_long t (map G g ++ u :: us)) = gtext (drop_long t (map G g)) ++ gtext (drop_long t (u :: us))).
    { intros B L. unfold drop_long. rewrite (walk_split t (fun g => g) g s u us Hg B), L, gtext_app. reflexivity. }
    assert (Jn : just_n t g = true -> gtext (drop_long t (map G g)) = enc (0x3093 + off t)).
    { intro J. destruct g as [|x [|]]; try discriminate. cbn [just_n] in J. apply drop_n. exact J. }
    destruct (class_of t u) as [|m|c|] eqn:C.
    + cbn [emit_g is_long_end end_glyphs]. unfold apos_glyphs. rewrite andb_false_r. cbn [app].
      rewrite run_app, (group_back g s l true r Hg Hl). cbn [negb]. rewrite andb_false_r.
      rewrite (IH [] SNew) by (first [assumption | left; reflexivity | left; auto]). cbn [pend map app long_if].
      unfold drop_long. rewrite (walk_split t (fun g => g) g s u us Hg) by (unfold boundary; rewrite C; exact I).
      subst u. change (is_long (G 0x30FC)) with true. cbv iota. rewrite gtext_app, <- !app_assoc. reflexivity.
    + exfalso. destruct CC as [-> _]. unfold romaji_free in Hfu. rewrite !andb_true_iff, !negb_true_iff in Hfu.
      destruct Hfu as [_ Hr]. unfold is_repeat in Hr. destruct (imDakuten m); lia.
    + destruct CC as [-> Kc]. destruct (extends t g s c) as [s'|] eqn:X.
      * rewrite (IH (g ++ [c]) s'); [rewrite map_app, <- app_assoc; reflexivity|assumption|assumption|eapply extend_state; eassumption|].
        destruct Hl as [-> | [-> [H1 H2]]]; [left; reflexivity|right]. destruct g; [congruence|]. split; [reflexivity|]. split; [discriminate|exact H2].
      * assert (L : is_long (G c) = false) by (unfold class_of in C; destruct (is_long (G c)); [discriminate|reflexivity]).
        cbn [emit_g is_long_end end_glyphs app]. rewrite run_app, (group_back g s l false r Hg Hl). cbn [negb long_if].
        rewrite andb_true_r, app_nil_r. unfold apos_glyphs. rewrite (contains_n g s Hg).
        rewrite Bd by (try exact L; unfold boundary; rewrite C; exact X).
        destruct (just_n t g) eqn:J; cbn [andb].
        -- rewrite Jn by reflexivity. destruct (is_after_n t (G c)) eqn:An.
           ++ change (run_m t 0 ([G 39] ++ emit_g (groups t [c] (fresh t c) us)) (r ++ pend t l, [110]))
                with (run_m t 0 (emit_g (groups t [c] (fresh t c) us)) (mstep t 0 (r ++ pend t l, [110]) (G 39))).
              rewrite apos_back by (right; reflexivity).
              rewrite (IH [c]); [|assumption|assumption|apply fresh_state; exact Kc|left; reflexivity].
              cbn [pend map app]. rewrite <- !app_assoc. reflexivity.
           ++ cbn [app]. rewrite (IH [c]); [|assumption|assumption|apply fresh_state; exact Kc|].
              2:{ right. split; [reflexivity|]. split; [discriminate|exact An]. }
              cbn [pend map app]. rewrite <- !app_assoc. reflexivity.
        -- cbn [app]. rewrite (IH [c]); [|assumption|assumption|apply fresh_state; exact Kc|left; reflexivity].
           cbn [pend map app]. rewrite <- !app_assoc. reflexivity.
    + destruct CC as [L [R Kc]].
      cbn [emit_g is_long_end end_glyphs]. unfold apos_glyphs. rewrite andb_false_r. cbn [app].
      rewrite run_app, (group_back g s l false r Hg Hl). cbn [negb long_if]. rewrite andb_true_r, app_nil_r.
      rewrite Bd by (try exact L; unfold boundary; rewrite C; exact I).
      assert (W : gtext (drop_long t (u :: us)) = gb u ++ gtext (drop_long t us)).
      { unfold drop_long. rewrite walk_skip; [apply gtext_cons|]. destruct u as [c|]; [|exact I].
        destruct (is_tsu t c) eqn:E; [|reflexivity]. apply tsu_is_kana in E. congruence. }
      rewrite W.
      match goal with |- context[run_m t 0 (?x :: ?y) ?st] => change (run_m t 0 (x :: y) st) with (run_m t 0 y (mstep t 0 st x)) end.
      destruct (just_n t g) eqn:J.
      * rewrite other_back by (try assumption; right; reflexivity).
        rewrite (IH [] SNew) by (first [assumption | left; reflexivity | left; auto]).
        rewrite Jn by reflexivity. cbn [pend map app]. rewrite <- !app_assoc. reflexivity.
      * rewrite other_back by (try assumption; left; reflexivity).
        rewrite (IH [] SNew) by (first [assumption | left; reflexivity | left; auto]).
        cbn [pend map app]. rewrite <- !app_assoc. reflexivity.
Qed.

(** the glyphs are those of the output *)
Lemma emit_emit_g : forall f1 ltr, style f1 = 0 -> forall us g s prev, Forall glyph_ok us ->
  Forall (fun u => romaji_free t u = true) us -> gstate t g s ->
  emit Romaji f1 ltr t prev (groups t g s us) = gtext (emit_g (groups t g s us)) /\ Forall glyph_ok (emit_g (groups t g s us)).
Proof.
  intros f1 ltr Hst.
  assert (One : forall g s prev e r, gstate t g s -> (match e with ERepeat _ => False | EOther u => glyph_ok u | _ => True end) ->
    (forall p, emit Romaji f1 ltr t p r = gtext (emit_g r)) -> Forall glyph_ok (emit_g r) ->
    emit Romaji f1 ltr t prev ((g, e) :: r) = gtext (emit_g ((g, e) :: r)) /\ Forall glyph_ok (emit_g ((g, e) :: r))).
  { intros g s prev e r Hg He Hr Hok. cbn [emit emit_g].
    pose proof (group_out_eq f1 ltr t g prev (is_long_end e)) as GE. rewrite Hst in GE.
    destruct (processKana Romaji f1 ltr t (text g) prev (is_long_end e)) as [o p]. cbn [fst] in GE. subst o.
    destruct (group_facts 0 t g s (is_long_end e) Ht Hg) as [A [B _]]. change (style 0) with 0 in A, B.
    assert (Ap : apostrophe Romaji t g e = gtext (apos_glyphs g e) /\ Forall glyph_ok (apos_glyphs g e)).
    { unfold apostrophe, apos_glyphs. change (ctEqb Romaji Romaji) with true. cbn [andb].
      destruct (containsKana KanaN (text g) && _); split; [reflexivity|apply F1; cbn; unfold scalar; lia|reflexivity|constructor]. }
    destruct Ap as [Ap1 Ap2].
    assert (En : end_bytes Romaji f1 e p = gtext (end_glyphs e) /\ Forall glyph_ok (end_glyphs e)).
    { destruct e as [c| |m|u|]; try (split; [reflexivity|constructor]); [contradiction|].
      cbn [end_bytes end_glyphs]. change (ctEqb Romaji Romaji) with true. cbv iota. rewrite gtext_one.
      destruct u as [c|]; [|split; [reflexivity|apply F1; exact He]].
      destruct (narrow_of wide_of c) as [n|] eqn:E; [|split; [reflexivity|apply F1; exact He]].
      apply narrow_in in E. destruct (wide_sane _ _ E) as [X Y].
      split; [rewrite gb_G; unfold enc; replace (n <? 128) with true by lia; reflexivity|apply F1; cbn; unfold scalar; lia]. }
    destruct En as [En1 En2]. split.
    - rewrite !gtext_app, A, <- Ap1, <- En1, Hr. reflexivity.
    - repeat (apply Forall_app; split); assumption. }
  induction us as [|u us IH]; intros g s prev Hok Hf Hg.
  - cbn [groups]. apply (One g s); [exact Hg|exact I|reflexivity|constructor].
  - inversion Hok as [|? ? Hu Hus]; subst. inversion Hf as [|? ? Hfu Hfus]; subst. cbn [groups].
    pose proof (class_cases t u Hu) as CC.
    assert (G0 : gstate t [] SNew) by (left; auto).
    destruct (class_of t u) as [|m|c|] eqn:C.
    + apply (One g s); [exact Hg|exact I|intro; apply IH; assumption|apply (IH [] SNew None); assumption].
    + exfalso. destruct CC as [-> _]. unfold romaji_free in Hfu. rewrite !andb_true_iff, !negb_true_iff in Hfu.
      destruct Hfu as [_ Hr]. unfold is_repeat in Hr. destruct (imDakuten m); lia.
    + destruct CC as [-> Kc]. destruct (extends t g s c) as [s'|] eqn:X.
      * apply IH; try assumption. eapply extend_state; eassumption.
      * pose proof (fresh_state t c Kc) as Gf.
        apply (One g s); [exact Hg|exact I|intro; apply IH; assumption|apply (IH [c] (fresh t c) None); assumption].
    + apply (One g s); [exact Hg|exact Hu|intro; apply IH; assumption|apply (IH [] SNew None); assumption].
Qed.

Lemma there_and_back : forall f1 ltr ltr' us, hasFlag f1 FlagHepburn = false -> hasFlag f1 FlagKunrei = false ->
  Forall glyph_ok us -> Forall (fun u => romaji_free t u = true) us ->
  exists r, convertFrom Romaji f1 ltr t (gtext us) = Val r
    /\ convertFrom t fl ltr' Romaji r = Val (gtext (drop_long t us)).
Proof.
  intros f1 ltr ltr' us H1 H2 Hok Hf.
  assert (Hst : style f1 = 0) by (unfold style; rewrite H1, H2; reflexivity).
  assert (G0 : gstate t [] SNew) by (left; auto).
  destruct (emit_emit_g f1 ltr Hst us [] SNew None Hok Hf G0) as [A B].
  exists (gtext (emit_g (groups t [] SNew us))). split.
  - unfold convertFrom.
    replace (ctEqb t Romaji) with false by (destruct t; try reflexivity; exfalso; apply Ht; reflexivity).
    replace (match t with Romaji => fromRomaji Romaji f1 (gtext us) [] | _ => fromKana Romaji f1 ltr (gtext us) t end)
      with (fromKana Romaji f1 ltr (gtext us) t) by (destruct t; try reflexivity; exfalso; apply Ht; reflexivity).
    rewrite fromKana_emit by assumption. rewrite A. reflexivity.
  - rewrite romaji_to_kana by assumption. rewrite run_flags, finish_flags.
    f_equal. refine (walk_back us [] SNew [] [] Hok Hf G0 _). left. reflexivity.
Qed.
End Back.
