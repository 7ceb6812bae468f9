(** Kana to Romaji: what the output contains, and the way back. *)
From Verif Require Import BaseFacts ConverterModel ConverterSpec Utf8Proofs BlockProofs KanaProofs
  Utf8CharProofs Utf8CharLemmas ConverterProofs ConverterKana ConverterRomaji ConverterTables.
Open Scope N_scope.
Arguments N.ltb : simpl never.
Arguments N.leb : simpl never.
Arguments N.eqb : simpl never.
Arguments N.add : simpl never.
Arguments N.sub : simpl never.

Lemma group_out_eq : forall fl ltr t g prev p,
  fst (processKana Romaji fl ltr t (text g) prev p) = group_out (style fl) t g p.
Proof.
  intros. unfold group_out. rewrite (process_prev _ _ _ _ _ prev None), process_style.
  destruct ltr; [reflexivity|]. symmetry. apply process_order.
Qed.
Lemma group_facts : forall fl t g s p, kana_type t -> gstate t g s ->
  let o := group_out (style fl) t g p in
  gtext (letters_of o) = o /\ Forall glyph_ok (letters_of o) /\ Forall (fun u => foreign t u = false) (letters_of o)
  /\ (broken_group t g = false -> Forall (fun u => is_source t u = false) (letters_of o)).
Proof.
  intros fl t g s p Ht Hg o. subst o. destruct g as [|c g'].
  - assert (E : group_out (style fl) t [] p = if p then ProlongMark else []) by reflexivity. rewrite E.
    destruct p; [|cbn; auto]. change (letters_of ProlongMark) with [G 0x30FC].
    split; [reflexivity|]. split; [apply F1, ok_G; [lia|reflexivity]|].
    split; [constructor; [destruct t; reflexivity|constructor]|]. intros _. constructor; [|constructor].
    destruct t; [reflexivity|reflexivity|exfalso; apply Ht; reflexivity].
  - exact (group_fine t (style fl) (c :: g') s p Ht (style_cases fl) Hg ltac:(discriminate)).
Qed.

(** ** Iteration marks *)
Definition known (p : option Kana) : Prop := match p with Some k => In k allKana | None => True end.
Lemma map_known : forall t s k, mapFind (getMap t) s = Some k -> In k allKana.
Proof. intros t s k H. apply lookup_exact in H. tauto. Qed.
Lemma macron_known : forall tg fl p pv k so, known pv -> In k allKana -> known (snd (processKanaMacron tg fl p pv k so)).
Proof.
  intros tg fl p pv k so H1 H2. unfold processKanaMacron. destruct p; [|exact H2].
  destruct (negb (romajiTarget tg)); [exact H1|]. destruct (macronOf _); exact H1.
Qed.
Lemma process_known : forall tg fl ltr t g prev p, known prev -> known (snd (processKana tg fl ltr t g prev p)).
Proof.
  intros tg fl ltr t g prev p H. unfold processKana. destruct g as [|n g]; [exact H|].
  destruct (mapFind (getMap t) (n :: g)) as [k|] eqn:E1; [apply macron_known; [exact I|eapply map_known; eassumption]|].
  destruct (3 <? len (n :: g)); [|exact I].
  assert (K1 : known (snd (processKana1 tg fl t (firstn 3 (n :: g))))).
  { unfold processKana1. destruct (mapFind (getMap t) (firstn 3 (n :: g))) as [k|] eqn:E; [|exact I].
    apply macron_known; [exact I|eapply map_known; eassumption]. }
  destruct (mapFind (getMap t) (skipn 3 (n :: g))) as [k|] eqn:E2.
  - apply map_known in E2. destruct (_ && _ && _); [apply macron_known; [exact I|exact E2]|].
    destruct (processKana1 tg fl t (firstn 3 (n :: g))) as [a p1]. cbn [snd] in K1.
    destruct ltr.
    + pose proof (macron_known tg fl p p1 k false K1 E2) as K2. destruct (processKanaMacron tg fl p p1 k false). exact K2.
    + destruct (processKanaMacron tg fl p None k false). exact K1.
  - destruct (processKana1 tg fl t (firstn 3 (n :: g))) as [a p1]. exact K1.
Qed.
Definition plainb (b : bytes) : bool := forallb (fun x => (0 <? x) && (x <? 0x80)) b.
Definition mark_check (fl : ConvertFlags) (k : Kana) : bool :=
  plainb (markGet RepeatPlain Romaji fl (Some k)) && plainb (markGet RepeatAccented Romaji fl (Some k)).
Lemma marks_plain : forall fl k, (fl = 0 \/ fl = 1 \/ fl = 2 \/ fl = 3) -> In k allKana -> mark_check fl k = true.
Proof.
  intros fl k H Hk. apply (table_sweep (mark_check fl)); [|exact Hk].
  destruct H as [-> | [-> | [-> | ->]]]; vm_compute; reflexivity.
Qed.
Lemma mark_plain : forall fl m prev, (m = RepeatPlain \/ m = RepeatAccented) -> known prev ->
  plainb (markGet m Romaji fl prev) = true.
Proof.
  intros fl m prev Hm Hp. destruct prev as [k|]; [|reflexivity].
  assert (E : markGet m Romaji fl (Some k) = markGet m Romaji (style fl) (Some k)) by (cbn; rewrite romaji_style; reflexivity).
  rewrite E. pose proof (marks_plain (style fl) k (style_cases fl) Hp) as M. unfold mark_check in M.
  rewrite andb_true_iff in M. destruct Hm as [-> | ->]; tauto.
Qed.
Lemma plain_glyphs : forall t b, plainb b = true -> gtext (map G b) = b /\ Forall glyph_ok (map G b)
  /\ Forall (fun u => foreign t u = false) (map G b) /\ Forall (fun u => is_source t u = false) (map G b).
Proof.
  intro t. induction b as [|x b IH]; intro H; [cbn; auto|]. unfold plainb in H. cbn [forallb] in H.
  rewrite !andb_true_iff in H. destruct H as [[H1 H2] H]. destruct (IH H) as [A [B [C D]]].
  cbn [map]. split; [rewrite gtext_cons, gb_G, A; unfold enc; replace (x <? 128) with true by lia; reflexivity|].
  split; [constructor; [|exact B]; cbn; unfold scalar; lia|].
  split; constructor; try assumption.
  - unfold foreign, is_ascii. replace (x <? 0x80) with true by lia. reflexivity.
  - unfold is_source, is_kana, is_repeat. lia.
Qed.

(** ** Wide delimiters *)
Lemma narrow_in : forall d c n, narrow_of d c = Some n -> In (n, c) d.
Proof.
  induction d as [|[n' w] d IH]; intros c n H; [discriminate|]. cbn in H. destruct (w =? c) eqn:E.
  - injection H as <-. left. f_equal. lia.
  - right. apply IH. exact H.
Qed.
Lemma narrow_none : forall d c, narrow_of d c = None -> mem c (map snd d) = false.
Proof.
  induction d as [|[n' w] d IH]; intros c H; [reflexivity|]. cbn [narrow_of] in H. destruct (w =? c) eqn:E; [discriminate|].
  specialize (IH c H). unfold mem in *. cbn [map snd existsb]. rewrite IH. lia.
Qed.
Lemma wide_sane : forall n w, In (n, w) wide_of -> 0 < n < 0x80 /\ 0x80 <= w.
Proof.
  intros n w H. assert (A : forallb (fun p => (0 <? fst p) && (fst p <? 0x80) && (0x80 <=? snd p)) wide_of = true) by reflexivity.
  rewrite forallb_forall in A. specialize (A _ H). cbn in A. lia.
Qed.
Lemma wide_in : forall n w, In (n, w) wide_of -> is_wide (G w) = true.
Proof.
  intros n w H. unfold is_wide, mem. apply existsb_exists. exists w. split; [|apply N.eqb_refl].
  apply in_map_iff. exists (n, w). auto.
Qed.

(** ** The output *)
Lemma gtext_one : forall u, gtext [u] = gb u. Proof. intro. unfold gtext. cbn [flat_map]. apply app_nil_r. Qed.
Lemma apos_glyph : forall tg t g e, exists a, apostrophe tg t g e = gtext a /\ (a = [] \/ a = [G 39]).
Proof. intros. unfold apostrophe. destruct (_ && _ && _); [exists [G 39]|exists []]; auto. Qed.
Lemma has_broken_later : forall t p q, ~ has_broken t (p ++ q) -> ~ has_broken t q.
Proof.
  intros t p q H [p' [a [x [s [q' [E B]]]]]]. apply H. exists (p ++ p'), a, x, s, q'.
  split; [rewrite E, app_assoc; reflexivity|exact B].
Qed.
Lemma broken_first : forall t g q, ~ has_broken t (map G g ++ q) -> broken_group t g = false.
Proof.
  intros t g q H. destruct g as [|a [|x [|s [|z g]]]]; try reflexivity. cbn [broken_group].
  destruct (broken t (G a) (G x) (G s)) eqn:E; [|reflexivity]. exfalso. apply H. exists [], (G a), (G x), (G s), q. auto.
Qed.
Lemma filter_none : forall A (f : A -> bool) l, Forall (fun x => f x = false) l -> filter f l = [].
Proof. intros A f l H. induction H as [|x l Hx H IH]; [reflexivity|]. cbn. rewrite Hx. exact IH. Qed.
Lemma foreign_kana : forall t c, is_kana t c = true -> foreign t (G c) = false.
Proof. intros t c H. unfold foreign. rewrite H. cbn [orb negb]. rewrite andb_false_r. reflexivity. Qed.
Definition output_ok (t : CharType) (clean : Prop) (us os : list glyph) (b : bytes) : Prop :=
  b = gtext os /\ Forall glyph_ok os /\ filter (foreign t) os = filter (foreign t) us
  /\ (clean -> Forall (fun u => is_source t u = false) os).
Lemma output_app : forall t c us1 us2 os1 os2 b1 b2,
  output_ok t c us1 os1 b1 -> output_ok t c us2 os2 b2 -> output_ok t c (us1 ++ us2) (os1 ++ os2) (b1 ++ b2).
Proof.
  intros t c us1 us2 os1 os2 b1 b2 [A1 [A2 [A3 A4]]] [B1 [B2 [B3 B4]]].
  split; [rewrite A1, B1, gtext_app; reflexivity|]. split; [apply Forall_app; auto|].
  split; [rewrite !filter_app, A3, B3; reflexivity|]. intro H. apply Forall_app. auto.
Qed.
Lemma output_weaken : forall t (c c' : Prop) us os b, (c' -> c) -> output_ok t c us os b -> output_ok t c' us os b.
Proof. intros t c c' us os b H [A1 [A2 [A3 A4]]]. repeat split; auto. Qed.
Lemma group_output : forall fl t g s p (c : Prop), kana_type t -> gstate t g s -> (c -> broken_group t g = false) ->
  output_ok t c (map G g ++ long_if p) (letters_of (group_out (style fl) t g p)) (group_out (style fl) t g p).
Proof.
  intros fl t g s p c Ht Hg Hc. destruct (group_facts fl t g s p Ht Hg) as [A [B [C D]]].
  split; [symmetry; exact A|]. split; [exact B|]. split.
  - rewrite (filter_none _ _ _ C). symmetry. apply filter_none. apply Forall_app. split.
    + apply Forall_map. pose proof (gstate_kana t g s Hg) as K. unfold kana_list in K.
      eapply Forall_impl; [|exact K]. intros a. apply foreign_kana.
    + destruct p; constructor; [|constructor]. unfold foreign, is_long. rewrite N.eqb_refl. cbn [negb]. rewrite !andb_false_r. reflexivity.
  - intro H. apply D. apply Hc. exact H.
Qed.
Lemma output_nil : forall t c, output_ok t c [] [] []. Proof. intros. repeat split; constructor. Qed.
Lemma output_apos : forall tg t g e c, exists a, output_ok t c [] a (apostrophe tg t g e).
Proof.
  intros tg t g e c. unfold apostrophe. destruct (_ && _ && _).
  - exists [G 39]. split; [reflexivity|]. split; [apply F1; cbn; unfold scalar; lia|]. split; [reflexivity|].
    intros _. constructor; [|constructor]. unfold is_source, is_kana, is_repeat. lia.
  - exists []. apply output_nil.
Qed.
Lemma emit_output : forall fl ltr t, kana_type t -> forall us g s prev, Forall glyph_ok us -> gstate t g s -> known prev ->
  exists os, output_ok t (~ has_broken t (map G g ++ us)) (map G g ++ us) os (emit Romaji fl ltr t prev (groups t g s us)).
Proof.
  intros fl ltr t Ht. induction us as [|u us IH]; intros g s prev Hok Hg Hp.
  - cbn [groups emit is_long_end end_bytes].
    pose proof (group_out_eq fl ltr t g prev false) as GE.
    destruct (processKana Romaji fl ltr t (text g) prev false) as [o p1]. cbn [fst] in GE. subst o.
    pose proof (group_output fl t g s false (~ has_broken t (map G g ++ [])) Ht Hg (broken_first t g [])) as O1.
    cbn [long_if] in O1. rewrite app_nil_r in *.
    destruct (output_apos Romaji t g EEnd (~ has_broken t (map G g))) as [a O2].
    exists (letters_of (group_out (style fl) t g false) ++ a).
    cbn [app]. rewrite app_nil_r. rewrite <- (app_nil_r (map G g)) at 2.
    apply output_app; [exact O1|exact O2].
  - inversion Hok as [|? ? Hu Hus]; subst. cbn [groups]. pose proof (class_cases t u Hu) as CC.
    set (cl := ~ has_broken t (map G g ++ u :: us)).
    assert (CB : cl -> broken_group t g = false) by (intro; eapply broken_first; eassumption).
    assert (Main : forall e p vs gs' s' os3 ext,
      p = is_long_end e -> map G g ++ u :: us = (map G g ++ long_if p) ++ vs ++ map G gs' ++ us ->
      gstate t gs' s' -> (forall p1, known p1 -> output_ok t cl vs (os3 p1) (ext p1)) ->
      (forall p1, ext p1 = end_bytes Romaji fl e p1) ->
      exists os, output_ok t cl (map G g ++ u :: us) os (emit Romaji fl ltr t prev ((g, e) :: groups t gs' s' us))).
    { intros e p vs gs' s' os3 ext Ep Eu Hg' O3 Ee. cbn [emit].
      pose proof (group_out_eq fl ltr t g prev (is_long_end e)) as GE.
      pose proof (process_known Romaji fl ltr t (text g) prev (is_long_end e) Hp) as KE.
      destruct (processKana Romaji fl ltr t (text g) prev (is_long_end e)) as [o p1]. cbn [fst snd] in GE, KE. subst o.
      pose proof (group_output fl t g s (is_long_end e) cl Ht Hg CB) as O1. rewrite <- Ep in O1.
      destruct (output_apos Romaji t g e cl) as [a O2].
      destruct (IH gs' s' p1 Hus Hg' KE) as [os4 O4].
      apply (output_weaken _ _ cl) in O4.
      2:{ unfold cl. rewrite Eu. rewrite app_assoc. apply has_broken_later. }
      exists (letters_of (group_out (style fl) t g p) ++ a ++ os3 p1 ++ os4).
      rewrite Eu, <- Ep, <- Ee. change (vs ++ map G gs' ++ us) with ([] ++ vs ++ map G gs' ++ us).
      repeat (apply output_app; [first [exact O1|exact O2|exact (O3 p1 KE)]|]). exact O4. }
    destruct (class_of t u) as [|m|c|] eqn:C.
    + subst u. apply (Main ELong true [] [] SNew (fun _ => []) (fun _ => [])); try reflexivity; [|left; auto|intros; apply output_nil].
      cbn [long_if map app]. rewrite <- app_assoc. reflexivity.
    + destruct CC as [Eu Em].
      apply (Main (ERepeat m) false [u] [] SNew (fun p1 => map G (markGet m Romaji fl p1)) (fun p1 => markGet m Romaji fl p1));
        try reflexivity; [|left; auto|].
      * cbn [long_if map app]. rewrite app_nil_r. reflexivity.
      * intros p1 K1. destruct (plain_glyphs t _ (mark_plain fl m p1 Em K1)) as [A [B [D E]]].
        split; [symmetry; exact A|]. split; [exact B|]. split; [|intros _; exact E].
        rewrite (filter_none _ _ _ D). subst u. cbn [filter]. unfold foreign.
        replace (is_repeat t _) with true; [rewrite orb_true_r; cbn [negb]; rewrite andb_false_r; reflexivity|].
        unfold is_repeat. destruct (imDakuten m); lia.
    + destruct CC as [-> Kc]. destruct (extends t g s c) as [s'|] eqn:X.
      * destruct (IH (g ++ [c]) s' prev Hus) as [os O]; [eapply extend_state; eassumption|exact Hp|].
        exists os. rewrite map_app, <- app_assoc in O. exact O.
      * apply (Main (EKana c) false [] [c] (fresh t c) (fun _ => []) (fun _ => [])); try reflexivity;
          [|apply fresh_state; exact Kc|intros; apply output_nil].
        cbn [long_if map app]. rewrite app_nil_r. reflexivity.
    + destruct CC as [L [R Kc]].
      apply (Main (EOther u) false [u] [] SNew
        (fun _ => [match u with G c => match narrow_of wide_of c with Some d => G d | None => u end | _ => u end])
        (fun p1 => end_bytes Romaji fl (EOther u) p1)); try reflexivity; [|left; auto|].
      * cbn [long_if map app]. rewrite app_nil_r. reflexivity.
      * intros p1 _. cbn [end_bytes ctEqb].
        assert (Self : is_source t u = false).
        { destruct u as [c|]; [|reflexivity]. unfold is_source, is_repeat. rewrite Kc. cbn [repeat_of] in R.
          destruct (c =? 0x309D + off t); [discriminate|]. destruct (c =? 0x309E + off t); [discriminate|]. reflexivity. }
        assert (Same : output_ok t cl [u] [u] (gb u)).
        { split; [symmetry; apply gtext_one|]. split; [apply F1; exact Hu|]. split; [reflexivity|]. intros _. constructor; [exact Self|constructor]. }
        destruct u as [c|]; [|exact Same]. destruct (narrow_of wide_of c) as [n|] eqn:E; [|exact Same].
        apply narrow_in in E. destruct (wide_sane _ _ E) as [A B].
        split; [rewrite gtext_one, gb_G; unfold enc; replace (n <? 128) with true by lia; reflexivity|].
        split; [apply F1; cbn; unfold scalar; lia|]. split.
        -- cbn [filter]. unfold foreign at 1. cbn [is_ascii]. replace (n <? 0x80) with true by lia. cbn [negb andb].
           unfold foreign. rewrite (wide_in _ _ E). cbn [negb]. rewrite andb_false_r. reflexivity.
        -- intros _. constructor; [|constructor]. unfold is_source, is_kana, is_repeat. lia.
Qed.
Lemma kana_to_romaji : forall fl ltr t us, kana_type t -> Forall glyph_ok us ->
  exists os, convertFrom Romaji fl ltr t (gtext us) = Val (gtext os) /\ Forall glyph_ok os
    /\ filter (foreign t) os = filter (foreign t) us
    /\ (~ has_broken t us -> Forall (fun u => is_source t u = false) os).
Proof.
  intros fl ltr t us Ht Hok. destruct (emit_output fl ltr t Ht us [] SNew None Hok) as [os [A [B [C D]]]]; [left; auto|exact I|].
  exists os. split; [|auto]. unfold convertFrom.
  replace (ctEqb t Romaji) with false by (destruct t; try reflexivity; exfalso; apply Ht; reflexivity).
  replace (match t with Romaji => fromRomaji Romaji fl (gtext us) [] | _ => fromKana Romaji fl ltr (gtext us) t end)
    with (fromKana Romaji fl ltr (gtext us) t) by (destruct t; try reflexivity; exfalso; apply Ht; reflexivity).
  rewrite fromKana_emit by assumption. rewrite A. reflexivity.
Qed.
