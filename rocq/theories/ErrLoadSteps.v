(** Lemmas about the messages of loading: the steps. *)
From Coq Require Import Permutation Sorted.
From Verif Require Import BaseFacts ListProofs MapProofs DataProofs ReportProofs ConverterProps ErrTableProofs ErrListProofs ErrUcdProofs ErrOfficialProofs ErrOfficialTable ErrJukugoLoad ErrArgsProps.
From Verif Require Import ErrLoadSame DataSpec DetailsModel.
From Verif Require Export ErrLoadProofs.
From Verif Require Import ErrBase.
Open Scope N_scope.
Arguments N.mul : simpl never. Arguments N.add : simpl never. Arguments N.sub : simpl never.

Lemma makes_shows : forall x cs v, tells x cs -> plain x = v -> dom_says x -> shows x (makes cs v) eq.
Proof.
  intros x cs v [(k & -> & Al)|(e & w & -> & F & U & Na)] P Dm.
  - cbn [plain] in P. exists (inl k). split; [split; [exact Al|congruence]|]. split; [|eauto]. intros [k'|[e w]] H; cbn [makes] in H; [destruct H; congruence|]. destruct H as [_ F]. destruct (all_no_fault _ _ Al F).
  - pose proof (Dm _ _ eq_refl) as ->. exists (inr (DomainError, w)). split; [split; [reflexivity|exact F]|]. split; [|reflexivity].
    intros [k|[e w']] H; cbn [makes] in H; [tauto|]. destruct H as [-> F']. rewrite (U w' F'). reflexivity.
Qed.

Section Make.
Variable e : Env.
Lemma number_radical_tells : forall A u (P : Ucd -> Prop) (f : Radical -> res A) cs, (forall x, P x <-> x = u) -> (forall v, tells (f v) cs) ->
  tells (rbind (radicalByNumberT (envRadicals e) (ucdRadical u)) f) (entry_radical_checks e P ++ cs).
Proof.
  intros A u P f cs HP Hf. unfold entry_radical_checks, radicalByNumberT. cbn [app]. destruct (radList (envRadicals e)) as [|x xs] eqn:E.
  - cbn [rbind]. apply tells_stop; cbn [fst snd]; [intro H; apply H; reflexivity|reflexivity|intros w' H; exact H].
  - apply tells_pass; [cbn [fst]; discriminate|]. rewrite <- E in *. destruct ((ucdRadical u =? 0) || (len (radList (envRadicals e)) <? ucdRadical u)) eqn:C.
    + cbn [rbind]. rewrite orb_true_iff, N.eqb_eq, N.ltb_lt in C. apply tells_stop; cbn [fst snd].
      * intro H. specialize (H u (proj2 (HP u) eq_refl)). lia.
      * exists u, (to_string (ucdRadical u)). split; [apply HP; reflexivity|]. split; [apply to_string_written|]. unfold quoted. rewrite <- ?app_assoc. reflexivity.
      * intros w' (y & t & Hy & W & ->). apply HP in Hy. subst y. rewrite <- (number_of _ _ W). unfold quoted. rewrite <- ?app_assoc. reflexivity.
    + rewrite orb_false_iff, N.eqb_neq, N.ltb_ge in C. destruct (nth_error (radList (envRadicals e)) (N.to_nat (ucdRadical u - 1))) as [y|] eqn:Y; cbn [rbind].
      * apply tells_pass; [|apply Hf]. cbn [fst]. intros z Hz. apply HP in Hz. subst z. lia.
      * exfalso. apply nth_error_None in Y. unfold len in C. lia.
Qed.
Lemma radicalByNumber_dom : forall n, dom_says (radicalByNumberT (envRadicals e) n).
Proof.
  intros n x w. unfold radicalByNumberT. destruct (radList (envRadicals e)) as [|y ys] eqn:E; [intro H; injection H as <- _; reflexivity|]. rewrite <- E.
  destruct ((n =? 0) || (len (radList (envRadicals e)) <? n)) eqn:C; [intro H; injection H as <- _; reflexivity|]. rewrite orb_false_iff, N.eqb_neq, N.ltb_ge in C.
  destruct (nth_error (radList (envRadicals e)) (N.to_nat (n - 1))) as [z|] eqn:Y; [discriminate|]. apply nth_error_None in Y. unfold len in C. lia.
Qed.
Lemma radicalOf_dom : forall n u, dom_says (ucdRadicalOfT e n u).
Proof. intros n [u|]; [apply radicalByNumber_dom|]. intros x w H. injection H as <- _. reflexivity. Qed.
(** the entry, its radical and its strokes *)
Lemma entry_tells : forall A n u (f : Radical -> N * N -> res A) cs, ucdFind (envUcd e) n = Val u -> (forall r s, tells (f r s) cs) ->
  tells (r <~ ucdRadicalOfT e n u ;; s <~ ucdStrokesOfT n u ;; f r s) (ucd_checks e n ++ cs).
Proof.
  intros A n u f cs Hu Hf. unfold ucd_checks. cbn [app]. destruct u as [u|].
  - apply tells_pass; [exists u; exact Hu|]. cbn [ucdRadicalOfT ucdStrokesOfT]. apply (number_radical_tells _ u); [intro x; unfold entry_of; rewrite Hu; split; congruence|]. intro r. cbn [rbind]. apply Hf.
  - cbn [ucdRadicalOfT rbind]. apply tells_stop; cbn [fst snd]; [|reflexivity|intros w' H; exact H]. intros [x H]. unfold entry_of in H. congruence.
Qed.
Lemma linked_shows : forall o n k, shows (makeLinkedT e o n k) (linked e o n k) eq.
Proof.
  intros o n k. apply makes_shows; [|apply makeLinked_plain|].
  - unfold makeLinkedT, link_checks. cbn [app]. rewrite <- (app_nil_r (ucd_checks e n)).
    assert (Tx : b_ "OfficialLinkedKanji " ++ n ++ b_ " wanted type '" ++ typeToString Jouyou ++ (if o then [] else b_ "' or '" ++ typeToString Jinmei) ++ b_ "' for link " ++ kName k ++ b_ ", but got '" ++ typeToString (kType k) ++ b_ "'"
      = b_ "OfficialLinkedKanji " ++ n ++ b_ " wanted type " ++ (if o then quoted (b_ "Jouyou") else quoted (b_ "Jouyou") ++ b_ " or " ++ quoted (b_ "Jinmei")) ++ b_ " for link " ++ kName k ++ b_ ", but got " ++ quoted (typeToString (kType k))).
    { destruct o; unfold quoted; rewrite <- ?app_assoc; reflexivity. }
    rewrite Tx. clear Tx. match goal with |- context [texts ?t] => generalize t; intro w0 end. apply (tells_if _ _ DomainError w0).
    + cbn [fst]. destruct (kType k), o; split; intro H; try reflexivity; try discriminate H; try (left; reflexivity); try (right; split; reflexivity); destruct H as [H|[H1 H2]]; discriminate.
    + reflexivity.
    + intros w' _ H. exact H.
    + intros _. apply ucd_tells. intros u Hu. apply entry_tells; [exact Hu|]. intros r s. apply new_tells.
  - unfold makeLinkedT. destruct (match kType k with Jouyou => false | Jinmei => o | _ => true end); [intros x w H; injection H as <- _; reflexivity|].
    apply dom_rbind; [apply dom_ucd|]. intro u. apply dom_rbind; [apply radicalOf_dom|]. intro r. apply dom_rbind; [apply dom_ucdStrokes|]. intro s. apply dom_new.
Qed.

(** readings of entries are texts *)
Hypothesis Hread : forall s u, In (s, u) (ucdMap (envUcd e)) -> bytes_ok (ucdOn u) /\ bytes_ok (ucdKun u).
Lemma reading_got : forall u, (exists s, In (s, u) (ucdMap (envUcd e))) -> exists r, ucdReading e (Some u) = Val r.
Proof.
  intros u [s I]. apply Hread in I. destruct I as [I1 I2]. unfold ucdReading, getReadingsAsKana.
  assert (Cm : forall t, bytes_ok t -> bytes_ok (commas t)).
  { intros t Ht. unfold commas, bytes_ok in *. rewrite Forall_forall in *. intros c Hc. apply in_map_iff in Hc. destruct Hc as (x & <- & Hx). destruct (x =? 32); [lia|auto]. }
  destruct (C53_total_from Katakana FlagNone (envLtr e) Romaji _ (Cm _ I1)) as [on ->]. cbn [obind]. destruct (ucdKun u) as [|c r] eqn:E; [eauto|]. rewrite <- E in *. cbv zeta.
  assert (Hk : bytes_ok (match on with [] => commas (ucdKun u) | _ => 44 :: commas (ucdKun u) end)) by (destruct on; [apply Cm; exact I2|constructor; [lia|apply Cm; exact I2]]).
  destruct (C53_total_from Hiragana FlagNone (envLtr e) Romaji _ Hk) as [kun ->]. cbn [obind]. eauto.
Qed.
Lemma entry_in : forall n u, ucdFind (envUcd e) n = Val (Some u) -> exists s, In (s, u) (ucdMap (envUcd e)).
Proof.
  intros n u. unfold ucdFind. destruct (isCharWithVariationSelector n) as [b|x| |]; try discriminate. cbn [obind]. destruct b.
  - destruct (noVariationSelector n) as [m|x| |]; try discriminate. cbn [obind]. destruct (mfind m (linkedJinmei (envUcd e))) as [r|]; [|discriminate]. intro H. injection H as H. exists r. apply In_mfind. exact H.
  - intro H. injection H as H. exists n. apply In_mfind. exact H.
Qed.
Lemma reading_val : forall n u r, ucdFind (envUcd e) n = Val u -> exists s, match r with Some s => Val s | None => ucdReading e u end = Val s.
Proof. intros n u [s|] H; [eauto|]. destruct u as [u|]; [|cbn [ucdReading]; eauto]. apply reading_got. exact (entry_in n u H). Qed.
Lemma other_shows : forall n r t f k (makeT : res Kanji), makeT = (u <~ quiet (ucdFind (envUcd e) n) ;; makeOtherT e n u r t f k) ->
  shows makeT (makes (ucd_checks e n) (u <- ucdFind (envUcd e) n ;; makeOther e n u r t f k)) eq.
Proof.
  intros n r t f k makeT ->. apply makes_shows.
  - apply ucd_tells. intros u Hu. unfold makeOtherT. destruct (reading_val n u r Hu) as [x ->]. cbn [quiet rbind]. rewrite <- (app_nil_r (ucd_checks e n)). apply entry_tells; [exact Hu|]. intros y s. apply new_tells.
  - rewrite plain_bind, ErrUcdTable.quiet_plain. destruct (ucdFind (envUcd e) n) as [u|x| |]; try reflexivity. apply makeOther_plain.
  - destruct (ucdFind_total (envUcd e) n) as [u Hu]. rewrite Hu. cbn [quiet rbind]. unfold makeOtherT. destruct (reading_val n u r Hu) as [x ->]. cbn [quiet rbind].
    apply dom_rbind; [apply radicalOf_dom|]. intro y. apply dom_rbind; [apply dom_ucdStrokes|]. intro s. apply dom_new.
Qed.
Lemma frequent_shows : forall i n, shows (makeFrequencyT e i n) (frequent e i n) eq.
Proof. intros i n. apply other_shows. reflexivity. Qed.
Lemma examined_shows : forall k n, shows (makeKenteiT e k n) (examined e k n) eq.
Proof. intros k n. apply other_shows. reflexivity. Qed.
Lemma from_entry_shows : forall s u, In (s, u) (ucdMap (envUcd e)) -> shows (makeUcdKanjiT e u) (from_entry e u) eq.
Proof.
  intros s u I. destruct (reading_got u (ex_intro _ s I)) as [x Hx]. apply makes_shows; [|apply makeUcd_plain|].
  - unfold makeUcdKanjiT, makeOtherT. rewrite Hx. cbn [quiet rbind ucdRadicalOfT]. rewrite <- (app_nil_r (entry_radical_checks e _)). apply (number_radical_tells _ u); [reflexivity|]. intro r. cbn [ucdStrokesOfT rbind]. apply new_tells.
  - unfold makeUcdKanjiT, makeOtherT. rewrite Hx. cbn [quiet rbind].
    apply dom_rbind; [apply radicalOf_dom|]. intro y. apply dom_rbind; [apply dom_ucdStrokes|]. intro st. apply dom_new.
Qed.

(** ** steps *)
Lemma store_next : forall t (made : res Kanji) (rel : Result Kanji -> Prop) d ks, Books d ks -> shows made rel eq ->
  shows (k <~ made ;; insertTypeT t k d) (andthen rel (fun k => stores k ks)) Books.
Proof. intros t made rel d ks HB Hm. apply (shows_bind _ _ _ _ _ _ _ _ eq); [exact Hm|]. intros k k' <-. apply typed_shows. exact HB. Qed.
Lemma line_shows : forall file line d ks, Books d ks -> shows (linkedLineT e file line d) (line_step e file line ks) Books.
Proof.
  intros file line d ks HB. unfold line_step, linkedLineT. apply (shows_ex _ _ _ _ (getlines 9 line)); [apply cut_getlines; reflexivity|intros y H; apply cut_getlines; exact H|].
  assert (Tb : b_ "bad line '" ++ line ++ b_ "' - file: " ++ file = b_ "bad line " ++ quoted line ++ b_ " - file: " ++ file) by (unfold quoted; rewrite <- ?app_assoc; reflexivity). rewrite Tb. clear Tb.
  destruct (getlines 9 line) as [|j [|n ps]]; [apply shows_says; reflexivity|apply shows_says; reflexivity|].
  destruct (mfind j (dNames d)) as [link|] eqn:M.
  - apply (named_iff d ks HB) in M. destruct M as [I Hj]. apply (shows_iff _ _ _ (andthen (linked e false n link) (fun k => stores k ks))).
    + intro r. split; [|intro H; left; exists link; auto]. intros [(l & Il & Hl & H)|[H _]]; [|destruct H; rewrite <- Hj; apply in_map; exact I].
      assert (l = link); [|subst; exact H]. pose proof (proj2 (named_iff d ks HB j l) (conj Il Hl)) as X. pose proof (proj2 (named_iff d ks HB j link) (conj I Hj)) as Y. congruence.
    + apply store_next; [exact HB|apply linked_shows].
  - apply (unnamed_iff d ks HB) in M. assert (Tb : b_ "'" ++ j ++ b_ "' not found - file: " ++ file = quoted j ++ b_ " not found - file: " ++ file) by (unfold quoted; rewrite <- ?app_assoc; reflexivity). rewrite Tb. clear Tb.
    apply shows_says. intro r. split; [|auto]. intros [(l & Il & Hl & _)|[_ H]]; [|exact H]. destruct M. rewrite <- Hl. apply in_map. exact Il.
Qed.
Lemma find_shows : forall n d ks (F : res Data) (rel : Result Stored -> Prop), Books d ks -> shows F rel Books ->
  shows (match findByName d n with Some _ => Got d | None => F end) (fun r => ((exists k, reached ks n k) /\ r = inl ks) \/ (unreached ks n /\ rel r)) Books.
Proof.
  intros n d ks F rel HB HF. destruct (findByName d n) as [k|] eqn:E.
  - apply (shows_got _ _ d ks); [exact HB|]. intro r. rewrite (unreached_iff d ks HB), E. apply (reached_iff d ks HB) in E. split; [intros [[_ H]|[H _]]; [exact H|discriminate H]|]. intro H. left. eauto.
  - apply (shows_iff _ _ _ rel); [|exact HF]. intro r. rewrite (unreached_iff d ks HB). split; [|auto]. intros [[[k H] _]|[_ H]]; [|exact H]. apply (reached_iff d ks HB) in H. congruence.
Qed.
Lemma old_shows : forall link j d ks, Books d ks -> shows (oldNameT e link j d) (old_step e link j ks) Books.
Proof. intros link j d ks HB. apply find_shows; [exact HB|]. apply store_next; [exact HB|apply linked_shows]. Qed.
Lemma old_links_shows : forall p link d ks, snd p = link -> Books d ks -> shows (oldNamesT e p d) (old_links e link ks) Books.
Proof. intros p link d ks <- HB. apply same_each; [|exact HB]. intros j d' ks'. apply old_shows. Qed.
Lemma jinmei_shows : forall k d ks, Books d ks -> shows (jinmeiT e k d) (jinmei_links e k ks) Books.
Proof.
  intros k d ks HB. apply (shows_bind _ _ _ _ _ _ _ _ Books); [apply stores_shows; exact HB|]. intros d' ks' HB'. apply same_each; [|exact HB']. intros j d2 ks2 HB2. apply store_next; [exact HB2|apply linked_shows].
Qed.
Lemma listed_shows : forall kind k d ks, Books d ks -> shows (addToListT kind k d) (listed kind k ks) Books.
Proof.
  intros [|v|] k d ks HB; cbn [addToListT]; unfold listed.
  - unfold addToLevelsT, addToLevels, outOfRange.
    assert (Tb : b_ "index 'enum value " ++ b_ "5" ++ b_ "' is out of range" = snd (enum_fault (b_ "5"))) by reflexivity. rewrite Tb. clear Tb. unfold enum_fault. cbn [snd].
    match goal with |- context [inr (RangeError, ?t)] => generalize t; intro w end. unfold hasLevel.
    destruct (kLevel k); cbn [quiet]; try (eapply shows_got; [eapply Books_same; [exact HB|reflexivity..]|]; intro r; split; [intros [[_ H]|[H _]]; [exact H|discriminate H]|intro H; left; split; [discriminate|exact H]]).
    apply shows_says. intro r. split; [intros [[H _]|[_ H]]; [contradiction|exact H]|auto].
  - unfold addToKyusT, addToKyus, outOfRange.
    assert (Tb : b_ "index 'enum value " ++ b_ "12" ++ b_ "' is out of range" = snd (enum_fault (b_ "12"))) by reflexivity. rewrite Tb. clear Tb. unfold enum_fault. cbn [snd].
    match goal with |- context [inr (RangeError, ?t)] => generalize t; intro w end. unfold hasKyu.
    destruct (kKyu k); cbn [quiet]; try (eapply shows_got; [eapply Books_same; [exact HB|reflexivity..]|]; intro r; split; [intros [[_ H]|[H _]]; [exact H|discriminate H]|intro H; left; split; [discriminate|exact H]]).
    apply shows_says. intro r. split; [intros [[H _]|[_ H]]; [contradiction|exact H]|auto].
  - eapply shows_got; [eapply Books_same; [exact HB|reflexivity..]|]. intro r. reflexivity.
Qed.
Lemma word_shows : forall kind makeT make, (forall i n, shows (makeT i n) (make i n) eq) -> forall p q d ks, q = (fst p + 1, snd p) -> Books d ks ->
  shows (listEntryT kind makeT p d) (word_step kind make q ks) Books.
Proof.
  intros kind makeT make Hm [i n] q d ks -> HB. unfold listEntryT, word_step. cbn [fst snd]. destruct (findByName d n) as [k|] eqn:E.
  - cbn [rbind]. apply (shows_iff _ _ _ (listed kind k ks)); [|apply listed_shows; exact HB]. intro r. rewrite (unreached_iff d ks HB), E. split.
    + intros [(k' & Hk & H)|[H _]]; [|discriminate H]. apply (reached_iff d ks HB) in Hk. assert (k' = k) by congruence. subst k'. exact H.
    + intro H. left. exists k. split; [apply (reached_iff d ks HB); exact E|exact H].
  - apply (shows_iff _ _ _ (andthen (make (i + 1) n) (fun k => andthen (stores k ks) (listed kind k)))).
    + intro r. rewrite (unreached_iff d ks HB). split; [|auto]. intros [(k & H & _)|[_ H]]; [|exact H]. apply (reached_iff d ks HB) in H. congruence.
    + rewrite ErrUcdRow.rbind_assoc. apply (shows_bind _ _ _ _ _ _ _ _ eq); [apply Hm|]. intros k k' <-. rewrite ErrUcdRow.rbind_assoc.
      apply (shows_bind _ _ _ _ _ _ _ _ Books); [apply typed_shows; exact HB|]. intros d' ks' HB'. cbn [rbind]. apply listed_shows. exact HB'.
Qed.
Lemma places_are : forall A (l : list A) i, Forall2 (fun p q => q = (fst p + 1, snd p)) (indexed i l) (places (i + 1) l).
Proof. intros A l. induction l as [|a l IH]; intro i; cbn [indexed places]; constructor; [reflexivity|apply IH]. Qed.
Lemma list_shows : forall kind makeT make, (forall i n, shows (makeT i n) (make i n) eq) -> forall l d ks, Books d ks ->
  shows (processListT kind makeT l d) (word_list kind make l ks) Books.
Proof.
  intros kind makeT make Hm l d ks HB. apply (shows_each _ _ _ _ (fun p q => q = (fst p + 1, snd p))); [|apply (places_are _ l 0)|exact HB]. intros p q d' ks' Hq HB'. apply (word_shows kind makeT make Hm); assumption.
Qed.
Lemma entry_shows : forall p d ks, In p (ucdMap (envUcd e)) -> Books d ks -> shows (ucdEntryT e p d) (entry_step e (snd p) ks) Books.
Proof. intros [s u] d ks I HB. apply find_shows; [exact HB|]. apply store_next; [exact HB|]. exact (from_entry_shows s u I). Qed.
Lemma entries_shows : forall d ks, Books d ks -> shows (forEachT (ucdEntryT e) (ucdMap (envUcd e)) d) (each (fun p => entry_step e (snd p)) (ucdMap (envUcd e)) ks) Books.
Proof.
  intros d ks HB. apply (shows_each _ _ _ _ (fun p q => p = q /\ In p (ucdMap (envUcd e)))); [intros p q d' ks' [<- I] HB'; apply entry_shows; assumption| |exact HB].
  clear. set (m := ucdMap (envUcd e)). assert (X : forall l, incl l m -> Forall2 (fun p q => p = q /\ In p m) l l).
  { induction l as [|p l IH]; intro H; constructor; [split; [reflexivity|apply H; left; reflexivity]|]. apply IH. intros x Hx. apply H. right. exact Hx. }
  apply X. apply incl_refl.
Qed.
End Make.
